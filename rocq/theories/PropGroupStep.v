(** C75: exactly what the group calls do.  C76: exactly when they fail. *)
From Verif Require Import PyBase Wire Protos Crypto Ecc Kdf Messages State Prog Builder Cipher Groups Toy.
From Verif Require Import HelperFacts SpecUtil SpecSession SpecKeys SpecGroup SpecApi SpecGroupHist SpecGroupStep GroupEffects GroupErrors GroupHistRefuted Ex.

(** ** C75 *)

(** A plaintext is returned exactly when the message opens, and then the state it was opened
    with, and nothing else, has moved. *)
Theorem C75_decrypt : forall C, crypto_ok C -> forall w name bs pt w',
  run (group_decrypt C name bs) w = (Ok pt, w') <-> group_opens C w name bs pt w'.
Proof. exact group_opens_iff. Qed.
Print Assumptions C75_decrypt.

(** A message that was sent is the next one of the first state, which moves one step. *)
Theorem C75_encrypt : forall C, crypto_ok C -> forall w name pt bs w',
  run (group_encrypt C name pt) w = (Ok bs, w') -> group_sends C w name pt bs w'.
Proof. exact group_sends_ok. Qed.
Print Assumptions C75_encrypt.

(** The first distribution message carries the id, chain key and signing key drawn for it. *)
Theorem C75_create : forall C, crypto_ok C -> forall w name,
  senderkey_at w name = Ok [] ->
  let id := (be_val (w_tape w (w_pos w)) mod 2147483647)%N in
  let ck := resize 32 x00 (w_tape w (1 + w_pos w)) in let kp := kp_at C w (2 + w_pos w) in
  exists m w', run (group_create C name) w = (Ok m, w') /\ distributes m id 0 ck (kp_pub kp) /\
    sender_keys_become (w_set_pos (3 + w_pos w) w) name [fresh_state id 0 ck (kp_pub kp) (Some (kp_priv kp))] w'.
Proof. exact group_create_first. Qed.
Print Assumptions C75_create.

(** Any further one says where the first state is now; nothing changes. *)
Theorem C75_create_again : forall C w name s rec pub,
  senderkey_at w name = Ok (s :: rec) -> identity_of (signing_public s) pub ->
  exists m, run (group_create C name) w = (Ok m, w) /\ distributes m (key_id s) (chain_at s) (chain_key s) pub.
Proof. exact group_create_again. Qed.
Print Assumptions C75_create_again.

(** A processed distribution message becomes the last state. *)
Theorem C75_process : forall w name m rec,
  senderkey_at w name = Ok rec -> (dId m < 2 ^ 32)%N -> (dIteration m < 2 ^ 32)%N ->
  exists w', run (group_process name m) w = (Ok tt, w') /\
    sender_keys_become w name (rec ++ [fresh_state (dId m) (dIteration m) (dChainKey m) (dSignatureKey m) None]) w'.
Proof. exact group_process_runs. Qed.
Print Assumptions C75_process.

(** The second message first: the state of the member moves two steps and stores the seed of
    the first; then the first: the seed is gone. *)
Definition gMlate : world := (run (group_decrypt toy gname gMsg1) gM1).2.
Definition gMboth : world := (run (group_decrypt toy gname gMsg0) gMlate).2.
Definition onlyState (w : world) : st_s := match senderkey_at w gname with Ok [s] => s | _ => noSt end.
Example C75_late :
  let s := onlyState gM1 in let ck := dChainKey gDist in
  s = fresh_state (dId gDist) 0 ck (dSignatureKey gDist) None /\
  onlyState gMlate = moved s 2 (group_stepped toy ck 2) [SmkS (Some 0%N) (Some (group_seed toy ck))] /\
  onlyState gMboth = moved s 2 (group_stepped toy ck 2) [] /\
  (run (group_decrypt toy gname gMsg0) gMlate).1 = Ok [x2a].
Proof. vm_compute. split_and!; reflexivity. Qed.
(** The sender: id, chain key and signing key are the first three draws; a message moves the
    state one step and takes one draw. *)
Example C75_sender :
  let kp := kp_at toy gS0 2 in let s := onlyState gS1 in let ck := resize 32 x00 (w_tape gS0 1) in
  s = fresh_state (be_val (w_tape gS0 0) mod 2147483647) 0 ck (kp_pub kp) (Some (kp_priv kp)) /\
  onlyState gS2 = moved s 1 (hmac256 toy ck [x02]) [] /\ w_pos gS2 = 4 /\
  option_map (fun m => (gKeyId m, gIteration m)) (match sk_msg_parse gMsg0 with Ok m => Some m | _ => None end)
    = Some (key_id s, 0%N) /\
  (match run (group_create toy gname) gS2 with (Ok m, _) => Some (dIteration m, dChainKey m) | _ => None end)
    = Some (1%N, hmac256 toy ck [x02]).
Proof. vm_compute. split_and!; reflexivity. Qed.

(** ** C76 *)

(** What is stored can always be read, and every state has a usable signing key. *)
Theorem C76_readable : forall C, crypto_ok C -> forall w n,
  group_reachable C w -> exists rec, senderkey_at w n = Ok rec /\ Forall keyed rec.
Proof. exact group_readable. Qed.
Print Assumptions C76_readable.

(** Decrypting fails exactly in the nine cases of [group_refuses], with their exceptions, and
    then changes nothing. *)
Theorem C76_decrypt : forall C, crypto_ok C -> forall w name bs e w', group_reachable C w ->
  run (group_decrypt C name bs) w = (Err e, w') <->
  w' = w /\ exists rec, senderkey_at w name = Ok rec /\ group_refuses C rec bs e.
Proof. exact group_decrypt_refuses. Qed.
Print Assumptions C76_decrypt.

(** Encrypting fails exactly without a state, without its private key, or with the counter at
    its end. *)
Theorem C76_encrypt : forall C, crypto_ok C -> forall w name pt e, group_reachable C w ->
  (exists w', run (group_encrypt C name pt) w = (Err e, w')) <->
  exists rec, senderkey_at w name = Ok rec /\ send_refused rec e.
Proof. exact group_encrypt_refused. Qed.
Print Assumptions C76_encrypt.

(** A failed encrypt has drawn random bytes at most. *)
Theorem C76_encrypt_failed : forall C, crypto_ok C -> forall w name pt e w', group_reachable C w ->
  run (group_encrypt C name pt) w = (Err e, w') -> exists n, w' = w_set_pos n w.
Proof. exact group_encrypt_failed. Qed.
Print Assumptions C76_encrypt_failed.

(** Making a distribution message never fails, nor does processing one that could be read. *)
Theorem C76_create : forall C, crypto_ok C -> forall w name,
  group_reachable C w -> exists m w', run (group_create C name) w = (Ok m, w').
Proof. exact group_create_total. Qed.
Print Assumptions C76_create.
Theorem C76_process : forall C, crypto_ok C -> forall w name b m, group_reachable C w -> skd_msg_parse b = Ok m ->
  exists w', run (group_process name m) w = (Ok tt, w').
Proof. exact group_process_total. Qed.
Print Assumptions C76_process.

(** Each case of [group_refuses], at the member who has the sender's key. *)
Definition badKey : senderKeyDistributionMessage := SenderKeyDistributionMessage 5 0 [x01] [x02] [].
Definition lastKey : senderKeyDistributionMessage :=
  SenderKeyDistributionMessage 6 4294967295 (dChainKey gDist) (dSignatureKey gDist) [].
Definition signedBy (w : world) (bs : bytes) : bytes := bs ++ sign toy (replicate 64 x00) (kp_priv (kp_at toy w 2)) bs.
Definition frame (id iteration : N) (body : bytes) : bytes := x33 :: sk_enc (SkS (Some id) (Some iteration) (Some body)).
Example C76_cases :
  let decrypts w bs := (run (group_decrypt toy gname bs) w).1 in
  let with_key d := (run (group_process gname d) gM1).2 in
  decrypts gM0 gMsg0 = Err ENoSession /\
  decrypts gM1 [] = Err EAssertionError /\
  decrypts gM1 [x33] = Err EInvalidMessage /\
  decrypts gM1 (x23 :: tail gMsg0) = Err EInvalidMessage /\
  decrypts gM1 (signedBy gS0 (frame 7 0 [])) = Err EInvalidMessage /\
  decrypts (with_key badKey) (signedBy gS0 (frame 5 0 [])) = Err EValueError /\
  decrypts gM1 (gMsg0 ++ [x00]) = Err EInvalidMessage /\
  decrypts gM1 (frame (dId gDist) 0 [x00] ++ replicate 26 x00) = Err EValueError /\
  decrypts gM2 gMsg0 = Err EDuplicateMessage /\
  decrypts (with_key lastKey) (signedBy gS0 (frame 6 4294967295 [])) = Err EValueError /\
  decrypts gM1 (signedBy gS0 (frame (dId gDist) 0 [x00])) = Err EInvalidMessage.
Proof. vm_compute. split_and!; reflexivity. Qed.
(** A member cannot send under the key it received, and is not told so by an exception of the
    library. *)
Example C76_received_key :
  (run (group_encrypt toy gname [x2a]) gM0).1 = Err ENoSession /\ (run (group_encrypt toy gname [x2a]) gM1).1 = Err EValueError.
Proof. vm_compute. split_and!; reflexivity. Qed.
