(** Properties C53 to C60: group calls over any history, and concurrent calls. *)
From Verif Require Import PyBase Wire Protos Crypto Ecc Kdf Messages State Prog Ratchet Builder Cipher Groups Helper.
From Verif Require Import SpecSession SpecGroup SpecApi SpecGroupHist GroupHistProofs GroupHistProofs2 GroupGrowth GroupHistRefuted Toy Ex.

(** ** C53: a sender never repeats an iteration *)

(** Between the two encrypts lies any sequence of calls of any kind, for this or another
    name, each of which may have died at any point. *)
Theorem C53_iterations_increase : forall C, crypto_ok C -> forall n w p1 b1 w1 w2 p2 b2 w3,
  run (group_encrypt C n p1) w = (Ok b1, w1) -> later C w1 w2 -> run (group_encrypt C n p2) w2 = (Ok b2, w3) ->
  exists m1 m2, sk_msg_parse b1 = Ok m1 /\ sk_msg_parse b2 = Ok m2 /\
    gKeyId m1 = gKeyId m2 /\ (gIteration m1 < gIteration m2)%N.
Proof. exact group_iterations_increase. Qed.
Print Assumptions C53_iterations_increase.

(** Three messages; before the third one encrypt dies once before and once after storing. *)
Definition itOf (b : bytes) : option N := match sk_msg_parse b with Ok m => Some (gIteration m) | Err _ => None end.
Definition gS3 : world := (run (group_encrypt toy gname [x2b]) gS2).2.
Definition gS4 : world := (run_crash 2 (group_encrypt toy gname [x2c]) gS3).2.
Definition gS5 : world := (run_crash 3 (group_encrypt toy gname [x2c]) gS4).2.
Example C53_example :
  [itOf gMsg0; itOf gMsg1; itOf (get [] (run (group_encrypt toy gname [x2d]) gS4).1);
   itOf (get [] (run (group_encrypt toy gname [x2d]) gS5).1)] = [Some 0%N; Some 1%N; Some 2%N; Some 3%N].
Proof. vm_compute. reflexivity. Qed.

(** ** C54: a group message is decrypted once *)

Theorem C54_decrypted_once : forall C n w b pt w1 w2,
  group_reachable C w -> run (group_decrypt C n b) w = (Ok pt, w1) -> later C w1 w2 ->
  run (group_decrypt C n b) w2 = (Err EDuplicateMessage, w2).
Proof. exact group_decrypted_once. Qed.
Print Assumptions C54_decrypted_once.

(** Nor is any other message with its key id and iteration. *)
Theorem C54_iteration_once : forall C n w b b' m m' pt w1 w2,
  group_reachable C w -> run (group_decrypt C n b) w = (Ok pt, w1) -> later C w1 w2 ->
  sk_msg_parse b = Ok m -> sk_msg_parse b' = Ok m' -> gKeyId m' = gKeyId m -> gIteration m' = gIteration m ->
  exists e, run (group_decrypt C n b') w2 = (Err e, w2).
Proof. exact group_iteration_once. Qed.
Print Assumptions C54_iteration_once.

(** Not vacuous: the member reads the first message, joins again, and is sent it again; the
    second one it can read. *)
Example C54_example :
  (run (group_decrypt toy gname gMsg0) gM1).1 = Ok [x2a] /\
  (run (group_decrypt toy gname gMsg0) gM3).1 = Err EDuplicateMessage /\
  (run (group_decrypt toy gname gMsg1) gM3).1 = Ok [x2b].
Proof. split; [|split]; vm_compute; reflexivity. Qed.

(** ** C55: used keys are gone *)

(** False for the whole record: a member that processes the same distribution message again
    stores a second state with the key id, and this one can produce the used key and open
    the message. *)
Theorem C55_erased_refuted : exists C n w b pt w1 w2 m rec s k s',
  crypto_ok C /\ group_reachable C w /\ run (group_decrypt C n b) w = (Ok pt, w1) /\ later C w1 w2 /\
  sk_msg_parse b = Ok m /\ senderkey_at w2 n = Ok rec /\ s ∈ rec /\ default 0%N (st_senderKeyId s) = gKeyId m /\
  getSenderKey C s (gIteration m) = Ok (k, s') /\ aes_decrypt C (smCipher k) (smIv k) (gCiphertext m) = Ok pt.
Proof. exact group_erased_refuted. Qed.
Print Assumptions C55_erased_refuted.

(** True for the state that decrypts, for ever. *)
Theorem C55_answering_erased_partial : forall C n w b pt w1 w2,
  group_reachable C w -> run (group_decrypt C n b) w = (Ok pt, w1) -> later C w1 w2 ->
  exists m rec s, sk_msg_parse b = Ok m /\ senderkey_at w2 n = Ok rec /\ answering rec (gKeyId m) s /\
    ~ holds_group_key s (gIteration m).
Proof. exact group_erased. Qed.
Print Assumptions C55_answering_erased_partial.

(** The two states of the member after joining twice: chain at 1 and chain at 0. *)
Example C55_example : (fun s => (chain_at s, kept s)) <$> get [] (senderkey_at gM3 gname) = [(1%N, []); (0%N, [])].
Proof. vm_compute. reflexivity. Qed.

(** ** C56: skipped keys are bounded *)

(** There is no bound: [n] messages are lost, the next one arrives, and [n] keys are
    stored. *)
Theorem C56_stored_bounded_refuted : forall C, crypto_ok C -> forall name S M n pt,
  w_senderkeys S !! name = None -> w_senderkeys M !! name = None -> (N.of_nat n + 3 < 2 ^ 32)%N ->
  exists M' s rest, g_M (gplay C name (GCreate :: GJoin 0 0 :: replicate n (GSend pt) ++ [GSend pt; GDeliver 0 n]) (GNet S [M] [] [])).2 = [M'] /\
    senderkey_at M' name = Ok (s :: rest) /\ length (st_senderMessageKeys s) = n.
Proof. exact stored_unbounded. Qed.
Print Assumptions C56_stored_bounded_refuted.

(** What one message does to the stored keys: one behind the chain removes its key; one at
    or ahead of it adds a key for each iteration it skips, and moves the chain behind it. *)
Theorem C56_stored_exact_partial : forall C n w b pt w1,
  run (group_decrypt C n b) w = (Ok pt, w1) ->
  exists m l1 s s' l2, sk_msg_parse b = Ok m /\ senderkey_at w n = Ok (l1 ++ s :: l2) /\ senderkey_at w1 n = Ok (l1 ++ s' :: l2) /\
    default 0%N (st_senderKeyId s) = gKeyId m /\
    (if (gIteration m <? chain_at s)%N then
       chain_at s' = chain_at s /\ exists k1 k2, kept s = k1 ++ gIteration m :: k2 /\ kept s' = k1 ++ k2
     else chain_at s' = (gIteration m + 1)%N /\
       kept s' = kept s ++ ((fun i => chain_at s + N.of_nat i)%N <$> seq 0 (N.to_nat (gIteration m - chain_at s)))).
Proof. exact group_decrypt_kept. Qed.
Print Assumptions C56_stored_exact_partial.

Example C56_example :
  let w := (run (group_decrypt toy gname (get [] (run (group_encrypt toy gname [x2d]) gS5).1)) gM1).2 in
  let w' := (run (group_decrypt toy gname gMsg1) w).2 in
  ((fun s => (chain_at s, kept s)) <$> get [] (senderkey_at w gname),
   (fun s => (chain_at s, kept s)) <$> get [] (senderkey_at w' gname))
  = ([(4%N, [0%N; 1%N; 2%N])], [(4%N, [0%N; 2%N])]).
Proof. vm_compute. reflexivity. Qed.

(** ** C57: states are bounded *)

(** There is no bound: processing distribution messages, also the same one, adds states
    without end. *)
Theorem C57_states_bounded_refuted : forall C n m k w rec,
  senderkey_at w n = Ok rec -> (dId m < 2 ^ 32)%N -> (dIteration m < 2 ^ 32)%N ->
  exists w' rec', later C w w' /\ senderkey_at w' n = Ok rec' /\ length rec' = length rec + k.
Proof. exact group_states_grow. Qed.
Print Assumptions C57_states_bounded_refuted.

(** Each processed message adds exactly one state, at the end. *)
Theorem C57_process_adds_one_partial : forall n m w rec w',
  senderkey_at w n = Ok rec -> run (group_process n m) w = (Ok tt, w') ->
  exists s, senderkey_at w' n = Ok (rec ++ [s]) /\ default 0%N (st_senderKeyId s) = dId m /\ chain_at s = dIteration m.
Proof. exact group_process_adds. Qed.
Print Assumptions C57_process_adds_one_partial.

Example C57_example : (fun w => length (get [] (senderkey_at w gname))) <$> [gM0; gM1; gM2; gM3] = [0; 1; 1; 2].
Proof. vm_compute. reflexivity. Qed.

(** ** C58: creating a sender key twice *)

Theorem C58_create_idempotent : forall C n w m w1,
  run (group_create C n) w = (Ok m, w1) -> run (group_create C n) w1 = (Ok m, w1).
Proof. exact group_create_again. Qed.
Print Assumptions C58_create_idempotent.

Example C58_example :
  get noDist (run (group_create toy gname) gS1).1 = gDist /\ bool_decide (w_senderkeys gS1 = w_senderkeys gS0) = false.
Proof. split; vm_compute; reflexivity. Qed.

(** ** C59: concurrent group encrypts *)

(** Two encrypts for one name that both load before either stores use one iteration, hence
    one key and one initialisation vector, for two plaintexts. *)
Theorem C59_concurrent_refuted : exists C w n p1 p2 l b1 b2 w' m1 m2,
  crypto_ok C /\ group_reachable C w /\ run_pair l (group_encrypt C n p1) (group_encrypt C n p2) w = (Ok b1, Ok b2, w') /\
  sk_msg_parse b1 = Ok m1 /\ sk_msg_parse b2 = Ok m2 /\ p1 <> p2 /\ gKeyId m1 = gKeyId m2 /\ gIteration m1 = gIteration m2.
Proof. exact group_overlap_refuted. Qed.
Print Assumptions C59_concurrent_refuted.

(** ** C60: concurrent deliveries of one message *)

(** Both return the plaintext, for a session and for a group. *)
Theorem C60_session_refuted : exists C w r d m l pt w',
  crypto_ok C /\ reachable C w /\ run_pair l (decryptMsg C r d m) (decryptMsg C r d m) w = (Ok pt, Ok pt, w').
Proof. exact session_twice_refuted. Qed.
Print Assumptions C60_session_refuted.

Theorem C60_group_refuted : exists C w n b l pt w',
  crypto_ok C /\ group_reachable C w /\ run_pair l (group_decrypt C n b) (group_decrypt C n b) w = (Ok pt, Ok pt, w').
Proof. exact group_twice_refuted. Qed.
Print Assumptions C60_group_refuted.
