(** C91: nothing about a plaintext is stored or shows in a header.  C92: used keys cannot be
    recovered from what is stored. *)
From Verif Require Import PyBase Wire Protos Crypto Ecc Kdf Messages State Prog Builder Cipher Groups Toy.
From Verif Require Import HelperFacts SpecUtil SpecSession SpecKeys SpecApi SpecEncrypt SpecRatchet SpecGroup SpecGroupHist SpecGroupStep SpecSetup SpecSecret SecretProofs SecretRefuted.
From Verif Require Import GroupHistRefuted Ex.

(** ** C91 *)

(** Encrypting two plaintexts from the same state: what is stored and drawn is the same, and
    the messages differ in nothing but the body and MAC.  The length shows the number of
    whole blocks. *)
Theorem C91_send : forall C, crypto_ok C -> forall w r d p p',
  (run (encrypt C r d p) w).2 = (run (encrypt C r d p') w).2 /\
  alike (fun x y => same_but_contents x y /\ (length p / 16 = length p' / 16 -> length (ct_serialize x) = length (ct_serialize y)))
    (run (encrypt C r d p) w).1 (run (encrypt C r d p') w).1.
Proof. exact send_plain. Qed.
Print Assumptions C91_send.
Theorem C91_group_send : forall C, crypto_ok C -> forall w name p p',
  (run (group_encrypt C name p) w).2 = (run (group_encrypt C name p') w).2 /\
  alike (fun x y => same_group_header x y /\ (length p / 16 = length p' / 16 -> length x = length y))
    (run (group_encrypt C name p) w).1 (run (group_encrypt C name p') w).1.
Proof. exact group_send_plain. Qed.
Print Assumptions C91_group_send.

(** Receiving one of two messages with the same header: what is stored is the same.  The
    condition is about archived states: which of the states opens a message may depend on
    its MAC. *)
Theorem C91_receive : forall C, crypto_ok C -> forall w r d m m' pt w1 pt' w1',
  same_header m m' -> (forall rec s, session_at w r d = Ok rec -> s ∈ states rec -> knows_both C m m' s) ->
  run (decryptMsg C r d m) w = (Ok pt, w1) -> run (decryptMsg C r d m') w = (Ok pt', w1') -> w1 = w1'.
Proof. exact msg_header. Qed.
Print Assumptions C91_receive.
Theorem C91_receive_one_state : forall C, crypto_ok C -> forall w r d m m' pt w1 pt' w1' rec,
  same_header m m' -> session_at w r d = Ok rec -> sr_previous rec = [] ->
  run (decryptMsg C r d m) w = (Ok pt, w1) -> run (decryptMsg C r d m') w = (Ok pt', w1') -> w1 = w1'.
Proof. exact msg_header_only. Qed.
Print Assumptions C91_receive_one_state.
Theorem C91_receive_first : forall C, crypto_ok C -> forall w r d m m' pt w1 pt' w1',
  reachable C w -> same_wrapper m m' ->
  (forall rec s, session_at w r d = Ok rec -> s ∈ states rec \/ SpecRatchet.answering C w m s -> knows_both C (pMessage m) (pMessage m') s) ->
  run (decryptPkmsg C r d m) w = (Ok pt, w1) -> run (decryptPkmsg C r d m') w = (Ok pt', w1') -> w1 = w1'.
Proof. exact pkmsg_header. Qed.
Print Assumptions C91_receive_first.
Theorem C91_group_receive : forall C, crypto_ok C -> forall w name bs bs' pt w1 pt' w1',
  same_group_header bs bs' ->
  run (group_decrypt C name bs) w = (Ok pt, w1) -> run (group_decrypt C name bs') w = (Ok pt', w1') -> w1 = w1'.
Proof. exact group_msg_header. Qed.
Print Assumptions C91_group_receive.

(** Two plaintexts of the same length from Alice, then received by Bob. *)
Definition sentBy (w : world) (pt : bytes) : ciphertextMessage := get noCt (run (encrypt toy 2 1 pt) w).1.
Definition storedAt (w : world) (r : Z) : option bytes := w_sessions w !! (r, 1%Z).
Definition wrapped (c : ciphertextMessage) : preKeyWhisperMessage := match c with CTPreKey p => p | CTWhisper _ => noPk end.
Definition bobAfter (pt : bytes) : world := (run (decryptPkmsg toy 1 1 (wrapped (sentBy alice1 pt))) bob1).2.
Example C91_example :
  let same (a b : option bytes) := bool_decide (a = b) in
  wBody (inner (sentBy alice1 [x01])) <> wBody (inner (sentBy alice1 [x02])) /\
  length (ct_serialize (sentBy alice1 [x01])) = length (ct_serialize (sentBy alice1 (replicate 15 x02))) /\
  length (ct_serialize (sentBy alice1 [x01])) <> length (ct_serialize (sentBy alice1 (replicate 16 x02))) /\
  (run (decryptPkmsg toy 1 1 (wrapped (sentBy alice1 [x02]))) bob1).1 = Ok [x02] /\
  same (storedAt (bobAfter [x01]) 1) (storedAt (bobAfter [x02]) 1) = true /\
  same (storedAt (bobAfter [x01]) 1) None = false.
Proof. vm_compute. split_and!; (reflexivity || discriminate). Qed.

(** ** C92 *)

(** Sending: the state stored afterwards is the same for every chain key with the same
    successor, so the key of the message sent can be learned from it no better than by
    inverting HMAC. *)
Theorem C92_send : forall C, crypto_ok C -> forall w r d s key w' p p' ct w1,
  other_session w r d 0 s (with_sending s (ss_rootKey s) (rekeyed (sending s) key)) w' ->
  hmac256 C (next_key (sending s)) [x02] = hmac256 C key [x02] ->
  run (encrypt C r d p) w = (Ok ct, w1) -> exists ct', run (encrypt C r d p') w' = (Ok ct', w1).
Proof. exact send_key. Qed.
Print Assumptions C92_send.
Theorem C92_group_send : forall C, crypto_ok C -> forall w name s key w' p p' ct w1,
  other_group w name 0 s (moved s (chain_at s) key (st_senderMessageKeys s)) w' ->
  group_stepped C (chain_key s) 1 = group_stepped C key 1 ->
  run (group_encrypt C name p) w = (Ok ct, w1) -> exists ct', run (group_encrypt C name p') w' = (Ok ct', w1).
Proof. exact group_send_key. Qed.
Print Assumptions C92_group_send.

(** Receiving: the state that opens the message is exchanged for one with other secrets, and
    the message for one that opens with those.  Both end in the same storage: it does not
    tell the chain key, the stored key, or the root key and private ratchet key that opened
    the message. *)
Theorem C92_receive : forall C, crypto_ok C -> forall w w' r d i s s' m m' pt pt',
  reachable C w -> other_session w r d i s s' w' ->
  other_secrets C s (wVersion m) (wRatchetKey m) (wCounter m) s' -> same_header m m' ->
  (forall rec k x, session_at w r d = Ok rec -> k < i -> states rec !! k = Some x ->
    answers C x m (Err EInvalidMessage) /\ answers C x m' (Err EInvalidMessage)) ->
  answers C s m (Ok pt) -> answers C s' m' (Ok pt') ->
  exists w1, run (decryptMsg C r d m) w = (Ok pt, w1) /\ run (decryptMsg C r d m') w' = (Ok pt', w1).
Proof. exact other_msg. Qed.
Print Assumptions C92_receive.
Theorem C92_group_receive : forall C, crypto_ok C -> forall w w' name i s s' bs bs' m pt w1 pt' w1',
  other_group w name i s s' w' -> sk_msg_parse bs = Ok m -> gKeyId m = key_id s ->
  (forall rec k x, senderkey_at w name = Ok rec -> k < i -> rec !! k = Some x -> key_id x <> gKeyId m) ->
  other_seed C s (gIteration m) s' -> same_group_header bs bs' ->
  run (group_decrypt C name bs) w = (Ok pt, w1) -> run (group_decrypt C name bs') w' = (Ok pt', w1') -> w1 = w1'.
Proof. exact group_other_msg. Qed.
Print Assumptions C92_group_receive.

(** A message that opens a session with a one-time prekey: when the prekey is removed, the
    storage is the same for all private keys with the same agreement. *)
Theorem C92_receive_first : forall C, crypto_ok C -> forall w i k k' w' r d m pt w1,
  other_prekey w i k k' w' -> pPreKeyId m = Some i -> length k = 32 -> length k' = 32 -> agree C k (pBaseKey m) = agree C k' (pBaseKey m) ->
  run (decryptPkmsg C r d m) w = (Ok pt, w1) -> w_prekeys w1 !! i = None -> run (decryptPkmsg C r d m) w' = (Ok pt, w1).
Proof. exact pkmsg_prekey. Qed.
Print Assumptions C92_receive_first.

(** Key exchanges are different.  When a device processes the answer to a key exchange it
    started, the state with the private keys of the exchange goes to the archive as it is:
    the first state of the new session can be computed from the archive and the answer. *)
Theorem C92_exchange_kept : forall C, crypto_ok C -> forall w r d m w',
  reachable C w -> run (processKeyExchangeMessage C r d m) w = (Ok None, w') ->
  w' = w \/
  exists rec s id base rat n, session_at w' r d = Ok rec /\ s ∈ sr_previous rec /\
    started s (xSequence m) id base rat /\ exchange_session C w (w_pos w) id base rat m (sr_state rec) n.
Proof. exact exchange_kept. Qed.
Print Assumptions C92_exchange_kept.

(** So the property fails there: a message was read and its key removed, and messages went
    to and fro after that; still it opens with a session computed from nothing but what is
    stored and the recorded answer [kx]. *)
Theorem C92_exchange_refuted : exists C w r d m pt w1 w2 rec s kx id base rat,
  crypto_ok C /\ reachable C w /\ run (decryptMsg C r d m) w = (Ok pt, w1) /\ rtc (step C) w1 w2 /\
  session_at w2 r d = Ok rec /\ ss_pendingKeyExchange (sr_state rec) = None /\
  (run (decryptMsg C r d m) w2).1 = Err EDuplicateMessage /\
  s ∈ sr_previous rec /\ started s (xSequence kx) id base rat /\
  answers C (responder_session (kp_pub id) (xIdentityKey kx) (kp_pub rat) (kp_priv rat)
    (x3dh C [agree C (kp_priv base) (xIdentityKey kx); agree C (kp_priv id) (xBaseKey kx);
             agree C (kp_priv base) (xBaseKey kx)]) None None None) m (Ok pt).
Proof. exact exchange_refuted. Qed.
Print Assumptions C92_exchange_refuted.

(** Bob's prekey with another last byte, to which the toy agreement is blind. *)
Definition usedId : N := default 0%N (bu_preKeyId bundle).
Definition editPreKey (w : world) : world :=
  match w_prekeys w !! usedId with
  | Some bs => match pr_parse bs with
               | Ok pr => w_set_prekeys (<[usedId := pr_enc (PrS (pr_id pr) (pr_publicKey pr) (flipLast <$> pr_privateKey pr))]> (w_prekeys w)) w
               | Err _ => w end
  | None => w
  end.
Example C92_prekey_example :
  let m := wrapped (sentBy alice1 [x01]) in
  let b := run (decryptPkmsg toy 1 1 m) bob1 in let b' := run (decryptPkmsg toy 1 1 m) (editPreKey bob1) in
  let same (a b : option bytes) := bool_decide (a = b) in
  pPreKeyId m = Some usedId /\ b.1 = Ok [x01] /\ b'.1 = Ok [x01] /\
  same (w_prekeys bob1 !! usedId) (w_prekeys (editPreKey bob1) !! usedId) = false /\
  same (storedAt b.2 1) (storedAt b'.2 1) = true /\ w_prekeys b.2 !! usedId = None /\ w_prekeys b'.2 !! usedId = None.
Proof. vm_compute. split_and!; reflexivity. Qed.

(** Primitives where the successor of a chain key does not depend on its last byte, but the
    message keys do. *)
Definition leaky_hmac (k m : bytes) : bytes := toy_hmac (if bool_decide (m = [x02]) then take 31 k else k) m.
Definition leaky : crypto := Crypto leaky_hmac (fun r => r) toy_pub toy_agree toy_sign toy_verify toy_block toy_block.
Lemma leaky_ok : crypto_ok leaky.
Proof.
  split; cbn [hmac256 genPriv genPub agree sign verify aesE aesD leaky].
  - intros k m. unfold leaky_hmac. exact (co_hmac_len _ toy_ok _ _).
  - exact (co_priv_len _ toy_ok).
  - exact (co_pub_len _ toy_ok).
  - exact (co_agree_len _ toy_ok).
  - exact (co_sign_len _ toy_ok).
  - intros. apply toy_agree_comm.
  - intros s r m Hs Hr. unfold toy_verify, toy_sign.
    rewrite take_app_alt by (by rewrite toy_hash_length). by rewrite bool_decide_eq_true_2.
  - exact (co_aesE_len _ toy_ok).
  - intros k b Hk Hb. unfold toy_block. apply xorb_xorb. rewrite take_length, toy_hash_length. lia.
Qed.

(** The stored current state is changed. *)
Definition edited (w : world) (r : Z) (f : ss_s -> ss_s) : world :=
  match session_at w r 1 with
  | Ok rec => w_set_sessions (<[(r, 1%Z) := sr_serialize (sr_setState (f (sr_state rec)) rec)]> (w_sessions w)) w
  | Err _ => w
  end.
Definition currentAt (w : world) (r : Z) : ss_s := match session_at w r 1 with Ok rec => sr_state rec | Err _ => st_new end.
Definition editSending (s : ss_s) : ss_s := with_sending s (ss_rootKey s) (rekeyed (sending s) (flipLast (next_key (sending s)))).
Definition editReceiving (s : ss_s) : ss_s := with_receiving s (map (fun c => rekeyed c (flipLast (next_key c))) (ss_receiverChains s)).

(** Alice has sent one message and Bob has read it; then the last byte of the chain key that
    they share is another one. *)
Definition lA1 : world := (run (processPreKeyBundle leaky 2 1 bundle) alice0).2.
Definition lFirst : ciphertextMessage := get noCt (run (encrypt leaky 2 1 [x01]) lA1).1.
Definition lA2 : world := (run (encrypt leaky 2 1 [x01]) lA1).2.
Definition lB2 : world := (run (decryptPkmsg leaky 1 1 (wrapped lFirst)) bob1).2.
Definition lA2' : world := edited lA2 2 editSending.
Definition lB2' : world := edited lB2 1 editReceiving.
Definition lSecond (w : world) (pt : bytes) : whisperMessage := inner (get noCt (run (encrypt leaky 2 1 pt) w).1).
Example C92_example :
  let read w m := run (decryptMsg leaky 1 1 m) w in
  let same (a b : option bytes) := bool_decide (a = b) in
  next_key (sending (currentAt lA2 2)) <> next_key (sending (currentAt lA2' 2)) /\
  keys_of leaky 3 (next_key (sending (currentAt lA2 2))) <> keys_of leaky 3 (next_key (sending (currentAt lA2' 2))) /\
  same (storedAt lA2 2) (storedAt lA2' 2) = false /\ same (storedAt lB2 1) (storedAt lB2' 1) = false /\
  same (storedAt (run (encrypt leaky 2 1 [x02]) lA2).2 2) (storedAt (run (encrypt leaky 2 1 [x03]) lA2').2 2) = true /\
  (read lB2 (lSecond lA2 [x02])).1 = Ok [x02] /\ (read lB2' (lSecond lA2' [x03])).1 = Ok [x03] /\
  (read lB2 (lSecond lA2' [x03])).1 = Err EInvalidMessage /\
  same (storedAt (read lB2 (lSecond lA2 [x02])).2 1) (storedAt (read lB2' (lSecond lA2' [x03])).2 1) = true.
Proof. vm_compute. split_and!; (reflexivity || discriminate). Qed.

(** The same for a sender key. *)
Definition editGroup (w : world) : world :=
  match senderkey_at w gname with
  | Ok (s :: rec) => w_set_senderkeys (<[gname := skr_serialize (moved s (chain_at s) (flipLast (chain_key s)) (st_senderMessageKeys s) :: rec)]> (w_senderkeys w)) w
  | _ => w
  end.
Definition lGroup (w : world) (pt : bytes) : bytes := get [] (run (group_encrypt leaky gname pt) w).1.
Example C92_group_example :
  let read w bs := run (group_decrypt leaky gname bs) w in
  let same (a b : world) := bool_decide (w_senderkeys a !! gname = w_senderkeys b !! gname) in
  same gS1 (editGroup gS1) = false /\ same gM1 (editGroup gM1) = false /\
  same (run (group_encrypt leaky gname [x02]) gS1).2 (run (group_encrypt leaky gname [x03]) (editGroup gS1)).2 = true /\
  (read gM1 (lGroup gS1 [x02])).1 = Ok [x02] /\ (read (editGroup gM1) (lGroup (editGroup gS1) [x03])).1 = Ok [x03] /\
  (read gM1 (lGroup (editGroup gS1) [x03])).1 <> Ok [x03] /\
  same (read gM1 (lGroup gS1 [x02])).2 (read (editGroup gM1) (lGroup (editGroup gS1) [x03])).2 = true.
Proof. vm_compute. split_and!; (reflexivity || discriminate). Qed.
