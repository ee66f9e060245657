(** The private keys of a finished key exchange stay stored, and still open the first message
    of the session.  With the toy primitives, computed by the kernel. *)
From Verif Require Import PyBase Wire Protos Crypto Ecc Kdf Messages State Prog ProgFacts Ratchet Builder Cipher Groups Helper Toy Sched.
From Verif Require Import HelperFacts SpecUtil SpecSession SpecApi SpecKeys SpecRatchet SpecSetup DecryptFacts HistoryProofs PoolFacts HistoryRefuted Ex.

(** Bob starts a key exchange, Alice answers, Bob processes the answer. *)
Definition exB1 : world := does (AInitKx 1 1) bob0.
Definition exOffer : keyExchangeMessage := get noKx (run (processInitKeyExchangeMessage toy 1 1) bob0).1.
Definition exA1 : world := does (AKx 2 1 exOffer) alice0.
Definition exAnswer : keyExchangeMessage := default noKx (get None (run (processKeyExchangeMessage toy 2 1 exOffer) alice0).1).
Definition exB2 : world := does (AKx 1 1 exAnswer) exB1.
(** Alice sends a message that Bob reads; then they send to and fro. *)
Definition exMsg : whisperMessage := wmOf (run (encrypt toy 2 1 [x01]) exA1).1.
Definition exA2 : world := does (AEncrypt 2 1 [x01]) exA1.
Definition exB3 : world := (run (decryptMsg toy 1 1 exMsg) exB2).2.
Definition exReply : whisperMessage := wmOf (run (encrypt toy 1 1 [x02]) exB3).1.
Definition exA3 : world := does (AMsg 2 1 exReply) exA2.
Definition exMsg2 : whisperMessage := wmOf (run (encrypt toy 2 1 [x03]) exA3).1.
Definition exB4 : world := does (AMsg 1 1 exMsg2) (does (AEncrypt 1 1 [x02]) exB3).
Definition exRec : sessionRecord := get sr_new (session_at exB4 1 1).
Definition exOld : ss_s := default st_new (sr_previous exRec !! 0).

(** From what Bob has stored in the end, and Alice's answer. *)
Definition exPart (f : px_s -> option bytes) : bytes := default [] (ss_pendingKeyExchange exOld ≫= f).
Definition exKey (pub priv : px_s -> option bytes) : keypair := KeyPair (drop 1 (exPart pub)) (exPart priv).
Definition exId : keypair := exKey px_identityKey px_identityKeyPrivate.
Definition exBase : keypair := exKey px_baseKey px_baseKeyPrivate.
Definition exRat : keypair := exKey px_ratchetKey px_ratchetKeyPrivate.
Definition exState : ss_s :=
  responder_session (kp_pub exId) (xIdentityKey exAnswer) (kp_pub exRat) (kp_priv exRat)
    (x3dh toy [agree toy (kp_priv exBase) (xIdentityKey exAnswer); agree toy (kp_priv exId) (xBaseKey exAnswer);
               agree toy (kp_priv exBase) (xBaseKey exAnswer)]) None None None.

Lemma identity_of_compute o k : bool_decide (o = Some (x05 :: k)) && bool_decide (length k = 32) = true -> identity_of o k.
Proof. intros [->%bool_decide_eq_true H%bool_decide_eq_true]%andb_prop. exists k. split; [done|]. by rewrite take_ge by lia. Qed.

Lemma exchange_refuted : exists C w r d m pt w1 w2 rec s kx id base rat,
  crypto_ok C /\ reachable C w /\ run (decryptMsg C r d m) w = (Ok pt, w1) /\ rtc (step C) w1 w2 /\
  session_at w2 r d = Ok rec /\ ss_pendingKeyExchange (sr_state rec) = None /\
  (run (decryptMsg C r d m) w2).1 = Err EDuplicateMessage /\
  s ∈ sr_previous rec /\ started s (xSequence kx) id base rat /\
  answers C (responder_session (kp_pub id) (xIdentityKey kx) (kp_pub rat) (kp_priv rat)
    (x3dh C [agree C (kp_priv base) (xIdentityKey kx); agree C (kp_priv id) (xBaseKey kx);
             agree C (kp_priv base) (xBaseKey kx)]) None None None) m (Ok pt).
Proof.
  exists toy, exB2, 1%Z, 1%Z, exMsg, [x01], exB3, exB4, exRec, exOld, exAnswer, exId, exBase, exRat.
  split; [exact toy_ok|]. split; [do 2 apply reachable_does; apply reachable_start; reflexivity|].
  assert ((run (decryptMsg toy 1 1 exMsg) exB2).1 = Ok [x01]) as H1 by (vm_compute; reflexivity).
  split; [rewrite <- H1; apply surjective_pairing|].
  split; [eapply rtc_l; [apply step_call_ends|]; eapply rtc_l; [apply step_call_ends|]; apply rtc_refl|].
  assert (match session_at exB4 1 1 with Ok _ => true | Err _ => false end = true) as H2 by (vm_compute; reflexivity).
  split; [unfold exRec; by destruct (session_at exB4 1 1)|].
  split; [vm_compute; reflexivity|]. split; [vm_compute; reflexivity|].
  split. { apply elem_of_list_lookup. exists 0. unfold exOld.
    assert (match sr_previous exRec with [] => false | _ => true end = true) as H3 by (vm_compute; reflexivity). by destruct (sr_previous exRec). }
  split. { unfold started, keypair_of. eexists. split; [vm_compute; reflexivity|]. 
    split; [vm_compute; reflexivity|]. split_and!; (apply identity_of_compute || idtac); vm_compute; reflexivity. }
  assert (verdict toy exState exMsg = Ok [x01]) as H4 by (vm_compute; reflexivity).
  rewrite <- H4. exact (answers_verdict toy toy_ok _ _).
Qed.
