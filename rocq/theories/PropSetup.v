(** C74: exactly what the handshakes do. *)
From Verif Require Import PyBase Wire Protos Crypto Ecc Messages State Prog Ratchet Builder Cipher Helper Toy Sched.
From Verif Require Import HelperFacts SpecUtil SpecSession SpecApi SpecKeys SpecRatchet SpecSetup SetupEffects Ex.

(** A bundle: the session [bundle_session] with the two key pairs drawn next, in front of
    the archived ones; the identity remembered; nothing else. *)
Theorem C74_bundle : forall C, crypto_ok C -> forall w r d b w',
  reachable C w -> run (processPreKeyBundle C r d b) w = (Ok tt, w') ->
  exists rec spk, session_at w r d = Ok rec /\ bu_signedPreKey b = Some spk /\ trusts w r (bu_identityKey b) /\
    verifies C (bu_identityKey b) (x05 :: spk) (bu_signedPreKeySignature b) /\
    handshaken w r d (bu_identityKey b) (2 + w_pos w)
      (bundle_session C w b spk (kp_at C w (w_pos w)) (kp_at C w (1 + w_pos w))) rec w'.
Proof. exact bundle_effect. Qed.
Print Assumptions C74_bundle.

(** The start of a key exchange: number and keys are the ones drawn; the session notes them
    and changes in nothing else. *)
Theorem C74_start : forall C, crypto_ok C -> forall w r d m w',
  run (processInitKeyExchangeMessage C r d) w = (Ok m, w') ->
  let base := kp_at C w (1 + w_pos w) in let rat := kp_at C w (2 + w_pos w) in let id := w_identity w in
  let seq := (1 + be_val (w_tape w (w_pos w)) mod 65534)%N in
  exists rec bs, session_at w r d = Ok rec /\
    exchange_message C w (3 + w_pos w) seq 1 id base rat m /\
    session_at w' r d = Ok (SessionRecord false (start (sr_state rec) seq id base rat) (sr_previous rec)) /\
    w' = w_set_sessions (<[(r, d) := bs]> (w_sessions w)) (w_set_pos (4 + w_pos w) w).
Proof. exact start_effect. Qed.
Print Assumptions C74_start.

(** The answer to a started key exchange: with fresh keys, or with those of our own pending
    exchange and the flag that says so. *)
Theorem C74_answer : forall C, crypto_ok C -> forall w r d m a w',
  reachable C w -> run (processKeyExchangeMessage C r d m) w = (Ok (Some a), w') ->
  exists rec id base rat flags n s n', session_at w r d = Ok rec /\ trusts w r (xIdentityKey m) /\
    verifies C (xIdentityKey m) (x05 :: xBaseKey m) (xBaseKeySignature m) /\ N.testbit (xFlags m) 0 = true /\
    ((ss_pendingKeyExchange (sr_state rec) = None /\ id = w_identity w /\
      base = kp_at C w (w_pos w) /\ rat = kp_at C w (1 + w_pos w) /\ flags = 2%N /\ n = 2 + w_pos w) \/
     ((exists seq, started (sr_state rec) seq id base rat) /\ flags = 6%N /\ n = w_pos w)) /\
    exchange_session C w n id base rat m s n' /\
    exchange_message C w n' (xSequence m) flags id base rat a /\
    handshaken w r d (xIdentityKey m) (1 + n') s rec w'.
Proof. exact initiate_effect. Qed.
Print Assumptions C74_answer.

(** The end: the answer to our pending exchange gives the session; an answer to another one
    is ignored if it says that both parties started. *)
Theorem C74_end : forall C, crypto_ok C -> forall w r d m w',
  reachable C w -> run (processKeyExchangeMessage C r d m) w = (Ok None, w') ->
  exists rec, session_at w r d = Ok rec /\ trusts w r (xIdentityKey m) /\ N.testbit (xFlags m) 0 = false /\
    ((w' = w /\ N.testbit (xFlags m) 2 = true /\
      forall p, ss_pendingKeyExchange (sr_state rec) = Some p -> default 0%N (px_sequence p) <> xSequence m) \/
     exists id base rat s n', started (sr_state rec) (xSequence m) id base rat /\
       verifies C (xIdentityKey m) (x05 :: xBaseKey m) (xBaseKeySignature m) /\
       exchange_session C w (w_pos w) id base rat m s n' /\
       handshaken w r d (xIdentityKey m) n' s rec w').
Proof. exact response_effect. Qed.
Print Assumptions C74_end.

(** The bundle of Bob, at Alice. *)
Example C74_bundle_run :
  let b := bundle in let s := bundle_session toy alice0 b (default [] (bu_signedPreKey b)) (kp_at toy alice0 0) (kp_at toy alice0 1) in
  session_at alice1 2 1 = Ok (SessionRecord false s []) /\ w_pos alice1 = 2 /\
  w_trusted alice1 !! 2%Z = Some (kp_pub (w_identity bob0)).
Proof. vm_compute. split_and!; reflexivity. Qed.

(** A key exchange between Alice and Bob that Alice starts while she has a session: number
    and keys of the message are noted in that session, and are gone in the new one. *)
Definition noKx : keyExchangeMessage := KeyExchangeMessage 0 0 0 0 [] [] [] [] [].
Definition started1 : res keyExchangeMessage * world := run (processInitKeyExchangeMessage toy 2 1) alice1.
Definition answered1 : res (option keyExchangeMessage) * world :=
  run (processKeyExchangeMessage toy 1 1 (get noKx started1.1)) bob1.
Definition answer1 : keyExchangeMessage := default noKx (get None answered1.1).
Definition ended1 : res (option keyExchangeMessage) * world := run (processKeyExchangeMessage toy 2 1 answer1) started1.2.
Definition pendingAt (w : world) (r : Z) : option px_s := ss_pendingKeyExchange (sr_state (get sr_new (session_at w r 1))).
Example C74_exchange_run :
  let m := get noKx started1.1 in let a := answer1 in
  (xFlags m, xFlags a) = (1%N, 2%N) /\ xSequence m = xSequence a /\
  option_map (fun p => (px_sequence p, px_baseKey p, px_ratchetKey p)) (pendingAt started1.2 2)
    = Some (Some (xSequence m), Some (x05 :: xBaseKey m), Some (x05 :: xRatchetKey m)) /\
  xBaseKey m = kp_pub (kp_at toy alice1 3) /\ xRatchetKey m = kp_pub (kp_at toy alice1 4) /\
  ss_senderChain (sr_state (get sr_new (session_at started1.2 2 1))) = ss_senderChain (sr_state (get sr_new (session_at alice1 2 1))) /\
  xBaseKey a = kp_pub (kp_at toy bob1 (w_pos bob1)) /\ xRatchetKey a = kp_pub (kp_at toy bob1 (1 + w_pos bob1)) /\
  pendingAt ended1.2 2 = None /\ sr_previous (get sr_new (session_at ended1.2 2 1)) = [sr_state (get sr_new (session_at started1.2 2 1))] /\
  let rootOf w r := ss_rootKey (sr_state (get sr_new (session_at w r 1))) in
  rootOf ended1.2 2%Z <> rootOf started1.2 2%Z.
Proof. vm_compute. split_and!; (reflexivity || discriminate). Qed.
(** One of them starts, as [exchange_session] says, and the other has the same derived
    chain key on the other side. *)
Example C74_roles :
  let sA := sr_state (get sr_new (session_at ended1.2 2 1)) in let sB := sr_state (get sr_new (session_at answered1.2 1 1)) in
  let first := if get false (isAlice (xBaseKey (get noKx started1.1)) (xBaseKey answer1)) then (sA, sB) else (sB, sA) in
  length (ss_receiverChains first.1) = 1 /\ ss_receiverChains first.2 = [] /\
  (ch_chainKey <$> ss_receiverChains first.1) = [ss_senderChain first.2 ≫= ch_chainKey].
Proof. vm_compute. split_and!; reflexivity. Qed.
