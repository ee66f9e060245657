(** C83: which parts of a prekey message are authenticated. *)
From Verif Require Import PyBase Wire Protos Crypto Ecc Messages State Prog Ratchet Builder Cipher Helper Toy Sched.
From Verif Require Import SpecUtil SpecSession SpecApi SpecKeys KeyProofs SpecWrap WrapProofs Ex.

(** ** C83: a prekey message is accepted only as its sender made it *)

(** The registration id can be changed in every message. *)
Theorem C83_registration_refuted : forall C, crypto_ok C -> forall w r d bs m pt w' rid,
  prekey_parse bs = Ok m -> run (decryptPkmsg C r d m) w = (Ok pt, w') -> (rid < 2 ^ 32)%N ->
  exists bs' m' w'', prekey_parse bs' = Ok m' /\ pk_with rid (pPreKeyId m) (pSignedPreKeyId m) (pIdentityKey m) m m' /\
    run (decryptPkmsg C r d m') w = (Ok pt, w'').
Proof. exact registration_unauthenticated. Qed.
Print Assumptions C83_registration_refuted.

(** For a session that is there already, so can both prekey ids. *)
Theorem C83_ids_refuted : forall C w r d rec bs m pt w' rid pid spid,
  prekey_parse bs = Ok m -> run (decryptPkmsg C r d m) w = (Ok pt, w') ->
  session_at w r d = Ok rec -> belongs rec (pVersion m) (pBaseKey m) ->
  (rid < 2 ^ 32)%N -> (pid < 2 ^ 32)%N -> (spid < 2 ^ 32)%N ->
  exists bs' m', prekey_parse bs' = Ok m' /\ pk_with rid (Some pid) spid (pIdentityKey m) m m' /\
    run (decryptPkmsg C r d m') w = (Ok pt, w').
Proof. exact known_unauthenticated. Qed.
Print Assumptions C83_ids_refuted.

(** And the identity key, if none is stored for the peer: the false one is then saved as
    the peer's, beside a session with another. *)
Theorem C83_identity_refuted : forall C, crypto_ok C -> forall w r d rec bs m pt w' k,
  prekey_parse bs = Ok m -> run (decryptPkmsg C r d m) w = (Ok pt, w') ->
  session_at w r d = Ok rec -> belongs rec (pVersion m) (pBaseKey m) ->
  w_trusted w !! r = None -> length k <= 32 ->
  exists bs' m' w'', prekey_parse bs' = Ok m' /\ pk_with (pRegistrationId m) (pPreKeyId m) (pSignedPreKeyId m) k m m' /\
    run (decryptPkmsg C r d m') w = (Ok pt, w'') /\ w_trusted w'' !! r = Some k.
Proof. exact identity_unauthenticated. Qed.
Print Assumptions C83_identity_refuted.

(** What holds: the message inside is authentic for the identity keys of a session, and for
    a new session these keys, and all secrets, are those that the wrapper names. *)
Theorem C83_inside_partial : forall C, crypto_ok C -> forall w r d bs m pt w',
  prekey_parse bs = Ok m -> run (decryptPkmsg C r d m) w = (Ok pt, w') ->
  exists rec s, session_at w r d = Ok rec /\ (s ∈ states rec \/ new_session C w m s) /\ opens C s (pMessage m) pt.
Proof. exact pkmsg_authentic. Qed.
Print Assumptions C83_inside_partial.

(** Alice's first message with registration id 99, and her second one with false ids and,
    after Bob's application forgot her, a false identity key; a false signed prekey id or
    identity key in the first is noticed. *)
Definition rewrap (rid pid spid : N) (ident : bytes) (m : preKeyWhisperMessage) : preKeyWhisperMessage :=
  get noPk (m ← prekey_create 3 rid (Some pid) spid (pBaseKey m) ident (pMessage m); prekey_parse (pSerialized m)).
Definition wrap1 : preKeyWhisperMessage := pkFrom alice0 [x01].
Definition wrapped (w : world) (m : preKeyWhisperMessage) : res bytes * (option N * option bytes) :=
  let x := run (decryptPkmsg toy 1 1 m) w in
  (x.1, (ss_remoteRegId (sr_state (get sr_new (session_at x.2 1 1))), w_trusted x.2 !! 1%Z)).
Definition pidOf (m : preKeyWhisperMessage) : N := default 0%N (pPreKeyId m).
Definition forged : bytes := replicate 32 x2a.
Example C83_first :
  wrapped bob1 wrap1 = (Ok [x01], (Some (pRegistrationId wrap1), Some (pIdentityKey wrap1))) /\
  wrapped bob1 (rewrap 99 (pidOf wrap1) (pSignedPreKeyId wrap1) (pIdentityKey wrap1) wrap1) =
    (Ok [x01], (Some 99%N, Some (pIdentityKey wrap1))) /\
  (wrapped bob1 (rewrap 99 (pidOf wrap1) (1 + pSignedPreKeyId wrap1) (pIdentityKey wrap1) wrap1)).1 = Err EInvalidKeyId /\
  (wrapped bob1 (rewrap 99 (pidOf wrap1) (pSignedPreKeyId wrap1) forged wrap1)).1 = Err EInvalidMessage.
Proof. vm_compute. split_and!; reflexivity. Qed.
Definition sent2 : net := after [SendA [x01]; SendA [x02]].
Definition wrap2 : preKeyWhisperMessage :=
  match n_fromA sent2 with [_; (_, bs)] => get noPk (prekey_parse bs) | _ => noPk end.
Definition bobGot1 : world := (run (decryptPkmsg toy 1 1 wrap1) bob1).2.
Example C83_second :
  wrapped bobGot1 (rewrap 1 2 3 (pIdentityKey wrap2) wrap2) = (Ok [x02], (Some (pRegistrationId wrap1), Some (pIdentityKey wrap1))) /\
  (wrapped bobGot1 (rewrap 1 2 3 forged wrap2)).1 = Err (EUntrustedIdentity 1 forged) /\
  wrapped (w_set_trusted ∅ bobGot1) (rewrap 1 2 3 forged wrap2) = (Ok [x02], (Some (pRegistrationId wrap1), Some forged)).
Proof. vm_compute. split_and!; reflexivity. Qed.
