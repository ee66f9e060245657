(** Properties C69, C70 and C71: how the calls fail. *)
From Verif Require Import PyBase Wire Protos Crypto Ecc Kdf Messages State Prog Ratchet Builder Cipher Groups Helper.
From Verif Require Import SpecSession SpecApi SpecKeys SpecTotal TotalProofs TotalProofs2 EncryptRefuted Toy Sched Ex.

(** ** C69: a session that can send stays able to send *)

(** In all histories, a call of encrypt succeeds if and only if the current state has a
    sending chain whose counter is not exhausted; a refused call changes nothing. *)
Theorem C69_encrypt_outcome : forall C, crypto_ok C -> forall w r d rec plaintext,
  reachable C w -> session_at w r d = Ok rec ->
  match ss_senderChain (sr_state rec) with
  | None => run (encrypt C r d plaintext) w = (Err EIndexError, w)
  | Some c => if (next_index c + 1 <? 2 ^ 32)%N then exists ct w', run (encrypt C r d plaintext) w = (Ok ct, w')
              else run (encrypt C r d plaintext) w = (Err EValueError, w)
  end.
Proof. exact encrypt_outcome. Qed.
Print Assumptions C69_encrypt_outcome.

Example C69_no_session : (run (encrypt toy 2 1 [x01]) alice0).1 = Err EIndexError.
Proof. vm_compute. reflexivity. Qed.
Example C69_session : match (run (encrypt toy 2 1 [x01]) alice1).1 with Ok _ => True | Err _ => False end.
Proof. vm_compute. exact I. Qed.

(** ** C71: stored sessions stay readable *)

(** Whatever calls are made with whatever messages, also calls that die half-way: every
    session record in the store can be loaded again. *)
Theorem C71_stored_sessions_readable : forall C w r d, reachable C w -> exists rec, session_at w r d = Ok rec.
Proof. intros C w r d H. exact (always_readable C w H r d). Qed.
Print Assumptions C71_stored_sessions_readable.

Example C71_alice : match session_at (n_A (after [SendA [x01]; DeliverB 0; SendB [x02]; DeliverA 0])) 2 1 with
  | Ok rec => length (ss_receiverChains (sr_state rec)) = 2 | Err _ => False end.
Proof. vm_compute. reflexivity. Qed.

(** ** C70: the library raises its own exceptions *)

(** "Whatever message arrives, the calls raise only the library's exceptions" is false.  A
    message whose ratchet key is not 32 bytes long raises ValueError at any device that has
    a session, without being authentic. *)
Theorem C70_only_library_exceptions_refuted : forall C, crypto_ok C -> forall w r d rec m,
  reachable C w -> session_at w r d = Ok rec -> ss_senderChain (sr_state rec) <> None ->
  wVersion m = 3%N -> length (wRatchetKey m) <> 32 ->
  (run (decryptMsg C r d m) w).1 = Err EValueError.
Proof. exact short_key. Qed.
Print Assumptions C70_only_library_exceptions_refuted.

(** Such a message: 21 bytes that parse. *)
Definition shortKey : bytes :=
  x33 :: wm_enc (WmS (Some [x05; x01; x02; x03]) (Some 0%N) (Some 0%N) (Some [x07])) ++ replicate 8 x00.
Definition shortKeyMsg : whisperMessage := get noWm (whisper_parse shortKey).
Example C70_short_parses : whisper_parse shortKey = Ok shortKeyMsg /\ wRatchetKey shortKeyMsg = [x01; x02; x03].
Proof. vm_compute. split; reflexivity. Qed.
Theorem C70_short_key_refuted : exists w r d bs m,
  reachable toy w /\ whisper_parse bs = Ok m /\ (run (decryptMsg toy r d m) w).1 = Err EValueError.
Proof.
  exists alice1, 2%Z, 1%Z, shortKey, shortKeyMsg. split; [exact alice1_reachable|]. split; vm_compute; reflexivity.
Qed.
Print Assumptions C70_short_key_refuted.

(** What holds: the only foreign exceptions of the call are ValueErrors, and they arise in
    exactly three ways: a ratchet key of the wrong length, the counter 2^32-1, or a body
    that is no encryption of anything although the MAC is right. *)
Theorem C70_decryptMsg_partial : forall C, crypto_ok C -> forall w r d bs m e w',
  reachable C w -> whisper_parse bs = Ok m -> run (decryptMsg C r d m) w = (Err e, w') ->
  e = ENoSession \/ e = EInvalidMessage \/ e = EDuplicateMessage \/
  e = EValueError /\ (length (wRatchetKey m) <> 32 \/ (2 ^ 32 <= wCounter m + 1)%N \/
    exists rec s, session_at w r d = Ok rec /\ s ∈ states rec /\ bad_body C s m).
Proof. exact decryptMsg_class. Qed.
Print Assumptions C70_decryptMsg_partial.

(** The same for prekey messages, at a device whose own keys are usable. *)
Theorem C70_decryptPkmsg_partial : forall C, crypto_ok C -> forall r d m w bs e w',
  reachable C w -> own_keys_ok w -> prekey_parse bs = Ok m -> run (decryptPkmsg C r d m) w = (Err e, w') ->
  e = EUntrustedIdentity r (pIdentityKey m) /\ distrusts w r (pIdentityKey m) \/ e = EInvalidKeyId /\ unknown_prekey w m \/ e = EInvalidMessage \/ e = EDuplicateMessage \/
  e = EValueError /\ (length (pIdentityKey m) <> 32 \/ length (pBaseKey m) <> 32 \/
    length (wRatchetKey (pMessage m)) <> 32 \/ (2 ^ 32 <= wCounter (pMessage m) + 1)%N \/
    exists rec s, session_at w r d = Ok rec /\ (s ∈ states rec \/ new_session C w m s) /\ bad_body C s (pMessage m)).
Proof. exact decryptPkmsg_class. Qed.
Print Assumptions C70_decryptPkmsg_partial.

(** The same for prekey bundles. *)
Theorem C70_bundle_partial : forall C, crypto_ok C -> forall w r d b e w',
  reachable C w -> own_keys_ok w -> run (processPreKeyBundle C r d b) w = (Err e, w') ->
  e = EUntrustedIdentity r (bu_identityKey b) /\ distrusts w r (bu_identityKey b) \/
  e = EInvalidKey /\ (forall k, bu_signedPreKey b = Some k -> ~ verifies C (bu_identityKey b) (x05 :: k) (bu_signedPreKeySignature b)) \/
  e = EValueError /\
    (length (bu_identityKey b) <> 32 \/ length (bu_signedPreKeySignature b) <> 64 \/
     (exists k, (bu_signedPreKey b = Some k \/ bu_preKey b = Some k) /\ length k <> 32) \/
     (2 ^ 31 <= bu_signedPreKeyId b)%N \/ (2 ^ 32 <= bu_registrationId b)%N \/ (exists i, bu_preKeyId b = Some i /\ 2 ^ 32 <= i)%N).
Proof. exact bundle_errors. Qed.
Print Assumptions C70_bundle_partial.

(** The same for key exchange messages. *)
Theorem C70_exchange_partial : forall C, crypto_ok C -> forall w r d bs m e w',
  reachable C w -> own_keys_ok w -> kx_msg_parse bs = Ok m -> run (processKeyExchangeMessage C r d m) w = (Err e, w') ->
  e = EUntrustedIdentity r (xIdentityKey m) /\ distrusts w r (xIdentityKey m) \/
  e = EInvalidKey /\ ~ verifies C (xIdentityKey m) (x05 :: xBaseKey m) (xBaseKeySignature m) \/
  e = EStaleKeyExchange /\ no_exchange w r d m \/
  (e = EValueError \/ e = EStructError) /\
    (length (xBaseKey m) <> 32 \/ length (xRatchetKey m) <> 32 \/ length (xIdentityKey m) <> 32 \/ length (xBaseKeySignature m) <> 64).
Proof. exact exchange_errors. Qed.
Print Assumptions C70_exchange_partial.

(** Starting a key exchange never fails. *)
Theorem C70_start_succeeds : forall C, crypto_ok C -> forall w r d,
  reachable C w -> own_keys_ok w -> exists m w', run (processInitKeyExchangeMessage C r d) w = (Ok m, w').
Proof. exact start_succeeds. Qed.
Print Assumptions C70_start_succeeds.

(** The hypothesis holds of Bob, and each class of exception occurs. *)
Example C70_own_keys : own_keys_ok bob1.
Proof. exact bob1_own_keys. Qed.
Example C70_no_session : (run (decryptMsg toy 2 1 shortKeyMsg) alice0).1 = Err ENoSession.
Proof. vm_compute. reflexivity. Qed.
Definition pkAt (sid : N) (base ident : bytes) (m : preKeyWhisperMessage) : preKeyWhisperMessage :=
  get noPk (prekey_parse (pSerialized (get noPk
    (prekey_create 3 (pRegistrationId m) (pPreKeyId m) sid base ident (pMessage m))))).
Definition pk0 : preKeyWhisperMessage := pkFrom alice0 [x01].
Example C70_prekeys :
  (run (decryptPkmsg toy 1 1 pk0) bob1).1 = Ok [x01] /\
  (run (decryptPkmsg toy 1 1 (pkAt 4 (pBaseKey pk0) (pIdentityKey pk0) pk0)) bob1).1 = Err EInvalidKeyId /\
  (run (decryptPkmsg toy 1 1 (pkAt 9 (take 31 (pBaseKey pk0)) (pIdentityKey pk0) pk0)) bob1).1 = Err EValueError /\
  (run (decryptPkmsg toy 1 1 (pkAt 9 (pBaseKey pk0) (take 31 (pIdentityKey pk0)) pk0)) bob1).1 = Err EValueError /\
  (run (decryptPkmsg toy 1 1 (pkTampered alice0 [x01])) bob1).1 = Err EInvalidMessage.
Proof. vm_compute. repeat split. Qed.
Definition kx0 : keyExchangeMessage := get (KeyExchangeMessage 0 0 0 0 [] [] [] [] []) (run (processInitKeyExchangeMessage toy 2 1) alice0).1.
Definition kxWith (base sig ratchet ident : bytes) : keyExchangeMessage :=
  get kx0 (kx_msg_parse (xSerialized (get kx0 (kx_create 3 (xSequence kx0) (xFlags kx0) base sig ratchet ident)))).
Definition kxRun (m : keyExchangeMessage) : option exn :=
  match (run (processKeyExchangeMessage toy 1 1 m) bob1).1 with Ok _ => None | Err e => Some e end.
Example C70_exchanges :
  kxRun kx0 = None /\
  kxRun (kxWith (xBaseKey kx0) (take 63 (xBaseKeySignature kx0)) (xRatchetKey kx0) (xIdentityKey kx0)) = Some EValueError /\
  kxRun (kxWith (xRatchetKey kx0) (xBaseKeySignature kx0) (xRatchetKey kx0) (xIdentityKey kx0)) = Some EInvalidKey.
Proof. vm_compute. repeat split. Qed.
(** The owner of an identity can sign a short base key: StructError. *)
Definition shortBase : bytes := take 31 (xBaseKey kx0).
Example C70_struct :
  kxRun (kxWith shortBase (sign toy (replicate 64 x00) (kp_priv (w_identity alice0)) (pub_serialize shortBase)) (xRatchetKey kx0) (xIdentityKey kx0))
  = Some EStructError.
Proof. vm_compute. reflexivity. Qed.
