(** Properties C03, C04, C10, C13, C14, C16, C17, C21, C22, C36, C44, C46, C47, C48:
    sessions are set up and used only as they should be. *)
From Verif Require Import PyBase Wire Protos ProtoFacts Crypto Ecc Kdf Messages State Prog Ratchet Builder Cipher Helper.
From Verif Require Import SpecSession StateFacts DecryptFacts SessionProofs HandshakeProofs LockoutProofs SessionRefuted Toy Sched Ex.

(** ** C03: a failed decryptMsg changes nothing *)

Theorem C03_failed_decryptMsg : forall C r d m w e w',
  run (decryptMsg C r d m) w = (Err e, w') -> unchanged w w'.
Proof. exact decryptMsg_err. Qed.
Print Assumptions C03_failed_decryptMsg.

(** After Alice's first two messages arrived, a tampered reply of Bob reaches Alice; then
    the genuine one still decrypts. *)
Definition talk : net := after [SendA [x01]; DeliverB 0; SendB [x02]; SendB [x03]].
Definition reply0 : bytes := snd (default (false, []) (n_fromB talk !! 0)).
Example C03_tampered :
  let bad := get noWm (whisper_parse (flipLast reply0)) in
  let x := run (decryptMsg toy 2 1 bad) (n_A talk) in
  x.1 = Err EInvalidMessage /\
  w_sessions x.2 !! (2%Z, 1%Z) = w_sessions (n_A talk) !! (2%Z, 1%Z) /\
  (run (decryptMsg toy 2 1 (get noWm (whisper_parse reply0))) x.2).1 = Ok [x02].
Proof. vm_compute. done. Qed.

(** ** C04: a failed decryptPkmsg changes nothing *)

(** What is missing: the identity of a peer seen for the first time is stored before the
    message is authenticated.  Nothing else ever changes. *)
Theorem C04_failed_decryptPkmsg_partial : forall C r d m w e w',
  run (decryptPkmsg C r d m) w = (Err e, w') ->
  unchanged w w' \/
  (w_trusted w !! r = None /\ unchanged_but_trust w w' /\
   w_trusted w' = <[r := pIdentityKey m]> (w_trusted w)).
Proof. exact decryptPkmsg_err. Qed.
Print Assumptions C04_failed_decryptPkmsg_partial.

Theorem C04_failed_decryptPkmsg_refuted : exists C w r d m e w',
  crypto_ok C /\ run (decryptPkmsg C r d m) w = (Err e, w') /\ w_trusted w' <> w_trusted w.
Proof. exact pkmsg_trust_refuted. Qed.
Print Assumptions C04_failed_decryptPkmsg_refuted.

Example C04_tampered :
  let x := run (decryptPkmsg toy 1 1 (pkTampered alice0 [x01])) bob1 in
  x.1 = Err EInvalidMessage /\ w_sessions x.2 !! (1%Z, 1%Z) = None /\
  w_prekeys x.2 !! 5%N = w_prekeys bob1 !! 5%N /\ is_Some (w_prekeys bob1 !! 5%N) /\
  w_trusted x.2 !! 1%Z = Some (kp_pub (w_identity alice0)).
Proof. vm_compute. repeat split; eauto. Qed.

(** ** C10: both sides of a prekey handshake derive the same keys *)

Theorem C10_handshake : forall C, crypto_ok C -> forall idA baseA idB spkB ratchetB otpk w,
  genuine C idA -> genuine C baseA -> genuine C idB -> genuine C spkB -> genuine C ratchetB ->
  (forall k, otpk = Some k -> genuine C k) ->
  exists sA sB w' c sc ekA rootA ckA,
    run (initializeSessionAsAlice C st_new idA baseA (kp_pub idB) (kp_pub spkB) (kp_pub ratchetB) (kp_pub <$> otpk)) w = (Ok sA, w') /\
    initializeSessionAsBob C st_new idB spkB ratchetB otpk (kp_pub idA) (kp_pub baseA) = Ok sB /\
    ss_receiverChains sA = [c] /\ ss_senderChain sB = Some sc /\
    ch_ratchetKey c = ch_ratchetKey sc /\ ch_chainKey c = ch_chainKey sc /\ is_Some (ch_chainKey c) /\
    st_getSenderRatchetKeyPair sB = Ok ratchetB /\
    st_getSenderRatchetKeyPair sA = Ok ekA /\ genuine C ekA /\
    ss_rootKey sA = Some rootA /\ st_getSenderChainKey sA = Ok (ChainKey hkdf_v3 ckA 0) /\
    (rootB ← st_getRootKey sB; rk_createChain C rootB (kp_pub ekA) ratchetB)
      = Ok (RootKey hkdf_v3 rootA, ChainKey hkdf_v3 ckA 0).
Proof. exact handshake_agrees. Qed.
Print Assumptions C10_handshake.

(** Bob's chain differs from Alice's when only one of them uses the one-time prekey. *)
Definition kpOf (seed : N) : keypair := w_identity (device seed).
Definition chainOfA (otpk : option keypair) : option bytes :=
  s ← (match (run (initializeSessionAsAlice toy st_new (kpOf 1) (kpOf 2) (kp_pub (kpOf 3)) (kp_pub (kpOf 4))
               (kp_pub (kpOf 4)) (kp_pub <$> otpk)) alice0).1 with Ok s => Some s | Err _ => None end);
  c ← head (ss_receiverChains s); k ← ch_chainKey c; ck_key k.
Definition chainOfB (otpk : option keypair) : option bytes :=
  s ← (match initializeSessionAsBob toy st_new (kpOf 3) (kpOf 4) (kpOf 4) otpk (kp_pub (kpOf 1)) (kp_pub (kpOf 2)) with
       Ok s => Some s | Err _ => None end);
  c ← ss_senderChain s; k ← ch_chainKey c; ck_key k.
Example C10_both_or_neither :
  is_Some (chainOfA (Some (kpOf 5))) /\ chainOfA (Some (kpOf 5)) = chainOfB (Some (kpOf 5)) /\
  chainOfA None = chainOfB None /\ chainOfA None <> chainOfB (Some (kpOf 5)) /\ chainOfA (Some (kpOf 5)) <> chainOfB None.
Proof. vm_compute. split_and!; [eexists; reflexivity|done|done|discriminate|discriminate]. Qed.

(** ** C13: untrusted identities are refused before anything happens *)

Theorem C13_bundle : forall C r d b w,
  distrusts w r (bu_identityKey b) ->
  run (processPreKeyBundle C r d b) w = (Err (EUntrustedIdentity r (bu_identityKey b)), w).
Proof. exact untrusted_bundle. Qed.
Print Assumptions C13_bundle.

(** decryptPkmsg loads the session before it looks at the identity; the stored session is
    readable, as everything a session store of this library returns. *)
Theorem C13_prekey_message : forall C r d m w,
  distrusts w r (pIdentityKey m) -> is_ok (session_at w r d) ->
  run (decryptPkmsg C r d m) w = (Err (EUntrustedIdentity r (pIdentityKey m)), w).
Proof. exact untrusted_pkmsg. Qed.
Print Assumptions C13_prekey_message.

Theorem C13_key_exchange : forall C r d m w,
  distrusts w r (xIdentityKey m) ->
  run (processKeyExchangeMessage C r d m) w = (Err (EUntrustedIdentity r (xIdentityKey m)), w).
Proof. exact untrusted_kx. Qed.
Print Assumptions C13_key_exchange.

(** Mallory writes to Bob under Alice's name after Alice's first message. *)
Example C13_mallory :
  let w := n_B (after [SendA [x01]; DeliverB 0]) in
  let x := run (decryptPkmsg toy 1 1 (pkFrom mallory0 [x01])) w in
  w_trusted w !! 1%Z = Some (kp_pub (w_identity alice0)) /\
  x.1 = Err (EUntrustedIdentity 1 (kp_pub (w_identity mallory0))) /\
  w_trusted x.2 !! 1%Z = Some (kp_pub (w_identity alice0)) /\
  is_Some (w_sessions w !! (1%Z, 1%Z)).
Proof. vm_compute. split_and!; [done|done|done|eexists; reflexivity]. Qed.

(** ** C14: a bundle whose signed prekey is missing or badly signed is refused *)

Theorem C14_missing : forall C r d b w,
  trusts w r (bu_identityKey b) -> bu_signedPreKey b = None ->
  run (processPreKeyBundle C r d b) w = (Err EInvalidKey, w).
Proof. exact bundle_no_signed. Qed.
Print Assumptions C14_missing.

(** What is missing: signatures of other lengths than 64 bytes (and identity keys of other
    lengths than 32 bytes) raise ValueError from the curve extension, see below. *)
Theorem C14_bad_signature_partial : forall C r d b k w,
  trusts w r (bu_identityKey b) -> bu_signedPreKey b = Some k ->
  length (bu_identityKey b) = 32 -> length (bu_signedPreKeySignature b) = 64 ->
  ~ verifies C (bu_identityKey b) (x05 :: k) (bu_signedPreKeySignature b) ->
  run (processPreKeyBundle C r d b) w = (Err EInvalidKey, w).
Proof. exact bundle_bad_signature. Qed.
Print Assumptions C14_bad_signature_partial.

Theorem C14_bad_length : forall C r d b k w,
  trusts w r (bu_identityKey b) -> bu_signedPreKey b = Some k ->
  ~ (length (bu_identityKey b) = 32 /\ length (bu_signedPreKeySignature b) = 64) ->
  run (processPreKeyBundle C r d b) w = (Err EValueError, w).
Proof. exact bundle_bad_length. Qed.
Print Assumptions C14_bad_length.

Theorem C14_exception_refuted : exists C w r d b k w',
  crypto_ok C /\ trusts w r (bu_identityKey b) /\ bu_signedPreKey b = Some k /\
  ~ verifies C (bu_identityKey b) (x05 :: k) (bu_signedPreKeySignature b) /\
  run (processPreKeyBundle C r d b) w = (Err EValueError, w').
Proof. exact bundle_exception_refuted. Qed.
Print Assumptions C14_exception_refuted.

(** A session is created, or any store changes, only if the signature verifies. *)
Theorem C14_accepted : forall C r d b w o w',
  run (processPreKeyBundle C r d b) w = (o, w') ->
  o = Ok tt \/ ~ unchanged w w' ->
  trusts w r (bu_identityKey b) /\
  exists k, bu_signedPreKey b = Some k /\ verifies C (bu_identityKey b) (x05 :: k) (bu_signedPreKeySignature b).
Proof. exact bundle_accepted. Qed.
Print Assumptions C14_accepted.

Theorem C14_failure_unchanged : forall C r d b w e w',
  run (processPreKeyBundle C r d b) w = (Err e, w') -> unchanged w w'.
Proof. exact bundle_err. Qed.
Print Assumptions C14_failure_unchanged.

Definition bundleForged : preKeyBundle :=
  PreKeyBundle (bu_registrationId bundle) (bu_deviceId bundle) (bu_preKeyId bundle) (bu_preKey bundle)
    (bu_signedPreKeyId bundle) (Some (kp_pub (w_identity mallory0))) (bu_signedPreKeySignature bundle) (bu_identityKey bundle).
Example C14_bundles :
  (run (processPreKeyBundle toy 2 1 bundle) alice0).1 = Ok tt /\
  is_Some (w_sessions (run (processPreKeyBundle toy 2 1 bundle) alice0).2 !! (2%Z, 1%Z)) /\
  (run (processPreKeyBundle toy 2 1 bundleForged) alice0).1 = Err EInvalidKey.
Proof. vm_compute. split_and!; [done|eexists; reflexivity|done]. Qed.

(** ** C16: repeated prekey messages do not rebuild the session *)

(** Whatever the session record holds: only the inner message is processed, as
    decryptMsg does. *)
Theorem C16_repeated : forall C r d m w rec,
  session_at w r d = Ok rec -> belongs rec (pVersion m) (pBaseKey m) -> trusts w r (pIdentityKey m) ->
  run (decryptPkmsg C r d m) w
  = run (decryptMsg C r d (pMessage m)) (w_set_trusted (<[r := pIdentityKey m]> (w_trusted w)) w).
Proof. exact pkmsg_belongs. Qed.
Print Assumptions C16_repeated.

(** decryptMsg touches no prekey. *)
Theorem C16_no_prekey_consumed : forall C r d m w,
  w_prekeys (run (decryptMsg C r d m) w).2 = w_prekeys w.
Proof. exact decryptMsg_prekeys. Qed.
Print Assumptions C16_no_prekey_consumed.

(** Alice's second message is still a prekey message and arrives first; her first one
    belongs to the same session and decrypts, although the prekey is gone. *)
Example C16_two_prekey_messages :
  map shown (played [SendA [x01]; SendA [x02]; DeliverB 1; DeliverB 0]) = [None; None; Some (Ok [x02]); Some (Ok [x01])] /\
  (fst <$> n_fromA (after [SendA [x01]; SendA [x02]; DeliverB 1; DeliverB 0])) = [true; true] /\
  w_prekeys (n_B (after [SendA [x01]; SendA [x02]; DeliverB 1])) !! 5%N = None.
Proof. vm_compute. done. Qed.
(** The same after Alice set up another session, so that the first one is archived at Bob;
    and a copy of her first message that claims version 2 belongs to no session. *)
Definition as2 (m : preKeyWhisperMessage) : preKeyWhisperMessage :=
  PreKeyWhisperMessage 2 (pRegistrationId m) (pPreKeyId m) (pSignedPreKeyId m) (pBaseKey m) (pIdentityKey m) (pMessage m) (pSerialized m).
Definition pkAt (n : net) (i : nat) : preKeyWhisperMessage := get noPk (prekey_parse (snd (default (false, []) (n_fromA n !! i)))).
Definition otherFirst : preKeyWhisperMessage :=
  match (run (encrypt toy 2 1 [x07]) (run (processPreKeyBundle toy 2 1 bundle) alice1).2).1 with Ok (CTPreKey m) => m | _ => noPk end.
Example C16_archived :
  let n := after [SendA [x01]; SendA [x02]; DeliverB 1] in
  let w := run (decryptPkmsg toy 1 1 otherFirst) (w_set_prekeys (w_prekeys bob1) (n_B n)) in
  w.1 = Ok [x07] /\ w_prekeys w.2 !! 5%N = None /\
  (run (decryptPkmsg toy 1 1 (pkAt n 0)) w.2).1 = Ok [x01] /\
  (run (decryptPkmsg toy 1 1 (as2 (pkAt n 0))) w.2).1 = Err EInvalidKeyId.
Proof. vm_compute. done. Qed.

(** ** C17: a one-time prekey is used once *)

Theorem C17_gone : forall C r d m w pt w' rec i,
  run (decryptPkmsg C r d m) w = (Ok pt, w') ->
  session_at w r d = Ok rec -> ~ belongs rec (pVersion m) (pBaseKey m) ->
  pPreKeyId m = Some i -> i <> 16777215%N ->
  w_prekeys w' = delete i (w_prekeys w).
Proof. exact pkmsg_prekey_gone. Qed.
Print Assumptions C17_gone.

(** Any later message naming a prekey that is not stored; the signed prekey it names is
    unknown or a readable record. *)
Theorem C17_later : forall C r d m w rec i spr kp,
  session_at w r d = Ok rec -> ~ belongs rec (pVersion m) (pBaseKey m) ->
  trusts w r (pIdentityKey m) ->
  (w_signed w !! pSignedPreKeyId m = None \/
   w_signed w !! pSignedPreKeyId m = Some (spr_enc spr) /\ spr_wf spr /\ signedprekeyrecord_getKeyPair spr = Ok kp) ->
  pPreKeyId m = Some i -> w_prekeys w !! i = None ->
  run (decryptPkmsg C r d m) w = (Err EInvalidKeyId, w).
Proof. exact pkmsg_missing_prekey. Qed.
Print Assumptions C17_later.

(** Nothing else is ever removed, whatever the outcome, and never the last resort. *)
Theorem C17_last_resort : forall C r d m w,
  let w' := (run (decryptPkmsg C r d m) w).2 in
  w_prekeys w' = w_prekeys w \/
  exists i, pPreKeyId m = Some i /\ i <> 16777215%N /\ w_prekeys w' = delete i (w_prekeys w).
Proof. exact pkmsg_prekeys. Qed.
Print Assumptions C17_last_resort.

(** Mallory, under another name, sends Bob a message naming the used prekey 5. *)
Example C17_reuse :
  let w := n_B (after [SendA [x01]; DeliverB 0]) in
  (run (decryptPkmsg toy 3 1 (pkFrom mallory0 [x01])) bob1).1 = Ok [x01] /\
  (run (decryptPkmsg toy 3 1 (pkFrom mallory0 [x01])) w).1 = Err EInvalidKeyId.
Proof. vm_compute. done. Qed.
(** Bob's prekey under the number of the last resort: it stays, and Mallory can use it too. *)
Definition bobLast : world := w_set_prekeys {[ 16777215%N := pr_enc bobPreKey ]} bob1.
Definition asLast (m : preKeyWhisperMessage) : preKeyWhisperMessage :=
  PreKeyWhisperMessage 3 (pRegistrationId m) (Some 16777215%N) (pSignedPreKeyId m) (pBaseKey m) (pIdentityKey m) (pMessage m) (pSerialized m).
Example C17_last :
  let x := run (decryptPkmsg toy 1 1 (asLast (pkFrom alice0 [x01]))) bobLast in
  x.1 = Ok [x01] /\ w_prekeys x.2 !! 16777215%N = Some (pr_enc bobPreKey) /\
  (run (decryptPkmsg toy 3 1 (asLast (pkFrom mallory0 [x02]))) x.2).1 = Ok [x02].
Proof. vm_compute. done. Qed.

(** ** C21: stale key exchange responses are refused *)

Theorem C21_stale : forall C r d m w rec,
  trusts w r (xIdentityKey m) -> session_at w r d = Ok rec -> kx_isInitiate m = false ->
  (forall p, ss_pendingKeyExchange (sr_state rec) = Some p -> default 0%N (px_sequence p) <> xSequence m) ->
  run (processKeyExchangeMessage C r d m) w
  = (if kx_isResponseForSimultaneousInitiate m then Ok None else Err EStaleKeyExchange, w).
Proof. exact stale_response. Qed.
Print Assumptions C21_stale.

(** Alice initiates; Bob answers; the answer is processed; a second copy of it is stale. *)
Definition noKx : keyExchangeMessage := KeyExchangeMessage 0 0 0 0 [] [] [] [] [].
Definition kx1 := run (processInitKeyExchangeMessage toy 2 1) alice0.
Definition kx2 := run (processKeyExchangeMessage toy 1 1 (get noKx kx1.1)) bob0.
Definition kx3 := run (processKeyExchangeMessage toy 2 1 (default noKx (get None kx2.1))) kx1.2.
Definition kx4 := run (processKeyExchangeMessage toy 2 1 (default noKx (get None kx2.1))) kx3.2.
Example C21_second_copy :
  kx3.1 = Ok None /\ kx4.1 = Err EStaleKeyExchange /\
  w_sessions kx4.2 !! (2%Z, 1%Z) = w_sessions kx3.2 !! (2%Z, 1%Z) /\ is_Some (w_sessions kx3.2 !! (2%Z, 1%Z)).
Proof. vm_compute. split_and!; [done|done|done|eexists; reflexivity]. Qed.
(** The same response with another sequence number. *)
Definition nextSeq (m : keyExchangeMessage) : keyExchangeMessage :=
  KeyExchangeMessage (xVersion m) (xSupportedVersion m) (xSequence m + 1) (xFlags m) (xBaseKey m) (xBaseKeySignature m)
    (xRatchetKey m) (xIdentityKey m) (xSerialized m).
Example C21_sequence :
  (run (processKeyExchangeMessage toy 2 1 (nextSeq (default noKx (get None kx2.1)))) kx1.2).1 = Err EStaleKeyExchange.
Proof. vm_compute. done. Qed.

(** ** C22: key exchange messages with a bad base key signature change nothing *)

(** Every such message raises and changes no store. *)
Theorem C22_unchanged : forall C r d m w o w',
  (kx_isInitiate m = true \/
   exists rec p, session_at w r d = Ok rec /\ ss_pendingKeyExchange (sr_state rec) = Some p /\
                 default 0%N (px_sequence p) = xSequence m) ->
  ~ verifies C (xIdentityKey m) (x05 :: xBaseKey m) (xBaseKeySignature m) ->
  run (processKeyExchangeMessage C r d m) w = (o, w') ->
  (exists e, o = Err e) /\ unchanged w w'.
Proof. exact kx_bad_signature_unchanged. Qed.
Print Assumptions C22_unchanged.

(** The exception is InvalidKeyException when signature and keys have the right lengths.
    What is missing: other lengths raise other exceptions, see below. *)
Theorem C22_initiate_partial : forall C r d m w rec,
  trusts w r (xIdentityKey m) -> session_at w r d = Ok rec -> kx_isInitiate m = true ->
  length (xIdentityKey m) = 32 -> length (xBaseKeySignature m) = 64 ->
  ~ verifies C (xIdentityKey m) (x05 :: xBaseKey m) (xBaseKeySignature m) ->
  run (processKeyExchangeMessage C r d m) w = (Err EInvalidKey, w).
Proof. exact kx_initiate_bad_signature. Qed.
Print Assumptions C22_initiate_partial.

Theorem C22_response_partial : forall C, crypto_ok C -> forall r d m w rec p kb kr ki,
  trusts w r (xIdentityKey m) -> session_at w r d = Ok rec -> kx_isInitiate m = false ->
  ss_pendingKeyExchange (sr_state rec) = Some p ->
  p = PxS (Some (xSequence m)) (Some (x05 :: kp_pub kb)) (Some (kp_priv kb)) (Some (x05 :: kp_pub kr)) (Some (kp_priv kr))
        (Some (x05 :: kp_pub ki)) (Some (kp_priv ki)) ->
  kp_ok kb -> kp_ok kr -> kp_ok ki ->
  length (xBaseKey m) = 32 -> length (xRatchetKey m) = 32 ->
  length (xIdentityKey m) = 32 -> length (xBaseKeySignature m) = 64 ->
  ~ verifies C (xIdentityKey m) (x05 :: xBaseKey m) (xBaseKeySignature m) ->
  exists w', run (processKeyExchangeMessage C r d m) w = (Err EInvalidKey, w') /\ unchanged w w'.
Proof. exact kx_response_bad_signature. Qed.
Print Assumptions C22_response_partial.

Theorem C22_exception_refuted : exists C w r d m w',
  crypto_ok C /\ trusts w r (xIdentityKey m) /\ kx_isInitiate m = true /\
  ~ verifies C (xIdentityKey m) (x05 :: xBaseKey m) (xBaseKeySignature m) /\
  run (processKeyExchangeMessage C r d m) w = (Err EValueError, w').
Proof. exact kx_exception_refuted. Qed.
Print Assumptions C22_exception_refuted.

(** The same messages as for C21 with one byte of the signature changed. *)
Definition badSig (m : keyExchangeMessage) : keyExchangeMessage :=
  KeyExchangeMessage (xVersion m) (xSupportedVersion m) (xSequence m) (xFlags m) (xBaseKey m)
    (match xBaseKeySignature m with b :: s => n2b (255 - b2n b) :: s | [] => [] end) (xRatchetKey m) (xIdentityKey m) (xSerialized m).
Example C22_both_directions :
  (run (processKeyExchangeMessage toy 1 1 (badSig (get noKx kx1.1))) bob0).1 = Err EInvalidKey /\
  (run (processKeyExchangeMessage toy 2 1 (badSig (default noKx (get None kx2.1)))) kx1.2).1 = Err EInvalidKey.
Proof. vm_compute. done. Qed.

(** ** C36: signed prekeys are correctly signed *)

Theorem C36_signed : forall C, crypto_ok C -> forall seed id w,
  length seed = 32 -> (id < 2 ^ 32)%N ->
  let identity := KeyPair (genPub C (genPriv C seed)) (genPriv C seed) in
  exists spr kp w', run (generateSignedPreKey C identity id) w = (Ok spr, w') /\ unchanged w w' /\
    signedprekeyrecord_getId spr = id /\ signedprekeyrecord_getKeyPair spr = Ok kp /\ genuine C kp /\
    verifies C (kp_pub identity) (x05 :: kp_pub kp) (signedprekeyrecord_getSignature spr).
Proof. exact signed_prekey_run. Qed.
Print Assumptions C36_signed.

(** The id goes into an int32 field of the session of whoever accepts the bundle. *)
Theorem C36_accepted : forall C, crypto_ok C -> forall seed id w spr w',
  length seed = 32 -> (id < 2 ^ 31)%N ->
  let identity := KeyPair (genPub C (genPriv C seed)) (genPriv C seed) in
  run (generateSignedPreKey C identity id) w = (Ok spr, w') ->
  exists kp, signedprekeyrecord_getKeyPair spr = Ok kp /\
  forall r d regid dev pid pk wA rec,
  trusts wA r (kp_pub identity) -> session_at wA r d = Ok rec ->
  length (kp_priv (w_identity wA)) = 32 -> (w_regid wA < 2 ^ 32)%N -> (regid < 2 ^ 32)%N ->
  (forall i, pid = Some i -> (i < 2 ^ 32)%N) -> (forall k, pk = Some k -> length k = 32) ->
  exists wA', run (processPreKeyBundle C r d
    (PreKeyBundle regid dev pid pk (signedprekeyrecord_getId spr) (Some (kp_pub kp))
       (signedprekeyrecord_getSignature spr) (kp_pub identity))) wA = (Ok tt, wA').
Proof. exact signed_prekey_accepted. Qed.
Print Assumptions C36_accepted.

Example C36_bob :
  signedprekeyrecord_getId bobSigned = 9%N /\
  verify toy (kp_pub (w_identity bob0)) (x05 :: kp_pub (get noKp (signedprekeyrecord_getKeyPair bobSigned)))
    (signedprekeyrecord_getSignature bobSigned) = 0%Z /\
  verify toy (kp_pub (w_identity mallory0)) (x05 :: kp_pub (get noKp (signedprekeyrecord_getKeyPair bobSigned)))
    (signedprekeyrecord_getSignature bobSigned) = 1%Z.
Proof. vm_compute. done. Qed.

(** ** C44: sessions and messages of different versions do not mix *)

Theorem C44_refused : forall C s m w,
  st_hasSenderChain s = false \/ wVersion m <> st_getSessionVersion s ->
  run (decryptWithSessionState C s m) w = (Err EInvalidMessage, w).
Proof. exact other_version. Qed.
Print Assumptions C44_refused.

(** The reply of Bob, presented as a version 2 message. *)
Example C44_version2 :
  let m := get noWm (whisper_parse reply0) in
  let m2 := WhisperMessage (wRatchetKey m) 2 (wCounter m) (wPreviousCounter m) (wBody m) (wSerialized m) in
  (run (decryptMsg toy 2 1 m) (n_A talk)).1 = Ok [x02] /\
  (run (decryptMsg toy 2 1 m2) (n_A talk)).1 = Err EInvalidMessage.
Proof. vm_compute. done. Qed.
(** Alice only started a key exchange: there is a session record, but it was never set up. *)
Example C44_not_set_up :
  let m := get noWm (whisper_parse reply0) in
  let m2 := WhisperMessage (wRatchetKey m) 2 (wCounter m) (wPreviousCounter m) (wBody m) (wSerialized m) in
  is_Some (w_sessions kx1.2 !! (2%Z, 1%Z)) /\
  (run (decryptMsg toy 2 1 m) kx1.2).1 = Err EInvalidMessage /\ (run (decryptMsg toy 2 1 m2) kx1.2).1 = Err EInvalidMessage.
Proof. vm_compute. split_and!; [eexists; reflexivity|done|done]. Qed.

(** ** C46: decrypting without a session says so *)

Theorem C46_decrypt : forall C r d m w,
  w_sessions w !! (r, d) = None -> run (decryptMsg C r d m) w = (Err ENoSession, w).
Proof. exact no_session_decrypt. Qed.
Print Assumptions C46_decrypt.

(** encrypt raises and changes nothing, but what it raises is IndexError. *)
Theorem C46_encrypt_partial : forall C r d pt w,
  w_sessions w !! (r, d) = None -> run (encrypt C r d pt) w = (Err EIndexError, w).
Proof. exact no_session_encrypt. Qed.
Print Assumptions C46_encrypt_partial.

Theorem C46_encrypt_refuted : exists C r d pt w,
  crypto_ok C /\ w_sessions w !! (r, d) = None /\ (run (encrypt C r d pt) w).1 = Err EIndexError.
Proof. exact encrypt_no_session_refuted. Qed.
Print Assumptions C46_encrypt_refuted.

Example C46_wrong_device :
  (run (decryptMsg toy 2 1 (get noWm (whisper_parse reply0))) (n_A talk)).1 = Ok [x02] /\
  (run (decryptMsg toy 2 7 (get noWm (whisper_parse reply0))) (n_A talk)).1 = Err ENoSession.
Proof. vm_compute. done. Qed.

(** ** C47: counters never wrap *)

Theorem C47_last_counter : forall C r d pt w rec,
  session_at w r d = Ok rec ->
  (exists c k, ss_senderChain (sr_state rec) = Some c /\ ch_chainKey c = Some k /\
               (2 ^ 32 - 1 <= default 0 (ck_index k))%N) ->
  exists e, run (encrypt C r d pt) w = (Err e, w).
Proof. exact encrypt_last_counter. Qed.
Print Assumptions C47_last_counter.

(** The session of Alice with its sending counter set near the end. *)
Definition counterAt (i : N) : world :=
  let rec := get sr_new (session_at alice1 2 1) in
  let s := get st_new (ck ← st_getSenderChainKey (sr_state rec);
                       st_setSenderChainKey (ChainKey (cKdf ck) (cKey ck) i) (sr_state rec)) in
  (run (do (CStoreSession 2 1 (sr_setState s rec))) alice1).2.
Example C47_near_the_end :
  is_ok (run (encrypt toy 2 1 [x01]) (counterAt 4294967294)).1 /\
  (run (encrypt toy 2 1 [x01]) (counterAt 4294967295)).1 = Err EValueError.
Proof. vm_compute. split; [eexists; reflexivity|done]. Qed.

(** ** C48: a hostile prekey message cannot lock out the real peer *)

(** What is missing: a hostile message under the same name when no identity is stored yet
    and with another identity key, see below. *)
Theorem C48_lockout_partial : forall C, crypto_ok C -> forall r d m rh dh h w e w' pt,
  run (decryptPkmsg C rh dh h) w = (Err e, w') ->
  (run (decryptPkmsg C r d m) w).1 = Ok pt ->
  rh <> r \/ is_Some (w_trusted w !! r) \/ pIdentityKey h = pIdentityKey m ->
  (run (decryptPkmsg C r d m) w').1 = Ok pt.
Proof. exact lockout_partial. Qed.
Print Assumptions C48_lockout_partial.

Theorem C48_lockout_refuted : exists C w r d genuine hostile pt e w',
  crypto_ok C /\ (run (decryptPkmsg C r d genuine) w).1 = Ok pt /\
  run (decryptPkmsg C r d hostile) w = (Err e, w') /\
  (run (decryptPkmsg C r d genuine) w').1 = Err (EUntrustedIdentity r (pIdentityKey genuine)).
Proof. exact lockout_refuted. Qed.
Print Assumptions C48_lockout_refuted.

(** A failed decryptMsg never does that. *)
Theorem C48_whisper_message : forall C, crypto_ok C -> forall r d m rh dh h w e w' pt,
  run (decryptMsg C rh dh h) w = (Err e, w') ->
  (run (decryptPkmsg C r d m) w).1 = Ok pt ->
  (run (decryptPkmsg C r d m) w').1 = Ok pt.
Proof. exact lockout_msg. Qed.
Print Assumptions C48_whisper_message.

Example C48_same_identity :
  let x := run (decryptPkmsg toy 1 1 (pkTampered alice0 [x01])) bob1 in
  x.1 = Err EInvalidMessage /\ (run (decryptPkmsg toy 1 1 (pkFrom alice0 [x01])) x.2).1 = Ok [x01].
Proof. vm_compute. done. Qed.
