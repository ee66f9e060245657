(** Executions in which the code does not do what a property asks, with the toy
    primitives.  Every result is computed by the kernel's virtual machine. *)
From Verif Require Import PyBase Wire Protos Crypto Ecc Kdf Messages State Prog Ratchet Builder Cipher Helper Toy Sched Ex.
From Verif Require Import SpecSession SessionProofs.

Lemma pkmsg_trust_refuted : exists C w r d m e w',
  crypto_ok C /\ run (decryptPkmsg C r d m) w = (Err e, w') /\ w_trusted w' <> w_trusted w.
Proof.
  exists toy, bob1, 1%Z, 1%Z, (pkTampered mallory0 [x01]), EInvalidMessage,
    (run (decryptPkmsg toy 1 1 (pkTampered mallory0 [x01])) bob1).2.
  assert ((run (decryptPkmsg toy 1 1 (pkTampered mallory0 [x01])) bob1).1 = Err EInvalidMessage) as H1
    by (vm_compute; reflexivity).
  assert (w_trusted (run (decryptPkmsg toy 1 1 (pkTampered mallory0 [x01])) bob1).2 !! 1%Z
          = Some (kp_pub (w_identity mallory0))) as H2 by (vm_compute; reflexivity).
  assert (w_trusted bob1 !! 1%Z = None) as H3 by (vm_compute; reflexivity).
  split; [exact toy_ok|]. split; [rewrite <- H1; apply surjective_pairing|].
  intros H. rewrite H, H3 in H2. discriminate H2.
Qed.

(** Bob would have accepted the genuine message, but not after the hostile one. *)
Lemma lockout_refuted : exists C w r d genuine hostile pt e w',
  crypto_ok C /\ (run (decryptPkmsg C r d genuine) w).1 = Ok pt /\
  run (decryptPkmsg C r d hostile) w = (Err e, w') /\
  (run (decryptPkmsg C r d genuine) w').1 = Err (EUntrustedIdentity r (pIdentityKey genuine)).
Proof.
  exists toy, bob1, 1%Z, 1%Z, (pkFrom alice0 [x01]), (pkTampered mallory0 [x01]), [x01], EInvalidMessage,
    (run (decryptPkmsg toy 1 1 (pkTampered mallory0 [x01])) bob1).2.
  assert ((run (decryptPkmsg toy 1 1 (pkTampered mallory0 [x01])) bob1).1 = Err EInvalidMessage) as H1
    by (vm_compute; reflexivity).
  split; [exact toy_ok|]. split; [vm_compute; reflexivity|].
  split; [rewrite <- H1; apply surjective_pairing|]. vm_compute. reflexivity.
Qed.

(** A bundle with an empty signature. *)
Definition bundleUnsigned : preKeyBundle :=
  PreKeyBundle (bu_registrationId bundle) (bu_deviceId bundle) (bu_preKeyId bundle) (bu_preKey bundle)
    (bu_signedPreKeyId bundle) (bu_signedPreKey bundle) [] (bu_identityKey bundle).
Lemma bundle_exception_refuted : exists C w r d b k w',
  crypto_ok C /\ trusts w r (bu_identityKey b) /\ bu_signedPreKey b = Some k /\
  ~ verifies C (bu_identityKey b) (x05 :: k) (bu_signedPreKeySignature b) /\
  run (processPreKeyBundle C r d b) w = (Err EValueError, w').
Proof.
  exists toy, alice0, 2%Z, 1%Z, bundleUnsigned, (default [] (bu_signedPreKey bundle)), alice0.
  split; [exact toy_ok|]. split; [by left|]. split; [done|].
  split; [intros (_ & H & _); discriminate H|].
  apply (bundle_bad_length _ _ _ _ (default [] (bu_signedPreKey bundle))); [by left|done|].
  intros [_ H]. discriminate H.
Qed.

(** An initiate message with an empty signature. *)
Definition kxUnsigned : keyExchangeMessage :=
  KeyExchangeMessage 3 3 1 INITIATE_FLAG (kp_pub (w_identity mallory0)) [] (kp_pub (w_identity mallory0))
    (kp_pub (w_identity mallory0)) [].
Lemma kx_exception_refuted : exists C w r d m w',
  crypto_ok C /\ trusts w r (xIdentityKey m) /\ kx_isInitiate m = true /\
  ~ verifies C (xIdentityKey m) (x05 :: xBaseKey m) (xBaseKeySignature m) /\
  run (processKeyExchangeMessage C r d m) w = (Err EValueError, w').
Proof.
  exists toy, bob0, 1%Z, 1%Z, kxUnsigned, (run (processKeyExchangeMessage toy 1 1 kxUnsigned) bob0).2.
  assert ((run (processKeyExchangeMessage toy 1 1 kxUnsigned) bob0).1 = Err EValueError) as H1 by (vm_compute; reflexivity).
  split; [exact toy_ok|]. split; [by left|]. split; [done|].
  split; [intros (_ & H & _); discriminate H|]. rewrite <- H1. apply surjective_pairing.
Qed.

Lemma encrypt_no_session_refuted : exists C r d pt w,
  crypto_ok C /\ w_sessions w !! (r, d) = None /\ (run (encrypt C r d pt) w).1 = Err EIndexError.
Proof.
  exists toy, 2%Z, 1%Z, [x01], alice0. split; [exact toy_ok|]. split; [done|].
  rewrite no_session_encrypt; done.
Qed.
