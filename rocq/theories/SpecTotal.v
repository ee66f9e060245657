(** When calls fail: an independent description used by C69 and C70. *)
From Verif Require Import PyBase Protos Crypto Ecc Messages State Prog SpecSession SpecKeys.

(** A message whose MAC is right for the state, but whose body is not the encryption of
    anything under the key of the message. *)
Definition bad_body (C : crypto) (s : ss_s) (m : whisperMessage) : Prop :=
  exists k local remote,
    message_key C s 3 (wRatchetKey m) (wCounter m) k /\
    identity_of (ss_remoteIdentity s) remote /\ identity_of (ss_localIdentity s) local /\
    authentic C 3 remote local (k_mac k) (wSerialized m) /\
    forall plaintext, ~ cbc_plain C (k_cipher k) (k_iv k) (wBody m) plaintext.

(** The device's own keys are usable: its private keys have 32 bytes, its stored prekeys can
    be read, and its registration id fits the field. *)
Definition own_keys_ok (w : world) : Prop :=
  length (kp_priv (w_identity w)) = 32 /\ (w_regid w < 2 ^ 32)%N /\
  (forall i bs, w_prekeys w !! i = Some bs -> exists pr, prekeyrecord_parse bs = Ok pr /\
     (exists t, pr_publicKey pr = Some (x05 :: t)) /\ length (default [] (pr_privateKey pr)) = 32) /\
  (forall i bs, w_signed w !! i = Some bs -> exists pr, signedprekeyrecord_parse bs = Ok pr /\
     (exists t, spr_publicKey pr = Some (x05 :: t)) /\ length (default [] (spr_privateKey pr)) = 32).

(** A prekey message names a signed prekey or a one-time prekey that is not stored. *)
Definition unknown_prekey (w : world) (m : preKeyWhisperMessage) : Prop :=
  w_signed w !! pSignedPreKeyId m = None \/ exists i, pPreKeyId m = Some i /\ w_prekeys w !! i = None.

(** A key exchange message that starts nothing and answers no exchange of ours. *)
Definition no_exchange (w : world) (r d : Z) (m : keyExchangeMessage) : Prop :=
  exists rec, session_at w r d = Ok rec /\ N.testbit (xFlags m) 0 = false /\ N.testbit (xFlags m) 2 = false /\
    forall p, ss_pendingKeyExchange (sr_state rec) = Some p -> default 0%N (px_sequence p) <> xSequence m.
