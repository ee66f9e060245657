(** The first messages of a conversation delivered in one order or another: an independent
    description used by C97. *)
From Verif Require Import PyBase Protos Crypto Ecc Kdf Messages State Prog Cipher.

(** The messages are decrypted one after the other; every one gives the plaintext next to it. *)
Fixpoint all_first (C : crypto) (r d : Z) (l : list (preKeyWhisperMessage * bytes)) (w w' : world) : Prop :=
  match l with
  | [] => w' = w
  | x :: l => exists w1, run (decryptPkmsg C r d x.1) w = (Ok x.2, w1) /\ all_first C r d l w1 w'
  end.

(** The message carries the handshake of [h]: only the message inside may be another. *)
Definition handshake_of (h m : preKeyWhisperMessage) : Prop :=
  pVersion m = pVersion h /\ pRegistrationId m = pRegistrationId h /\ pPreKeyId m = pPreKeyId h /\
  pSignedPreKeyId m = pSignedPreKeyId h /\ pBaseKey m = pBaseKey h /\ pIdentityKey m = pIdentityKey h.
