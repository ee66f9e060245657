(** Prekey messages that differ only in their wrapper, used by C83. *)
From Verif Require Import PyBase Messages.

(** [m'] is [m] with another registration id, prekey ids and identity key. *)
Definition pk_with (rid : N) (pid : option N) (spid : N) (ident : bytes) (m m' : preKeyWhisperMessage) : Prop :=
  pVersion m' = pVersion m /\ pBaseKey m' = pBaseKey m /\ pMessage m' = pMessage m /\
  pIdentityKey m' = ident /\ pRegistrationId m' = rid /\ pPreKeyId m' = pid /\ pSignedPreKeyId m' = spid.
