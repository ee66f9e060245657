(** Histories in which the ratchet key of a decrypted message is not introduced anew: an
    independent description used by C49. *)
From Verif Require Import PyBase Protos Crypto Ecc Messages State Prog Ratchet Builder Cipher Groups SpecSession SpecApi.

(** The state has a receiving chain of the ratchet key. *)
Definition chain_for (s : ss_s) (key : bytes) : Prop :=
  exists c, c ∈ ss_receiverChains s /\ ch_ratchetKey c = Some (x05 :: key).

(** The state of the record that decrypts the message: those before it do not know it. *)
Definition opens (C : crypto) (rec : sessionRecord) (m : whisperMessage) (s : ss_s) : Prop :=
  exists i pt, states rec !! i = Some s /\ answers C s m (Ok pt) /\
    forall k s', k < i -> states rec !! k = Some s' -> answers C s' m (Err EInvalidMessage).

(** The message shows another ratchet key, or the state that decrypts it already has the
    receiving chain: it makes no DH ratchet step with this key. *)
Definition no_step (C : crypto) (r d : Z) (key : bytes) (w : world) (m : whisperMessage) : Prop :=
  wRatchetKey m = key -> forall rec s, session_at w r d = Ok rec -> opens C rec m s -> chain_for s key.

(** A call that does not make a new receiving chain of the ratchet key in the session of
    ([r], [d]): other peers, groups, encrypting and own initiations are free; a bundle or
    key exchange message shows another ratchet key; a message makes no DH ratchet step with
    this key; and a prekey message of this key belongs to a session already there. *)
Definition no_new_chain (C : crypto) (r d : Z) (key : bytes) (w : world) (c : apiCall) : Prop :=
  match c with
  | ABundle r' d' b => (r', d') = (r, d) -> bu_signedPreKey b <> Some key
  | AKx r' d' m => (r', d') = (r, d) -> xRatchetKey m <> key
  | AMsg r' d' m => (r', d') = (r, d) -> no_step C r d key w m
  | APkmsg r' d' m => (r', d') = (r, d) -> no_step C r d key w (pMessage m) /\
      (wRatchetKey (pMessage m) = key -> forall rec, session_at w r d = Ok rec -> belongs rec (pVersion m) (pBaseKey m))
  | _ => True
  end.

Inductive tame (C : crypto) (r d : Z) (key : bytes) (w : world) : world -> Prop :=
| tame_ends c : no_new_chain C r d key w c -> tame C r d key w (run (api C c) w).2
| tame_dies c n : no_new_chain C r d key w c -> tame C r d key w (run_crash n (api C c) w).2
| tame_prekeys m : tame C r d key w (w_set_prekeys m w)
| tame_signed m : tame C r d key w (w_set_signed m w)
| tame_trusted m : tame C r d key w (w_set_trusted m w).
