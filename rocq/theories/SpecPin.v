(** Trusted identities over histories. *)
From Verif Require Import PyBase Protos Crypto Ecc Kdf Messages State Prog Ratchet Builder Cipher Groups Helper SpecSession SpecApi.

(** Public calls one after the other; some of them are killed half-way. *)
Inductive calls_from (C : crypto) (w : world) : world -> Prop :=
| calls_none : calls_from C w w
| calls_end w1 c : calls_from C w w1 -> calls_from C w (run (api C c) w1).2
| calls_die w1 c n : calls_from C w w1 -> calls_from C w (run_crash n (api C c) w1).2.

(** What a device without sessions gets to by calls that are not killed, and by new prekeys. *)
Inductive undisturbed (C : crypto) : world -> Prop :=
| undisturbed_start w : w_sessions w = ∅ -> undisturbed C w
| undisturbed_call w c : undisturbed C w -> undisturbed C (run (api C c) w).2
| undisturbed_prekeys w m : undisturbed C w -> undisturbed C (w_set_prekeys m w)
| undisturbed_signed w m : undisturbed C w -> undisturbed C (w_set_signed m w).

(** All sessions with a peer, also the archived ones, are with the identity trusted for it. *)
Definition sessions_pinned (w : world) : Prop :=
  forall r d rec s id,
    session_at w r d = Ok rec -> s ∈ states rec -> ss_remoteIdentity s = Some id ->
    exists k, w_trusted w !! r = Some k /\ id = pub_serialize k.
