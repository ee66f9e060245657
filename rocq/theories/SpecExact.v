(** A conversation in which nothing is left open (C01): also a message of a dropped chain
    has one outcome. *)
From Verif Require Import PyBase Protos Crypto Ecc Messages State Prog Builder Cipher SpecUtil SpecSession SpecKeys Sched SpecConv SpecMany.

(** What [SUnknown] is if the device keeps no older session. *)
Definition refusal (x : seen) : seen := match x with SUnknown => SRaised EInvalidMessage | _ => x end.

Section exact.
Context (C : crypto) (rA dA rB dB : Z).

(** By accident the MAC of the message [y] fits a key derived from a ratchet key whose chain
    was dropped. *)
Definition odd_mac (w : world) (r d : Z) (o : option party) (x : wire) (y : msg) : Prop :=
  exists rec m p, session_at w r d = Ok rec /\ carries x m /\ o = Some p /\ y.1.1 + 9 < p_turn p /\ mac_fits C (sr_state rec) m.
Definition odd (a : action) (n : net) (c : conv) : Prop :=
  match a with
  | DeliverA i => exists x y, n_fromB n !! i = Some x /\ c_fromB c !! i = Some y /\ odd_mac (n_A n) rB dB (c_A c) x y
  | DeliverB i => exists x y, n_fromA n !! i = Some x /\ c_fromA c !! i = Some y /\ odd_mac (n_B n) rA dA (c_B c) x y
  | _ => False
  end.
(** Every action is seen as in the ideal conversation, unless such an accident happens. *)
Fixpoint exactly (l : list action) (n : net) (c : conv) : Prop :=
  match l with
  | [] => True
  | a :: l => odd a n c \/ (sees_as (refusal (iact a c).1) (act C rA dA rB dB a n).1 /\ exactly l (act C rA dA rB dB a n).2 (iact a c).2)
  end.
End exact.
