(** Handshake parameters: an independent description used by C99. *)
From Verif Require Import PyBase Protos Crypto Ecc Messages State Prog Params.

(** The value given by the last setter of one kind; [None] if that setter was never called. *)
Definition chosen {X V} (pick : X -> option (option V)) (l : list X) : option V := default None (last (omap pick l)).

Definition a_ourIdentity x := match x with AOurIdentity o => Some o | _ => None end.
Definition a_ourBase x := match x with AOurBase o => Some o | _ => None end.
Definition a_theirIdentity x := match x with ATheirIdentity o => Some o | _ => None end.
Definition a_theirSigned x := match x with ATheirSigned o => Some o | _ => None end.
Definition a_theirRatchet x := match x with ATheirRatchet o => Some o | _ => None end.
Definition a_theirOneTime x := match x with ATheirOneTime o => Some o | _ => None end.
Definition b_ourIdentity x := match x with BOurIdentity o => Some o | _ => None end.
Definition b_ourSigned x := match x with BOurSigned o => Some o | _ => None end.
Definition b_ourRatchet x := match x with BOurRatchet o => Some o | _ => None end.
Definition b_ourOneTime x := match x with BOurOneTime o => Some o | _ => None end.
Definition b_theirIdentity x := match x with BTheirIdentity o => Some o | _ => None end.
Definition b_theirBase x := match x with BTheirBase o => Some o | _ => None end.
Definition s_ourIdentity x := match x with SOurIdentity o => Some o | _ => None end.
Definition s_ourBase x := match x with SOurBase o => Some o | _ => None end.
Definition s_ourRatchet x := match x with SOurRatchet o => Some o | _ => None end.
Definition s_theirIdentity x := match x with STheirIdentity o => Some o | _ => None end.
Definition s_theirBase x := match x with STheirBase o => Some o | _ => None end.
Definition s_theirRatchet x := match x with STheirRatchet o => Some o | _ => None end.

(** Two programs make the same store accesses in the same order, and end in the same way,
    whatever the stores answer. *)
Inductive same {A} : prog A -> prog A -> Prop :=
| same_ret a : same (Ret a) (Ret a)
| same_raise e : same (Raise e) (Raise e)
| same_call R (c : call R) k k' : (forall x, same (k x) (k' x)) -> same (Call c k) (Call c k').
