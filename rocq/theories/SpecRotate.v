(** Replacing prekeys: an independent description used by C98. *)
From Verif Require Import PyBase Protos Crypto Ecc Messages State Prog.

(** The application stores, replaces ([Some]) or removes ([None]) the signed prekey number [i]. *)
Definition put_signed (i : N) (o : option bytes) (w : world) : world := w_set_signed (partial_alter (fun _ => o) i (w_signed w)) w.
(** The same for the one-time prekey number [i]. *)
Definition put_prekey (i : N) (o : option bytes) (w : world) : world := w_set_prekeys (partial_alter (fun _ => o) i (w_prekeys w)) w.

(** A call after the change gives what it gives without, and does the same to the stores, which
    differ by that change only. *)
Definition unaffected {A} (p : prog A) (change : world -> world) (w : world) : Prop :=
  run p (change w) = ((run p w).1, change (run p w).2).
