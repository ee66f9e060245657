(** Two concurrent calls that do not overlap. *)
From Verif Require Import PyBase Prog.

(** The schedule lets one of the two calls finish before the other makes its first access.
    (When the schedule is used up, the first call runs to its end, then the second.) *)
Definition serial {A B} (l : list bool) (p : prog A) (q : prog B) (w : world) : Prop :=
  (exists n, l = replicate n true) \/
  (exists n l', l = replicate n true ++ l' /\ (run_crash n p w).1 <> None) \/
  (exists n l', l = replicate n false ++ l' /\ (run_crash n q w).1 <> None).
