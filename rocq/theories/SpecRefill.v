(** A stock of prekeys that is refilled from time to time: an independent description used by
    C94. *)
From Verif Require Import PyBase Protos Crypto State Prog Helper Install.

(** More prekeys are generated and stored, or one is used up. *)
Inductive event := Refill (n : nat) | Used (i : N).

(** The device carries on with the number after the last one it generated
    (util/keyhelper.py:57-77); used prekeys are removed, tests/inmemoryprekeystore.py.  The
    batches generated, and the device afterwards. *)
Fixpoint stock (C : crypto) (l : list event) (next : Z) (w : world) : list (list pr_s) * world :=
  match l with
  | [] => ([], w)
  | Refill n :: l =>
      match run (generatePreKeys C next n) w with
      | (Ok rs, w1) => let '(b, w2) := stock C l (next + Z.of_nat n) (w_set_prekeys (storePreKeys rs (w_prekeys w1)) w1) in (rs :: b, w2)
      | (Err _, w1) => ([], w1)
      end
  | Used i :: l => stock C l next (w_set_prekeys (delete i (w_prekeys w)) w)
  end.

(** What ought to be in stock: everything generated and not used since. *)
Fixpoint left_over (l : list event) (batches : list (list pr_s)) (have : list pr_s) : list pr_s :=
  match l with
  | [] => have
  | Refill _ :: l => match batches with b :: batches => left_over l batches (have ++ b) | [] => have end
  | Used i :: l => left_over l batches (filter (fun r => prekeyrecord_getId r <> i) have)
  end.
Fixpoint generated (l : list event) : nat := match l with [] => 0 | Refill n :: l => n + generated l | Used _ :: l => generated l end.
