(** C100: the comparisons of public keys agree. *)
From Verif Require Import PyBase Protos Crypto Ecc Compare CompareProofs.

(** Of two 32-byte keys exactly one of less, equal and greater holds, and __cmp__ says which. *)
Theorem C100_agree : forall a b, length a = 32 -> length b = 32 ->
  (pub_cmp a b = Ok (-1)%Z /\ pub_lt a b = Ok true /\ pub_gt a b = Ok false /\ pub_eqb a b = false) \/
  (pub_cmp a b = Ok 0%Z /\ pub_lt a b = Ok false /\ pub_gt a b = Ok false /\ pub_eqb a b = true) \/
  (pub_cmp a b = Ok 1%Z /\ pub_lt a b = Ok false /\ pub_gt a b = Ok true /\ pub_eqb a b = false).
Proof. exact cmp_agrees. Qed.
Print Assumptions C100_agree.
(** Equal means the same bytes. *)
Theorem C100_equal : forall a b, pub_eqb a b = true <-> a = b.
Proof. exact eq_refines. Qed.
Print Assumptions C100_equal.
(** Exchanging the keys turns the result round. *)
Theorem C100_turned : forall a b t, pub_cmp a b = Ok t -> pub_cmp b a = Ok (- t)%Z.
Proof. exact cmp_turned. Qed.
Print Assumptions C100_turned.
(** Keys of another length can be tested for equality only; the other comparisons raise struct.error. *)
Theorem C100_other_lengths : forall a b, length a <> 32 \/ length b <> 32 ->
  pub_cmp a b = Err EStructError /\ pub_lt a b = Err EStructError /\ pub_gt a b = Err EStructError.
Proof. exact cmp_raises. Qed.
Print Assumptions C100_other_lengths.

(** The words are signed: 0x80... is below 0x00..., and the last byte counts too. *)
Example C100_signed :
  let z := replicate 32 x00 in let m := x80 :: replicate 31 x00 in let l := replicate 31 x00 ++ [x01] in
  map (fun p => pub_cmp p.1 p.2) [(m, z); (z, m); (z, z); (l, z); (z, l); (m, l)] =
  [Ok (-1); Ok 1; Ok 0; Ok 1; Ok (-1); Ok (-1)]%Z.
Proof. vm_compute. reflexivity. Qed.
Example C100_lengths :
  pub_eqb [x01] [x01] = true /\ pub_cmp [x01] [x01] = Err EStructError /\
  pub_cmp (replicate 33 x00) (replicate 32 x00) = Err EStructError /\ pub_cmp (replicate 32 x00) (replicate 33 x00) = Err EStructError /\
  pub_gt (replicate 32 x00) (replicate 32 x00) = Ok false.
Proof. vm_compute. by split_and!. Qed.
