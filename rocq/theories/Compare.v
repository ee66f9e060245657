(** The other comparisons of public keys, ecc/djbec.py. *)
From Verif Require Import PyBase Protos Crypto Ecc.

(** DjbECPublicKey.__cmp__, ecc/djbec.py:37-46; Python tuples are equal if their items are. *)
Definition pub_cmp (a b : bytes) : res Z :=
  x ← unpack8i a; y ← unpack8i b;
  Ok (if tuple_lt x y then (-1)%Z else if bool_decide (x = y) then 0%Z else 1%Z).
(** [a > b] in Python 3, which has no __gt__ to call and asks [b < a], ecc/djbec.py:31-35. *)
Definition pub_gt (a b : bytes) : res bool := pub_lt b a.
