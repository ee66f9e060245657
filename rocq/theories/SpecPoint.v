(** Encodings of public keys (C86) and hexadecimal strings (C87). *)
From Verif Require Import PyBase.

(** At this offset of the byte string the key [k] is encoded: the type byte 5 and 32 bytes. *)
Definition encoded_at (bs : bytes) (off : nat) (k : bytes) : Prop :=
  exists a b, bs = a ++ x05 :: k ++ b /\ length a = off /\ length k = 32.

(** The digits, in the two cases. *)
Definition lower : bytes := [x30; x31; x32; x33; x34; x35; x36; x37; x38; x39; x61; x62; x63; x64; x65; x66].
Definition upper : bytes := [x30; x31; x32; x33; x34; x35; x36; x37; x38; x39; x41; x42; x43; x44; x45; x46].
Definition spells (d : Byte.byte) (v : N) : Prop := lower !! N.to_nat v = Some d \/ upper !! N.to_nat v = Some d.
(** The string writes every byte with two digits. *)
Inductive spelled : bytes -> bytes -> Prop :=
| spelled_nil : spelled [] []
| spelled_cons h l s b bs : spells h (b2n b / 16) -> spells l (b2n b mod 16) -> spelled s bs -> spelled (h :: l :: s) (b :: bs).
(** The usual way to write a byte string. *)
Definition hexlify (bs : bytes) : bytes :=
  bs ≫= fun b => [default x00 (lower !! N.to_nat (b2n b / 16)); default x00 (lower !! N.to_nat (b2n b mod 16))].
