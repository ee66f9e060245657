(** Independent specifications for the utility level: byte strings, HKDF, ratchet steps,
    key order, prekey ids.  Nothing here refers to the model except [bytes]. *)
From Verif Require Import PyBase.

(** ** RFC 5869 *)
Section rfc5869.
Context (H : bytes -> bytes -> bytes).

(** T(n) of RFC 5869 section 2.3, with the block counter of the first block being
    [1 + shift] (the RFC has [shift = 0]). *)
Fixpoint rfc_T (first : nat) (prk info : bytes) (n : nat) : bytes :=
  match n with
  | O => []
  | S k => H prk (rfc_T first prk info k ++ info ++ [n2b (N.of_nat (first + k))])
  end.

(** OKM = first L octets of T(1) | T(2) | ... | T(N), N = ceil(L/HashLen). *)
Definition rfc_expand (first : nat) (prk info : bytes) (L : nat) : bytes :=
  take L (concat (map (rfc_T first prk info) (seq 1 ((L + 31) / 32)))).

(** HKDF(salt, IKM, info, L) with the salt replaced by 32 zero bytes when not provided. *)
Definition rfc_hkdf (first : nat) (salt : option bytes) (ikm info : bytes) (L : nat) : bytes :=
  rfc_expand first (H (default (replicate 32 x00) salt) ikm) info L.
End rfc5869.

(** ** Key order: eight signed 32-bit big-endian integers, lexicographically *)

(** Two's complement value of four bytes. *)
Definition s32 (a b c d : Byte.byte) : Z :=
  let z x := Z.of_N (b2n x) in
  ((if (128 <=? z a)%Z then z a - 256 else z a) * 16777216 + z b * 65536 + z c * 256 + z d)%Z.

(** The eight integers of a key. *)
Fixpoint key_ints (k : bytes) : list Z :=
  match k with
  | a :: b :: c :: d :: r => s32 a b c d :: key_ints r
  | _ => []
  end.

(** Strict lexicographic order. *)
Fixpoint lex_lt (a b : list Z) : Prop :=
  match a, b with
  | x :: a, y :: b => (x < y)%Z \/ (x = y /\ lex_lt a b)
  | [], _ :: _ => True
  | _, [] => False
  end.

(** ** Prekey ids *)

(** The largest id handed out: one below the last-resort id 0xFFFFFF. *)
Definition max_prekey_id : Z := 16777214.

(** The id after [i]. *)
Definition next_prekey_id (i : Z) : Z := if (i =? max_prekey_id)%Z then 1%Z else (i + 1)%Z.

(** [ids] is a run of consecutive ids. *)
Fixpoint consecutive (ids : list Z) : Prop :=
  match ids with
  | i :: (j :: _) as r => j = next_prekey_id i /\ consecutive r
  | _ => True
  end.

(** ** Names *)

(** The string contains no ':'. *)
Definition no_colon (s : string) : Prop :=
  Forall (fun c => c <> Ascii.ascii_of_nat 58) (String.list_ascii_of_string s).
