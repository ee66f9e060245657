(** Bytes, Python slices, exceptions as values, and axolotl/util/byteutil.py. *)
From Coq Require Export Init.Byte.
From Coq Require Import Strings.Byte.
From stdpp Require Export base tactics option list numbers gmap strings.
Set Default Proof Using "Type".
Global Open Scope list_scope.
Global Generalizable No Variables.

(** Python [bytes] and [bytearray] objects (the two are not distinguished). *)
Notation bytes := (list Byte.byte).

(** Integer value of a byte, as Python indexing of [bytes] gives it. *)
Definition b2n (b : Byte.byte) : N := Byte.to_N b.

(** The byte of an integer, reduced modulo 256. *)
Definition n2b (n : N) : Byte.byte :=
  match Byte.of_N (n mod 256) with Some b => b | None => x00 end.

Global Instance byte_eq_dec : EqDecision Byte.byte := Byte.byte_eq_dec.

Lemma b2n_lt b : (b2n b < 256)%N.
Proof. pose proof (Byte.to_N_bounded b). unfold b2n. lia. Qed.

Lemma n2b_b2n b : n2b (b2n b) = b.
Proof.
  unfold n2b, b2n. rewrite N.mod_small by (pose proof (Byte.to_N_bounded b); lia).
  by rewrite Byte.of_to_N.
Qed.

Lemma b2n_n2b n : b2n (n2b n) = (n mod 256)%N.
Proof.
  unfold n2b, b2n. destruct (Byte.of_N (n mod 256)) as [b|] eqn:E.
  - by apply Byte.to_of_N.
  - apply Byte.of_N_None_iff in E. pose proof (N.mod_lt n 256). lia.
Qed.

Lemma b2n_n2b_small n : (n < 256)%N -> b2n (n2b n) = n.
Proof. intros. rewrite b2n_n2b. by apply N.mod_small. Qed.

Lemma b2n_inj a b : b2n a = b2n b -> a = b.
Proof. intros H. by rewrite <- (n2b_b2n a), <- (n2b_b2n b), H. Qed.

(** ** Exceptions.  One constructor per class that can surface.  The library's own
    classes are axolotl/*exception*.py; texts are not modelled, the payload of
    UntrustedIdentityException (untrustedidentityexception.py:3-12) is. *)
Inductive exn :=
| EInvalidMessage | EDuplicateMessage | ENoSession | EInvalidKey | EInvalidKeyId
| EInvalidVersion | ELegacyMessage | EStaleKeyExchange
| EUntrustedIdentity (name : Z) (identityKey : bytes)
| EValueError | ETypeError | EIndexError | EAssertionError | EDecodeError
| EStructError | EKeyError | ERuntimeError.

Global Instance exn_eq_dec : EqDecision exn.
Proof. solve_decision. Defined.

(** Result of a Python computation: a value or a raised exception. *)
Inductive res (A : Type) := Ok (a : A) | Err (e : exn).
Arguments Ok {A} a.
Arguments Err {A} e.

Global Instance res_ret : MRet res := @Ok.
Global Instance res_bind : MBind res := λ A B f r,
  match r with Ok a => f a | Err e => Err e end.
Global Instance res_fmap : FMap res := λ A B f r,
  match r with Ok a => Ok (f a) | Err e => Err e end.

Definition is_ok {A} (r : res A) : Prop := match r with Ok _ => True | Err _ => False end.
Definition is_err {A} (r : res A) : Prop := match r with Ok _ => False | Err _ => True end.

(** [if not c: raise e]. *)
Definition guard_res (c : bool) (e : exn) : res unit := if c then Ok tt else Err e.

Lemma bind_ok {A B} (f : A -> res B) (a : A) : (Ok a ≫= f) = f a.
Proof. reflexivity. Qed.
Lemma bind_err {A B} (f : A -> res B) e : (Err e ≫= f) = Err e.
Proof. reflexivity. Qed.
Lemma bind_ok_inv {A B} (m : res A) (f : A -> res B) b :
  (m ≫= f) = Ok b -> exists a, m = Ok a /\ f a = Ok b.
Proof. destruct m; [eauto|done]. Qed.
Lemma bind_err_inv {A B} (m : res A) (f : A -> res B) e :
  (m ≫= f) = Err e -> m = Err e \/ exists a, m = Ok a /\ f a = Err e.
Proof. destruct m; [eauto|]. intros H. left. by injection H as ->. Qed.

(** ** Python slicing [l[a:b]] with possibly negative indices. *)
Definition py_norm (len i : Z) : Z :=
  if (i <? 0)%Z then Z.max 0 (i + len) else Z.min i len.

(** [l[a:b]]. *)
Definition py_slice {A} (l : list A) (a b : Z) : list A :=
  let len := Z.of_nat (length l) in
  let a' := py_norm len a in
  let b' := py_norm len b in
  take (Z.to_nat (b' - a')) (drop (Z.to_nat a') l).

(** [len(l)] as a Python integer. *)
Definition zlen {A} (l : list A) : Z := Z.of_nat (length l).

Lemma py_norm_nonneg len i : (0 <= i)%Z -> py_norm len i = Z.min i len.
Proof. unfold py_norm. intros. by rewrite (proj2 (Z.ltb_ge i 0)) by lia. Qed.

Lemma py_slice_nonneg {A} (l : list A) (a b : nat) :
  a <= b -> py_slice l (Z.of_nat a) (Z.of_nat b) = take (b - a) (drop a l).
Proof.
  intros Hab. unfold py_slice. rewrite !py_norm_nonneg by lia.
  destruct (decide (length l <= a)).
  - rewrite (drop_ge l a) by lia. rewrite drop_ge by lia. by rewrite !take_nil.
  - replace (Z.to_nat (Z.of_nat a `min` Z.of_nat (length l))) with a by lia.
    destruct (decide (length l <= b)).
    + rewrite !take_ge; [done|rewrite drop_length; lia..].
    + f_equal. lia.
Qed.

Lemma py_slice_prefix {A} (l : list A) (b : Z) :
  (0 <= b)%Z -> py_slice l 0 b = take (Z.to_nat b) l.
Proof.
  intros. replace b with (Z.of_nat (Z.to_nat b)) at 1 by lia.
  change 0%Z with (Z.of_nat 0). rewrite py_slice_nonneg by lia.
  by rewrite Nat.sub_0_r, drop_0.
Qed.

Lemma py_slice_length_le {A} (l : list A) a b : length (py_slice l a b) <= length l.
Proof. unfold py_slice. rewrite take_length, drop_length. lia. Qed.

(** ** util/byteutil.py *)

(** ByteUtil.split with three lengths, byteutil.py:25-33. *)
Definition bu_split3 (inp : bytes) (f s t : Z) : bytes * bytes * bytes :=
  (py_slice inp 0 f, py_slice inp f (f + s), py_slice inp (f + s) (f + s + t)).

(** ByteUtil.split with two lengths, byteutil.py:25-33. *)
Definition bu_split2 (inp : bytes) (f s : Z) : bytes * bytes :=
  (py_slice inp 0 f, py_slice inp f (f + s)).

(** ByteUtil.trim, byteutil.py:35-37. *)
Definition bu_trim (inp : bytes) (len : Z) : bytes := py_slice inp 0 len.

(** ByteUtil.intsToByteHighAndLow, byteutil.py:39-43 (integer arguments). *)
Definition bu_intsToByteHighAndLow (high low : N) : N :=
  (N.land (N.lor (N.shiftl high 4) low) 255) mod 256.

(** ByteUtil.highBitsToInt, byteutil.py:45-48 (integer argument). *)
Definition bu_highBitsToInt (v : N) : N := N.shiftr (N.land v 255) 4.

(** ByteUtil.lowBitsToInt, byteutil.py:50-52. *)
Definition bu_lowBitsToInt (v : N) : N := N.land v 15.

(** One item assignment [_bytes[i] = v] on a bytearray; IndexError outside it. *)
Definition py_setitem (l : bytes) (i : Z) (v : N) : res bytes :=
  let j := if (i <? 0)%Z then (i + zlen l)%Z else i in
  if ((0 <=? j) && (j <? zlen l))%Z then Ok (<[Z.to_nat j := n2b v]> l) else Err EIndexError.

(** ByteUtil.intToByteArray, byteutil.py:54-61: returns the updated array (the Python
    code mutates it and returns 4). *)
Definition bu_intToByteArray (l : bytes) (offset : Z) (value : N) : res bytes :=
  l1 ← py_setitem l (offset + 3) (value mod 256);
  l2 ← py_setitem l1 (offset + 2) (N.shiftr value 8 mod 256);
  l3 ← py_setitem l2 (offset + 1) (N.shiftr value 16 mod 256);
  py_setitem l3 offset (N.shiftr value 24 mod 256).

(** One argument of ByteUtil.combine: a byte sequence or a single integer. *)
Inductive bu_arg := BSeq (l : bytes) | BInt (n : N).

(** ByteUtil.combine, byteutil.py:5-14; bytearray.append raises ValueError for
    integers above 255. *)
Fixpoint bu_combine (args : list bu_arg) : res bytes :=
  match args with
  | [] => Ok []
  | BSeq l :: r => x ← bu_combine r; Ok (l ++ x)
  | BInt n :: r => if (n <? 256)%N then x ← bu_combine r; Ok (n2b n :: x) else Err EValueError
  end.
