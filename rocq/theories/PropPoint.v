(** Properties C86 and C87: encodings of public keys, hexadecimal strings. *)
From Verif Require Import PyBase Wire Protos Crypto Ecc Hex SpecPoint PointProofs.

(** ** C86: a public key is read exactly where it is encoded *)

(** What is accepted, exactly: the first byte of the whole string and the byte at the offset
    are the type byte, and up to 32 bytes follow. *)
Theorem C86_accepts : forall bs off k,
  decodePoint bs off = Ok k <->
  head bs = Some x05 /\ exists a b, bs = a ++ x05 :: k ++ b /\ length a = off /\ (length k = 32 \/ (length k < 32 /\ b = [])).
Proof. exact decode_accepts. Qed.
Print Assumptions C86_accepts.

(** An encoded key is read, whatever follows it, if the string begins with a type byte; that
    condition is missing in the property. *)
Theorem C86_encoded_partial : forall bs off k, encoded_at bs off k -> head bs = Some x05 -> decodePoint bs off = Ok k.
Proof. exact decode_encoded. Qed.
Print Assumptions C86_encoded_partial.

(** So at offset 0 the property holds: what serialize() gives is read again. *)
Theorem C86_serialized : forall k rest, length k = 32 -> decodePoint (pub_serialize k ++ rest) 0 = Ok k.
Proof. exact decode_first. Qed.
Print Assumptions C86_serialized.

Theorem C86_one_key : forall bs off k k', encoded_at bs off k -> encoded_at bs off k' -> k = k'.
Proof. exact encoded_unique. Qed.
Print Assumptions C86_one_key.

(** A refusal is an InvalidKeyException, or an IndexError if there is no byte to look at. *)
Theorem C86_refuses : forall bs off e, decodePoint bs off = Err e ->
  (e = EInvalidKey \/ e = EIndexError) /\ (head bs = Some x05 -> forall k, ~ encoded_at bs off k).
Proof. exact decode_refuses. Qed.
Print Assumptions C86_refuses.
Theorem C86_index_error : forall bs off,
  decodePoint bs off = Err EIndexError <-> bs = [] \/ (head bs = Some x05 /\ length bs <= off).
Proof. exact decode_index. Qed.
Print Assumptions C86_index_error.

(** The type is looked for at the start of the string, not at the offset. *)
Theorem C86_offset_refuted : exists bs off k, encoded_at bs off k /\ decodePoint bs off = Err EInvalidKey.
Proof. exact offset_refuted. Qed.
Print Assumptions C86_offset_refuted.

(** A key with too few bytes is taken. *)
Theorem C86_short_refuted : exists bs k, decodePoint bs 0 = Ok k /\ forall k', ~ encoded_at bs 0 k'.
Proof. exact short_refuted. Qed.
Print Assumptions C86_short_refuted.

Definition someKey : bytes := replicate 31 x07 ++ [x08].
Example C86_run :
  decodePoint (x05 :: someKey) 0 = Ok someKey /\ decodePoint (x05 :: someKey ++ [x09; x05]) 0 = Ok someKey /\
  decodePoint ([x05; x00] ++ x05 :: someKey) 2 = Ok someKey /\ decodePoint ([x04; x00] ++ x05 :: someKey) 2 = Err EInvalidKey /\
  decodePoint (x06 :: someKey) 0 = Err EInvalidKey /\ decodePoint [x05; x07; x08] 0 = Ok [x07; x08] /\
  decodePoint (x05 :: someKey) 1 = Err EInvalidKey /\ decodePoint [] 0 = Err EIndexError /\ decodePoint [x05] 1 = Err EIndexError.
Proof. vm_compute. done. Qed.

(** ** C87: hexadecimal strings are decoded exactly *)

(** [spelled s bs]: [s] writes every byte of [bs] with two digits, the high one first. *)
Theorem C87_exact : forall s bs, decodeHex s = Ok bs <-> spelled s bs.
Proof. exact hex_exact. Qed.
Print Assumptions C87_exact.

Theorem C87_refuses : forall s, decodeHex s = Err EValueError <-> Nat.Odd (length s) \/ exists d, d ∈ s /\ forall v, ~ spells d v.
Proof. exact hex_refuses. Qed.
Print Assumptions C87_refuses.
Theorem C87_only_error : forall s e, decodeHex s = Err e -> e = EValueError.
Proof. exact hex_only. Qed.
Print Assumptions C87_only_error.

Theorem C87_roundtrip : forall bs, decodeHex (hexlify bs) = Ok bs.
Proof. exact hex_roundtrip. Qed.
Print Assumptions C87_roundtrip.

(** "02a9AaFf", an odd length, and two characters that are no digits. *)
Example C87_run :
  decodeHex [x30; x32; x61; x39; x41; x61; x46; x66] = Ok [x02; xa9; xaa; xff] /\ decodeHex [x30; x32; x61] = Err EValueError /\
  decodeHex [x30; x67] = Err EValueError /\ decodeHex [x40; x30] = Err EValueError /\
  hexlify [x02; xa9; xaa; xff] = [x30; x32; x61; x39; x61; x61; x66; x66].
Proof. vm_compute. done. Qed.
