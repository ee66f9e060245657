(** Model of util/hexutil.py. *)
From Verif Require Import PyBase.

(** Value of a hexadecimal digit; binascii.a2b_hex takes both cases. *)
Definition hexdigit (b : Byte.byte) : option N :=
  let n := b2n b in
  if ((48 <=? n) && (n <=? 57))%N then Some (n - 48)%N
  else if ((65 <=? n) && (n <=? 70))%N then Some (n - 55)%N
  else if ((97 <=? n) && (n <=? 102))%N then Some (n - 87)%N
  else None.

(** HexUtil.decodeHex, util/hexutil.py:5-12: the decoder of "hex_codec", which is
    binascii.a2b_hex.  The argument is a byte string (or an ASCII string).  binascii.Error is
    a ValueError. *)
Fixpoint decodeHex (s : bytes) : res bytes :=
  match s with
  | [] => Ok []
  | [_] => Err EValueError
  | h :: l :: s =>
      match hexdigit h, hexdigit l with
      | Some h, Some l => r ← decodeHex s; Ok (n2b (h * 16 + l) :: r)
      | _, _ => Err EValueError
      end
  end.
