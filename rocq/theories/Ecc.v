(** ecc/*.py, identitykey.py, identitykeypair.py.

    A public key object is represented by its [publicKey] bytes, a private key object
    by its [privateKey] bytes; both always have type DJB (djbec.py:20-23, 53-56), so
    the type comparisons of ecc/curve.py:58-64, 74-78, 86-91 always succeed and are not
    modelled. An IdentityKey (identitykey.py:6-26) wraps a public key and is represented
    by the same bytes. *)
From Verif Require Import PyBase Wire Protos Crypto.

(** ECKeyPair, ecc/eckeypair.py:4-17; also IdentityKeyPair, identitykeypair.py:8-29. *)
Record keypair := KeyPair { kp_pub : bytes; kp_priv : bytes }.

(** DjbECPublicKey.serialize, ecc/djbec.py:14-18 (Curve.DJB_TYPE, ecc/curve.py:12). *)
Definition pub_serialize (p : bytes) : bytes := x05 :: p.

(** Curve.decodePoint, ecc/curve.py:32-45.  [offset] is a non-negative integer. *)
Definition decodePoint (bs : bytes) (offset : nat) : res bytes :=
  match bs with
  | [] => Err EIndexError
  | b0 :: _ =>
      if bool_decide (b0 = x05) then
        match bs !! offset with
        | None => Err EIndexError
        | Some t => if bool_decide (t = x05) then Ok (take 32 (drop (offset + 1) bs))
                    else Err EInvalidKey
        end
      else Err EInvalidKey
  end.

(** DjbECPublicKey.__eq__, ecc/djbec.py:28-29, and IdentityKey.__eq__,
    identitykey.py:22-23. *)
Definition pub_eqb (a b : bytes) : bool := bool_decide (a = b).

(** One signed big-endian 32-bit integer of struct.unpack(">8i"), ecc/djbec.py:32. *)
Definition be_i32 (b : bytes) : Z :=
  let u := foldl (fun a x => (a * 256 + Z.of_N (b2n x))%Z) 0%Z b in
  if (u <? 2 ^ 31)%Z then u else (u - 2 ^ 32)%Z.

(** struct.unpack(">8i", key), ecc/djbec.py:32-33: exactly 32 bytes or struct.error. *)
Definition unpack8i (k : bytes) : res (list Z) :=
  if (length k =? 32)%nat
  then Ok (map (fun i => be_i32 (take 4 (drop (4 * i) k))) (seq 0 8))
  else Err EStructError.

(** Python tuple comparison [<], ecc/djbec.py:35. *)
Fixpoint tuple_lt (a b : list Z) : bool :=
  match a, b with
  | _, [] => false
  | [], _ :: _ => true
  | x :: a, y :: b => if (x =? y)%Z then tuple_lt a b else (x <? y)%Z
  end.

(** DjbECPublicKey.__lt__, ecc/djbec.py:31-35. *)
Definition pub_lt (a b : bytes) : res bool :=
  x ← unpack8i a; y ← unpack8i b; Ok (tuple_lt x y).

Section ecc.
Context (C : crypto).

(** Curve.generateKeyPair, ecc/curve.py:24-30, given the 32 bytes drawn from
    os.urandom at ecc/curve.py:17. *)
Definition keypair_of_rand (rand : bytes) : res keypair :=
  priv ← c_generatePrivateKey C rand;
  pub ← c_generatePublicKey C priv;
  Ok (KeyPair pub priv).

(** Curve.calculateAgreement, ecc/curve.py:52-64. *)
Definition calculateAgreement (pub priv : bytes) : res bytes := c_calculateAgreement C priv pub.

(** Curve.verifySignature, ecc/curve.py:66-78. *)
Definition verifySignature (pub msg sig : bytes) : res bool :=
  r ← c_verifySignature C pub msg sig; Ok (r =? 0)%Z.

(** Curve.calculateSignature, ecc/curve.py:80-91, given the 64 bytes drawn from
    os.urandom at ecc/curve.py:87. *)
Definition calculateSignature_with (rand priv msg : bytes) : res bytes :=
  c_calculateSignature C rand priv msg.
End ecc.

(** IdentityKeyPair.serialize, identitykeypair.py:25-29. *)
Definition identitykeypair_serialize (k : keypair) : bytes :=
  ik_enc (IkS (Some (pub_serialize (kp_pub k))) (Some (kp_priv k))).

(** IdentityKeyPair(serialized=...), identitykeypair.py:9-14, for non-empty input. *)
Definition identitykeypair_parse (bs : bytes) : res keypair :=
  s ← ik_parse bs;
  pub ← decodePoint (default [] (ik_publicKey s)) 0;
  Ok (KeyPair pub (default [] (ik_privateKey s))).

(** ** Facts *)

Lemma decodePoint_serialize p : length p <= 32 -> decodePoint (pub_serialize p) 0 = Ok p.
Proof.
  intros. unfold decodePoint, pub_serialize. simpl. rewrite drop_0, take_ge by done. done.
Qed.

Lemma decodePoint_err bs o e : decodePoint bs o = Err e -> e = EIndexError \/ e = EInvalidKey.
Proof. unfold decodePoint. repeat case_match; intros [= <-]; auto. Qed.

Lemma decodePoint_length bs o p : decodePoint bs o = Ok p -> length p <= 32.
Proof. unfold decodePoint. repeat case_match; intros [= <-]. rewrite take_length. lia. Qed.

(** Decoding at offset 0 succeeds exactly on byte strings starting with the type byte. *)
Lemma decodePoint_ok_inv bs p :
  decodePoint bs 0 = Ok p -> exists r, bs = x05 :: r /\ p = take 32 r.
Proof.
  unfold decodePoint. destruct bs as [|b0 r]; [done|].
  destruct (bool_decide_reflect (b0 = x05)) as [->|]; [|done]. simpl.
  rewrite drop_0. intros [= <-]. eauto.
Qed.
