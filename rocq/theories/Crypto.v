(** Cryptographic primitives as oracles, their laws, and the padding and chaining the
    [cryptography] package puts around AES (sessioncipher.py:203-223). *)
From Verif Require Import PyBase.

(** The external primitives.  All are total functions on byte strings; the wrappers
    below add the argument checks of the libraries.
    - [hmac256 key msg]: hmac.new(key, msg, sha256).digest()  (kdf/hkdf.py:80-102 etc.)
    - [genPriv], [genPub], [agree], [sign], [verify]: the C extension
      axolotl_curve25519 (ecc/curve.py:8); [verify] returns its integer status.
    - [aesE], [aesD]: one AES block under a 16, 24 or 32 byte key
      (sessioncipher.py:207). *)
Record crypto := Crypto {
  hmac256 : bytes -> bytes -> bytes;
  genPriv : bytes -> bytes;
  genPub : bytes -> bytes;
  agree : bytes -> bytes -> bytes;
  sign : bytes -> bytes -> bytes -> bytes;
  verify : bytes -> bytes -> bytes -> Z;
  aesE : bytes -> bytes -> bytes;
  aesD : bytes -> bytes -> bytes }.

(** Laws of the primitives that some theorems assume (always as an explicit
    hypothesis [crypto_ok C], shown satisfiable by a concrete instance). *)
Record crypto_ok (C : crypto) : Prop := CryptoOk {
  co_hmac_len : forall k m, length (hmac256 C k m) = 32;
  co_priv_len : forall r, length r = 32 -> length (genPriv C r) = 32;
  co_pub_len : forall k, length k = 32 -> length (genPub C k) = 32;
  co_agree_len : forall k p, length k = 32 -> length p = 32 -> length (agree C k p) = 32;
  co_sign_len : forall r k m, length r = 64 -> length k = 32 -> length (sign C r k m) = 64;
  co_agree : forall a b, length a = 32 -> length b = 32 ->
    agree C a (genPub C b) = agree C b (genPub C a);
  co_verify : forall s r m, length s = 32 -> length r = 64 ->
    verify C (genPub C (genPriv C s)) m (sign C r (genPriv C s) m) = 0%Z;
  co_aesE_len : forall k b, length k = 32 -> length b = 16 -> length (aesE C k b) = 16;
  co_aes : forall k b, length k = 32 -> length b = 16 -> aesD C k (aesE C k b) = b }.

Section crypto.
Context (C : crypto).

(** _curve.generatePrivateKey, used at ecc/curve.py:16-18 (the argument is always 32
    bytes; the extension raises ValueError otherwise). *)
Definition c_generatePrivateKey (rand : bytes) : res bytes :=
  if (length rand =? 32)%nat then Ok (genPriv C rand) else Err EValueError.

(** _curve.generatePublicKey, used at ecc/curve.py:21-22. *)
Definition c_generatePublicKey (priv : bytes) : res bytes :=
  if (length priv =? 32)%nat then Ok (genPub C priv) else Err EValueError.

(** _curve.calculateAgreement, used at ecc/curve.py:62. *)
Definition c_calculateAgreement (priv pub : bytes) : res bytes :=
  if (length priv =? 32)%nat && (length pub =? 32)%nat
  then Ok (agree C priv pub) else Err EValueError.

(** _curve.verifySignature, used at ecc/curve.py:75. *)
Definition c_verifySignature (pub msg sig : bytes) : res Z :=
  if (length pub =? 32)%nat && (length sig =? 64)%nat
  then Ok (verify C pub msg sig) else Err EValueError.

(** _curve.calculateSignature, used at ecc/curve.py:88. *)
Definition c_calculateSignature (rand priv msg : bytes) : res bytes :=
  if (length rand =? 64)%nat && (length priv =? 32)%nat
  then Ok (sign C rand priv msg) else Err EValueError.

(** ** AESCipher, sessioncipher.py:203-223 *)

(** PKCS7(128).padder(), sessioncipher.py:210-211. *)
Definition pkcs7_pad (m : bytes) : bytes :=
  let k := (16 - length m mod 16)%nat in m ++ replicate k (n2b (N.of_nat k)).

(** PKCS7(128).unpadder(), sessioncipher.py:222-223. The input is a whole number of
    blocks; empty input and invalid padding raise ValueError. *)
Definition pkcs7_unpad (m : bytes) : res bytes :=
  match last m with
  | None => Err EValueError
  | Some b =>
      let k := N.to_nat (b2n b) in
      if (1 <=? k)%nat && (k <=? 16)%nat &&
         bool_decide (drop (length m - k) m = replicate k b)
      then Ok (take (length m - k) m) else Err EValueError
  end.

(** Byte-wise xor of two blocks. *)
Definition xorb (a b : bytes) : bytes :=
  zip_with (fun x y => n2b (N.lxor (b2n x) (b2n y))) a b.

(** Splitting into blocks of 16 bytes. *)
Fixpoint blocks (fuel : nat) (m : bytes) : list bytes :=
  match fuel, m with
  | O, _ | _, [] => []
  | S f, _ => take 16 m :: blocks f (drop 16 m)
  end.

(** CBC encryption of whole blocks, sessioncipher.py:213-215. *)
Fixpoint cbc_enc (key iv : bytes) (bs : list bytes) : list bytes :=
  match bs with
  | [] => []
  | b :: r => let c := aesE C key (xorb b iv) in c :: cbc_enc key c r
  end.

(** CBC decryption of whole blocks, sessioncipher.py:220-221. *)
Fixpoint cbc_dec (key iv : bytes) (cs : list bytes) : list bytes :=
  match cs with
  | [] => []
  | c :: r => xorb (aesD C key c) iv :: cbc_dec key c r
  end.

(** AESCipher.__init__, sessioncipher.py:204-207: ValueError for key sizes other than
    16, 24, 32 and IVs other than 16 bytes. *)
Definition aes_init_ok (key iv : bytes) : bool :=
  ((length key =? 16) || (length key =? 24) || (length key =? 32))%nat && (length iv =? 16)%nat.

(** AESCipher(key, iv).encrypt(raw), sessioncipher.py:203-217. *)
Definition aes_encrypt (key iv raw : bytes) : res bytes :=
  if aes_init_ok key iv then
    let p := pkcs7_pad raw in
    Ok (concat (cbc_enc key iv (blocks (length p) p)))
  else Err EValueError.

(** AESCipher(key, iv).decrypt(enc), sessioncipher.py:203-207, 219-223: finalize raises
    ValueError when the input is not a whole number of blocks. *)
Definition aes_decrypt (key iv enc : bytes) : res bytes :=
  if aes_init_ok key iv then
    if (length enc mod 16 =? 0)%nat
    then pkcs7_unpad (concat (cbc_dec key iv (blocks (length enc) enc)))
    else Err EValueError
  else Err EValueError.

(** ** Facts *)

Lemma xorb_length a b : length (xorb a b) = length a `min` length b.
Proof. apply zip_with_length. Qed.

Lemma xorb_xorb a b : length a <= length b -> xorb (xorb a b) b = a.
Proof.
  revert b. induction a as [|x a IH]; intros [|y b] H; simpl in *; try done; try lia.
  f_equal; [|apply IH; lia].
  rewrite b2n_n2b. pose proof (b2n_lt x). pose proof (b2n_lt y).
  assert (N.lxor (b2n x) (b2n y) < 2 ^ 8)%N as Hlt.
  { destruct (N.eq_dec (N.lxor (b2n x) (b2n y)) 0) as [->|Hne]; [lia|].
    apply N.log2_lt_pow2; [lia|].
    eapply N.le_lt_trans; [apply N.log2_lxor|].
    apply N.max_lub_lt.
    - destruct (N.eq_dec (b2n x) 0) as [->|]; [reflexivity|]. apply N.log2_lt_pow2; lia.
    - destruct (N.eq_dec (b2n y) 0) as [->|]; [reflexivity|]. apply N.log2_lt_pow2; lia. }
  rewrite N.mod_small by lia.
  rewrite N.lxor_assoc, N.lxor_nilpotent, N.lxor_0_r. apply n2b_b2n.
Qed.

Lemma blocks_spec fuel m k :
  length m = (16 * k)%nat -> (k <= fuel)%nat ->
  concat (blocks fuel m) = m /\ Forall (fun b => length b = 16) (blocks fuel m)
  /\ length (blocks fuel m) = k.
Proof.
  revert m k. induction fuel as [|f IH]; intros m k Hm Hk.
  - assert (k = 0) as -> by lia. destruct m; [by repeat constructor|simpl in Hm; lia].
  - destruct m as [|x m0]; [destruct k; [by repeat constructor|simpl in Hm; lia]|].
    destruct k as [|k]; [simpl in Hm; lia|].
    set (m := x :: m0) in *. change (blocks (S f) m) with (take 16 m :: blocks f (drop 16 m)).
    destruct (IH (drop 16 m) k) as (H1 & H2 & H3); [rewrite drop_length; lia|lia|].
    cbn [concat length]. rewrite H1, H3, take_drop. split; [done|]. split; [|done].
    constructor; [rewrite take_length; lia|done].
Qed.

Lemma blocks_concat bs fuel :
  Forall (fun b : bytes => length b = 16) bs -> (length bs <= fuel)%nat ->
  blocks fuel (concat bs) = bs.
Proof.
  revert fuel. induction bs as [|b bs IH]; intros fuel Hb Hf; [by destruct fuel|].
  apply Forall_cons in Hb as [Hb Hbs]. destruct fuel as [|f]; [simpl in Hf; lia|].
  cbn [concat]. destruct b as [|x b0]; [done|]. set (b := x :: b0) in *.
  assert (blocks (S f) (b ++ concat bs) = take 16 (b ++ concat bs) :: blocks f (drop 16 (b ++ concat bs))) as -> by done.
  rewrite <- Hb, take_app, drop_app. simpl in Hf. by rewrite IH by (done || lia).
Qed.

Lemma concat_blocks_length (bs : list bytes) :
  Forall (fun b : bytes => length b = 16) bs -> length (concat bs) = (16 * length bs)%nat.
Proof. induction 1 as [|b bs Hb _ IH]; simpl; [done|]. rewrite app_length. lia. Qed.

Lemma cbc_enc_len (Hok : crypto_ok C) key iv bs :
  length key = 32 -> length iv = 16 -> Forall (fun b : bytes => length b = 16) bs ->
  Forall (fun b : bytes => length b = 16) (cbc_enc key iv bs) /\ length (cbc_enc key iv bs) = length bs.
Proof.
  intros Hkey. revert iv. induction bs as [|b bs IH]; intros iv Hiv Hbs; [by repeat constructor|].
  apply Forall_cons in Hbs as [Hb Hbs]. cbn [cbc_enc].
  assert (length (aesE C key (xorb b iv)) = 16) as Hc.
  { apply co_aesE_len; [done..|]. rewrite xorb_length. lia. }
  destruct (IH _ Hc Hbs) as [H1 H2]. split; [by constructor|]. simpl. by rewrite H2.
Qed.

Lemma cbc_dec_enc (Hok : crypto_ok C) key iv bs :
  length key = 32 -> length iv = 16 -> Forall (fun b : bytes => length b = 16) bs ->
  cbc_dec key iv (cbc_enc key iv bs) = bs.
Proof.
  intros Hkey. revert iv. induction bs as [|b bs IH]; intros iv Hiv Hbs; [by repeat constructor|].
  apply Forall_cons in Hbs as [Hb Hbs]. cbn [cbc_enc cbc_dec].
  assert (length (xorb b iv) = 16) as Hx by (rewrite xorb_length; lia).
  rewrite co_aes by done. rewrite xorb_xorb by lia.
  f_equal. apply IH; [by apply co_aesE_len|done].
Qed.

Lemma pkcs7_pad_length m : exists k, length (pkcs7_pad m) = (16 * k)%nat /\ (length m < 16 * k <= length m + 16)%nat.
Proof.
  unfold pkcs7_pad. rewrite app_length, replicate_length.
  pose proof (Nat.mod_upper_bound (length m) 16). pose proof (Nat.div_mod (length m) 16).
  exists (length m / 16 + 1)%nat. lia.
Qed.

Lemma pkcs7_unpad_pad m : pkcs7_unpad (pkcs7_pad m) = Ok m.
Proof.
  unfold pkcs7_unpad, pkcs7_pad.
  pose proof (Nat.mod_upper_bound (length m) 16).
  set (k := (16 - length m mod 16)%nat). assert (1 <= k <= 16)%nat by lia.
  assert (last (m ++ replicate k (n2b (N.of_nat k))) = Some (n2b (N.of_nat k))) as ->.
  { destruct k as [|k']; [lia|]. rewrite last_app.
    rewrite replicate_S_end. by rewrite last_snoc. }
  rewrite b2n_n2b_small by lia. rewrite Nat2N.id.
  rewrite app_length, replicate_length.
  replace (length m + k - k)%nat with (length m) by lia.
  rewrite drop_app, take_app.
  rewrite (proj2 (Nat.leb_le 1 k)) by lia. rewrite (proj2 (Nat.leb_le k 16)) by lia.
  by rewrite bool_decide_eq_true_2.
Qed.

Lemma pkcs7_unpad_err m e : pkcs7_unpad m = Err e -> e = EValueError.
Proof. unfold pkcs7_unpad. repeat case_match; congruence. Qed.

Lemma aes_encrypt_err key iv m e : aes_encrypt key iv m = Err e -> e = EValueError.
Proof. unfold aes_encrypt. case_match; congruence. Qed.

Lemma aes_decrypt_err key iv m e : aes_decrypt key iv m = Err e -> e = EValueError.
Proof. unfold aes_decrypt. repeat case_match; try congruence. apply pkcs7_unpad_err. Qed.

(** Decrypting an encryption, and the size of the ciphertext. *)
Lemma aes_roundtrip (Hok : crypto_ok C) key iv m :
  length key = 32 -> length iv = 16 ->
  exists c, aes_encrypt key iv m = Ok c /\ aes_decrypt key iv c = Ok m
    /\ exists k, length c = (16 * k)%nat /\ (length m < 16 * k <= length m + 16)%nat.
Proof.
  intros Hk Hiv. unfold aes_encrypt, aes_decrypt, aes_init_ok. rewrite Hk, Hiv.
  change (((32 =? 16) || (32 =? 24) || (32 =? 32)) && (16 =? 16))%nat with true. cbv iota.
  destruct (pkcs7_pad_length m) as (k & Hlen & Hbd).
  destruct (blocks_spec (length (pkcs7_pad m)) (pkcs7_pad m) k Hlen ltac:(lia)) as (H1 & H2 & H3).
  set (bs := blocks (length (pkcs7_pad m)) (pkcs7_pad m)) in *.
  destruct (cbc_enc_len Hok key iv bs Hk Hiv H2) as (H4 & H5).
  set (cs := cbc_enc key iv bs) in *.
  eexists. split; [done|].
  assert (length (concat cs) = 16 * k)%nat as Hl by (rewrite concat_blocks_length by done; lia).
  split; [|eauto].
  rewrite Hl.
  replace ((16 * k) mod 16)%nat with 0%nat by (rewrite Nat.mul_comm; symmetry; by apply Nat.mod_mul).
  cbn [Nat.eqb]. rewrite blocks_concat by (done || lia).
  unfold cs. rewrite cbc_dec_enc by done. rewrite H1. apply pkcs7_unpad_pad.
Qed.
End crypto.
