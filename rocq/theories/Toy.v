(** A toy instance of the cryptographic primitives that satisfies all the laws in
    [crypto_ok].  It is not secure; it serves to run concrete examples and to show that
    hypotheses of theorems are satisfiable. *)
From Verif Require Import PyBase Wire Crypto.

Definition toy_p : N := 16777213.

(** Checksum of a byte string, two 16 bit words; cheap to compute by plain reduction. *)
Definition toy_sum (bs : bytes) : N * N :=
  foldl (fun s b => let a := N.land (s.1 + b2n b + 1) 65535 in (a, N.land (3 * s.2 + a) 65535)) (1, 7)%N bs.

(** Four words of 32 bits following from a first one. *)
Definition toy_next (c : N) : N := N.land (c * 40503 + 17) 4294967295.

(** 32 byte digest. *)
Definition toy_hash (bs : bytes) : bytes :=
  let s := toy_sum bs in
  let c := (s.1 + 65536 * s.2)%N in
  let d := toy_next c in let e := toy_next d in let f := toy_next e in
  let h := le_enc 4 c ++ le_enc 4 d ++ le_enc 4 e ++ le_enc 4 f in h ++ h.

Definition toy_hmac (k m : bytes) : bytes := toy_hash (n2b (N.of_nat (length k)) :: k ++ m).
Definition toy_pub (k : bytes) : bytes := le_enc 32 (le_dec (take 3 k) * 9 mod toy_p).
Definition toy_agree (k p : bytes) : bytes := le_enc 32 (le_dec (take 3 k) * le_dec (take 3 p) mod toy_p).
Definition toy_sign (r k m : bytes) : bytes := toy_hash (toy_pub k ++ m) ++ take 32 r.
Definition toy_verify (p m s : bytes) : Z := if bool_decide (take 32 s = toy_hash (p ++ m)) then 0 else 1.
Definition toy_block (k b : bytes) : bytes := xorb b (take 16 (toy_hash k)).

Definition toy : crypto :=
  Crypto toy_hmac (fun r => r) toy_pub toy_agree toy_sign toy_verify toy_block toy_block.

Lemma le_enc_length k n : length (le_enc k n) = k.
Proof. revert n. induction k; intros n; simpl; auto. Qed.

Lemma toy_hash_length bs : length (toy_hash bs) = 32.
Proof. unfold toy_hash. by rewrite !app_length, !le_enc_length. Qed.

Lemma le_dec_enc32 x : (x < toy_p)%N -> le_dec (take 3 (le_enc 32 x)) = x.
Proof.
  intros H. change (take 3 (le_enc 32 x)) with (le_enc 3 x).
  apply (le_dec_enc 3 x []). unfold toy_p in H.
  change (256 ^ N.of_nat 3)%N with 16777216%N. lia.
Qed.

Lemma toy_agree_comm a b : toy_agree a (toy_pub b) = toy_agree b (toy_pub a).
Proof.
  unfold toy_agree, toy_pub. assert (toy_p <> 0%N) by done.
  rewrite !le_dec_enc32 by (by apply N.mod_lt).
  rewrite !N.mul_mod_idemp_r by done. f_equal. f_equal. lia.
Qed.

Lemma toy_ok : crypto_ok toy.
Proof.
  split; cbn [hmac256 genPriv genPub agree sign verify aesE aesD toy].
  - intros k m. exact (toy_hash_length _).
  - done.
  - intros. apply le_enc_length.
  - intros. apply le_enc_length.
  - intros r k m Hr Hk. unfold toy_sign. rewrite app_length, toy_hash_length, take_length. lia.
  - intros. apply toy_agree_comm.
  - intros s r m Hs Hr. unfold toy_verify, toy_sign.
    rewrite take_app_alt by (by rewrite toy_hash_length). by rewrite bool_decide_eq_true_2.
  - intros k b Hk Hb. unfold toy_block. rewrite xorb_length, take_length, toy_hash_length. lia.
  - intros k b Hk Hb. unfold toy_block. apply xorb_xorb. rewrite take_length, toy_hash_length. lia.
Qed.
