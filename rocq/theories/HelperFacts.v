(** Lemmas about byte utilities, padding, key helper and names. *)
From Verif Require Import PyBase Wire Protos Crypto Ecc Kdf State Prog ProgFacts Helper StateFacts SpecUtil UtilFacts Builder.

(** ** Nibbles *)

Lemma highlow_spec h l : (h < 16)%N -> (l < 16)%N -> bu_intsToByteHighAndLow h l = (16 * h + l)%N.
Proof.
  intros Hh Hl. unfold bu_intsToByteHighAndLow.
  assert (N.lor (N.shiftl h 4) l = 16 * h + l)%N as ->.
  { rewrite N.shiftl_mul_pow2.
    assert (N.land (h * 2 ^ 4) l = 0)%N as Hz;
      [|rewrite <- N.lxor_lor, <- N.add_nocarry_lxor by done; lia].
    apply N.bits_inj. intros i. rewrite N.land_spec, N.bits_0.
    destruct (N.lt_ge_cases i 4).
    - by rewrite N.mul_pow2_bits_low.
    - rewrite (N.bits_above_log2 l i), andb_false_r; [done|].
      destruct (N.eq_dec l 0) as [->|]; [cbn; lia|]. apply N.log2_lt_pow2; [lia|].
      eapply N.lt_le_trans; [exact Hl|]. change 16%N with (2 ^ 4)%N. apply N.pow_le_mono_r; lia. }
  change 255%N with (N.ones 8). rewrite N.land_ones. change (2 ^ 8)%N with 256%N.
  rewrite !N.mod_small by (try rewrite N.mod_small; lia). done.
Qed.

Lemma high_spec v : (v < 256)%N -> bu_highBitsToInt v = (v / 16)%N.
Proof.
  intros Hv. unfold bu_highBitsToInt. change 255%N with (N.ones 8). rewrite N.land_ones.
  change (2 ^ 8)%N with 256%N. rewrite N.mod_small by done. by rewrite N.shiftr_div_pow2.
Qed.

Lemma low_spec v : bu_lowBitsToInt v = (v mod 16)%N.
Proof. unfold bu_lowBitsToInt. change 15%N with (N.ones 4). by rewrite N.land_ones. Qed.

Lemma high_highlow h l : (h < 16)%N -> (l < 16)%N -> bu_highBitsToInt (bu_intsToByteHighAndLow h l) = h.
Proof.
  intros. rewrite highlow_spec by done. rewrite high_spec by lia.
  rewrite N.mul_comm, N.div_add_l by lia. rewrite N.div_small by done. lia.
Qed.

Lemma low_highlow h l : (h < 16)%N -> (l < 16)%N -> bu_lowBitsToInt (bu_intsToByteHighAndLow h l) = l.
Proof.
  intros. rewrite highlow_spec by done. rewrite low_spec.
  rewrite N.add_comm, N.mul_comm, N.mod_add by lia. by rewrite N.mod_small.
Qed.

Lemma highlow_split v : (v < 256)%N -> bu_intsToByteHighAndLow (bu_highBitsToInt v) (bu_lowBitsToInt v) = v.
Proof.
  intros Hv. rewrite high_spec, low_spec by done.
  assert (v / 16 < 16)%N by (apply N.div_lt_upper_bound; lia).
  rewrite highlow_spec by (try done; by apply N.mod_lt). symmetry. by apply N.div_mod.
Qed.

(** ** split and combine *)

Lemma split2_app a b c :
  bu_split2 (a ++ b ++ c) (zlen a) (zlen b) = (a, b).
Proof.
  unfold bu_split2, zlen. rewrite py_slice_prefix by lia. rewrite <- Nat2Z.inj_add, py_slice_nonneg by lia.
  rewrite Nat2Z.id, take_app, drop_app. replace (length a + length b - length a)%nat with (length b) by lia.
  by rewrite take_app.
Qed.

Lemma split3_app a b c d :
  bu_split3 (a ++ b ++ c ++ d) (zlen a) (zlen b) (zlen c) = (a, b, c).
Proof.
  unfold bu_split3, zlen. rewrite py_slice_prefix by lia. rewrite <- !Nat2Z.inj_add, !py_slice_nonneg by lia.
  rewrite Nat2Z.id, take_app, drop_app. replace (length a + length b - length a)%nat with (length b) by lia.
  rewrite take_app. replace (length a + length b + length c - (length a + length b))%nat with (length c) by lia.
  rewrite <- drop_drop, !drop_app. by rewrite take_app.
Qed.

Lemma split2_concat l (f s : nat) :
  (f + s = length l)%nat ->
  let '(a, b) := bu_split2 l (Z.of_nat f) (Z.of_nat s) in a ++ b = l /\ length a = f /\ length b = s.
Proof.
  intros Hl. unfold bu_split2. rewrite py_slice_prefix by lia. rewrite <- Nat2Z.inj_add, py_slice_nonneg by lia.
  rewrite Nat2Z.id. replace (f + s - f)%nat with s by lia.
  rewrite (take_ge (drop f l)) by (rewrite drop_length; lia).
  rewrite take_drop, take_length, drop_length. split_and!; [done|lia..].
Qed.

Lemma split3_concat l (f s t : nat) :
  (f + s + t = length l)%nat ->
  let '(a, b, c) := bu_split3 l (Z.of_nat f) (Z.of_nat s) (Z.of_nat t) in
  a ++ b ++ c = l /\ length a = f /\ length b = s /\ length c = t.
Proof.
  intros Hl. unfold bu_split3. rewrite py_slice_prefix by lia. rewrite <- !Nat2Z.inj_add, !py_slice_nonneg by lia.
  rewrite Nat2Z.id. replace (f + s - f)%nat with s by lia. replace (f + s + t - (f + s))%nat with t by lia.
  rewrite (take_ge (drop (f + s) l)) by (rewrite drop_length; lia).
  rewrite <- drop_drop, take_drop, take_drop, !take_length, !drop_length. split_and!; [done|lia..].
Qed.

Lemma combine_seqs ls : bu_combine (map BSeq ls) = Ok (concat ls).
Proof. induction ls as [|l ls IH]; cbn [map bu_combine concat]; [done|]. by rewrite IH. Qed.

Lemma combine_int n r x : (n < 256)%N -> bu_combine r = Ok x -> bu_combine (BInt n :: r) = Ok (n2b n :: x).
Proof. intros Hn Hr. cbn [bu_combine]. rewrite (proj2 (N.ltb_lt _ _)) by done. by rewrite Hr. Qed.

(** ** intToByteArray *)

Lemma py_setitem_ok (l : bytes) (i : nat) v :
  (i < length l)%nat -> py_setitem l (Z.of_nat i) v = Ok (<[i := n2b v]> l).
Proof.
  intros Hi. unfold py_setitem, zlen. rewrite (proj2 (Z.ltb_ge _ _)) by lia.
  rewrite (proj2 (Z.leb_le _ _)) by lia. rewrite (proj2 (Z.ltb_lt _ _)) by lia. cbn [andb].
  by rewrite Nat2Z.id.
Qed.

Lemma intToByteArray_spec l (o : nat) v :
  (o + 4 <= length l)%nat ->
  bu_intToByteArray l (Z.of_nat o) v =
  Ok (take o l ++ [n2b (v / 16777216); n2b (v / 65536); n2b (v / 256); n2b v] ++ drop (o + 4) l).
Proof.
  intros Ho. unfold bu_intToByteArray.
  replace (Z.of_nat o + 3)%Z with (Z.of_nat (o + 3)) by lia. rewrite py_setitem_ok by lia. rewrite bind_ok.
  replace (Z.of_nat o + 2)%Z with (Z.of_nat (o + 2)) by lia.
  rewrite py_setitem_ok by (rewrite insert_length; lia). rewrite bind_ok.
  replace (Z.of_nat o + 1)%Z with (Z.of_nat (o + 1)) by lia.
  rewrite py_setitem_ok by (rewrite !insert_length; lia). rewrite bind_ok.
  rewrite py_setitem_ok by (rewrite !insert_length; lia). f_equal.
  rewrite !N.shiftr_div_pow2.
  assert (forall n, n2b (n mod 256) = n2b n) as Hn.
  { intros n. unfold n2b. rewrite N.mod_mod by lia. done. }
  rewrite !Hn. change (2 ^ 24)%N with 16777216%N. change (2 ^ 16)%N with 65536%N. change (2 ^ 8)%N with 256%N.
  rewrite <- (take_drop o l) at 1.
  assert (exists a b c d r, drop o l = a :: b :: c :: d :: r) as (a & b & c & d & r & Hd).
  { assert (length (drop o l) >= 4)%nat as Hlen by (rewrite drop_length; lia).
    destruct (drop o l) as [|a [|b [|c [|d r]]]]; simpl in Hlen; try lia. eauto 10. }
  assert (drop (o + 4) l = r) as ->.
  { rewrite <- drop_drop, Hd. done. }
  rewrite Hd. assert (length (take o l) = o) as Hto by (rewrite take_length; lia).
  replace (o + 3)%nat with (length (take o l) + 3)%nat by lia. rewrite insert_app_r.
  replace (o + 2)%nat with (length (take o l) + 2)%nat by lia. rewrite insert_app_r.
  replace (o + 1)%nat with (length (take o l) + 1)%nat by lia. rewrite insert_app_r.
  replace (insert o) with (insert (M := bytes) (length (take o l) + 0)%nat)
    by (f_equal; lia). rewrite insert_app_r. reflexivity.
Qed.

Lemma intToByteArray_err l (o : nat) v :
  (length l < o + 4)%nat -> bu_intToByteArray l (Z.of_nat o) v = Err EIndexError.
Proof.
  intros Ho. unfold bu_intToByteArray.
  assert (py_setitem l (Z.of_nat o + 3) (v mod 256) = Err EIndexError) as ->; [|done].
  unfold py_setitem, zlen. rewrite (proj2 (Z.ltb_ge _ 0)) by lia.
  rewrite (proj2 (Z.ltb_ge _ (Z.of_nat (length l)))) by lia. by rewrite andb_false_r.
Qed.

(** ** Padding: invalid inputs *)

Lemma aes_decrypt_not_blocks C key iv enc :
  (length enc mod 16 <> 0)%nat \/ enc = [] -> aes_decrypt C key iv enc = Err EValueError.
Proof.
  intros H. unfold aes_decrypt. destruct (aes_init_ok key iv); [|done].
  destruct H as [H| ->].
  - by rewrite (proj2 (Nat.eqb_neq _ _)).
  - done.
Qed.

Lemma pkcs7_unpad_inv m p : pkcs7_unpad m = Ok p ->
  exists k : nat, (1 <= k <= 16)%nat /\ m = p ++ replicate k (n2b (N.of_nat k)).
Proof.
  unfold pkcs7_unpad. destruct (last m) as [b|] eqn:E; [|done].
  destruct (Nat.leb_spec 1 (N.to_nat (b2n b))); [|done].
  destruct (Nat.leb_spec (N.to_nat (b2n b)) 16); [|done]. cbn [andb].
  destruct (bool_decide_reflect (drop (length m - N.to_nat (b2n b)) m = replicate (N.to_nat (b2n b)) b)) as [Hd|]; [|done].
  intros [= <-]. exists (N.to_nat (b2n b)). split; [done|].
  rewrite N2Nat.id, n2b_b2n, <- Hd. by rewrite take_drop.
Qed.

(** ** Key generation *)

Section gen.
Context (C : crypto) (Hok : crypto_ok C).

(** The key pair the [n]-th draw of the tape gives. *)
Definition kp_at (w : world) (n : nat) : keypair :=
  let s := resize 32 x00 (w_tape w n) in KeyPair (genPub C (genPriv C s)) (genPriv C s).

Lemma kp_at_priv_len w n : length (kp_priv (kp_at w n)) = 32.
Proof. cbn. apply (co_priv_len C Hok). apply resize_length. Qed.
Lemma kp_at_pub_len w n : length (kp_pub (kp_at w n)) = 32.
Proof. cbn. apply (co_pub_len C Hok). apply (co_priv_len C Hok). apply resize_length. Qed.

Lemma run_generateKeyPair w :
  run (generateKeyPair C) w = (Ok (kp_at w (w_pos w)), w_set_pos (S (w_pos w)) w).
Proof.
  unfold generateKeyPair. rewrite run_bind, run_do. cbn [step_call].
  rewrite run_lift. unfold keypair_of_rand, c_generatePrivateKey, c_generatePublicKey.
  rewrite resize_length. cbn [Nat.eqb]. rewrite bind_ok.
  rewrite (co_priv_len C Hok) by apply resize_length. done.
Qed.

Lemma run_calculateSignature w k m :
  length k = 32 ->
  run (calculateSignature C k m) w = (Ok (sign C (resize 64 x00 (w_tape w (w_pos w))) k m), w_set_pos (S (w_pos w)) w).
Proof.
  intros Hk. unfold calculateSignature. rewrite run_bind, run_do. cbn [step_call].
  rewrite run_lift. unfold calculateSignature_with, c_calculateSignature.
  by rewrite resize_length, Hk.
Qed.

Lemma preKeyId_range start i : (1 <= preKeyId_at start i <= max_prekey_id)%Z.
Proof.
  unfold preKeyId_at, max_prekey_id. change (Z.of_N MEDIUM_MAX_VALUE - 1)%Z with 16777214%Z.
  pose proof (Z.mod_pos_bound (start - 1 + Z.of_nat i) 16777214). lia.
Qed.

Lemma preKeyId_next start i : preKeyId_at start (S i) = next_prekey_id (preKeyId_at start i).
Proof.
  unfold preKeyId_at, next_prekey_id, max_prekey_id. change (Z.of_N MEDIUM_MAX_VALUE - 1)%Z with 16777214%Z.
  set (x := (start - 1 + Z.of_nat i)%Z). replace (start - 1 + Z.of_nat (S i))%Z with (x + 1)%Z by lia.
  pose proof (Z.div_mod x 16777214). pose proof (Z.mod_pos_bound x 16777214).
  destruct (Z.eqb_spec (x mod 16777214 + 1) 16777214).
  - assert ((x + 1) mod 16777214 = 0)%Z; [|lia].
    apply Z.mod_divide; [lia|]. exists (x / 16777214 + 1)%Z. lia.
  - assert ((x + 1) mod 16777214 = x mod 16777214 + 1)%Z; [|lia].
    symmetry. apply (Z.mod_unique _ _ (x / 16777214)); lia.
Qed.

Lemma preKeyId_first start : (1 <= start <= max_prekey_id)%Z -> preKeyId_at start 0 = start.
Proof.
  unfold preKeyId_at, max_prekey_id. change (Z.of_N MEDIUM_MAX_VALUE - 1)%Z with 16777214%Z.
  intros. rewrite Z.mod_small; lia.
Qed.

Lemma preKeyId_inj start i j :
  (i < j)%nat -> (Z.of_nat j - Z.of_nat i < max_prekey_id)%Z -> preKeyId_at start i <> preKeyId_at start j.
Proof.
  unfold preKeyId_at, max_prekey_id. change (Z.of_N MEDIUM_MAX_VALUE - 1)%Z with 16777214%Z.
  intros Hij Hd Heq.
  set (x := (start - 1 + Z.of_nat i)%Z) in *. set (y := (start - 1 + Z.of_nat j)%Z) in *.
  pose proof (Z.div_mod x 16777214). pose proof (Z.div_mod y 16777214).
  assert (y - x = 16777214 * (y / 16777214 - x / 16777214))%Z by lia.
  assert (0 < y - x < 16777214)%Z by (unfold x, y; lia). nia.
Qed.

(** The [i]-th record generated from world [w]. *)
Definition prekey_at (w : world) (start : Z) (i : nat) : pr_s :=
  let kp := kp_at w (w_pos w + i) in
  PrS (Some (Z.to_N (preKeyId_at start i))) (Some (pub_serialize (kp_pub kp))) (Some (kp_priv kp)).

Lemma kp_at_pos w n i : kp_at (w_set_pos n w) i = kp_at w i.
Proof. done. Qed.

Lemma generatePreKeys_run start i n w :
  run (generatePreKeys_loop C start i n) w =
  (Ok (map (fun k => let kp := kp_at w (w_pos w + k) in
      PrS (Some (Z.to_N (preKeyId_at start (i + k)))) (Some (pub_serialize (kp_pub kp))) (Some (kp_priv kp))) (seq 0 n)),
   w_set_pos (w_pos w + n) w).
Proof.
  revert i w. induction n as [|n IH]; intros i w.
  - cbn. rewrite Nat.add_0_r. by destruct w.
  - cbn [generatePreKeys_loop]. rewrite run_bind, run_generateKeyPair.
    rewrite run_bind, run_lift. unfold prekeyrecord_create. rewrite set_u32_ok.
    2:{ pose proof (preKeyId_range start i). unfold max_prekey_id in *.
        change (2 ^ 32)%N with 4294967296%N. lia. }
    rewrite bind_ok. rewrite run_bind, IH. rewrite run_ret. f_equal.
    + f_equal. cbn [seq map]. rewrite !Nat.add_0_r. f_equal.
      rewrite <- fmap_S_seq. change (fmap S (seq 0 n)) with (map S (seq 0 n)). rewrite map_map.
      apply map_ext. intros k. rewrite kp_at_pos. cbn [w_set_pos w_pos].
      by rewrite !Nat.add_succ_r.
    + cbn. unfold w_set_pos. cbn. f_equal. lia.
Qed.

End gen.

Lemma be_val_mod_lt b m : (m <> 0)%N -> (be_val b mod m < m)%N.
Proof. intros. by apply N.mod_lt. Qed.

Lemma run_getRandomSequence m w :
  (m <> 0)%N ->
  run (getRandomSequence m) w = (Ok (be_val (w_tape w (w_pos w)) mod m)%N, w_set_pos (S (w_pos w)) w).
Proof.
  intros Hm. unfold getRandomSequence. rewrite run_do. cbn [step_call].
  by rewrite (proj2 (N.eqb_neq _ _)).
Qed.

(** Every outcome below a bound is possible. *)
Lemma be_val_surj n : exists b, be_val b = n.
Proof.
  assert (forall fuel m, (m < 2 ^ N.of_nat fuel)%N -> exists b, be_val b = m) as H.
  { intros fuel. induction fuel as [|fuel IH]; intros m Hm; [exists []; cbn in *; lia|].
    destruct (N.eq_dec m 0) as [->|Hm0]; [by exists []|].
    destruct (IH (m / 256)%N) as [b Hb].
    - apply N.div_lt_upper_bound; [lia|]. rewrite Nat2N.inj_succ, N.pow_succ_r' in Hm. lia.
    - exists (b ++ [n2b m]). unfold be_val in *. rewrite foldl_app. cbn [foldl]. rewrite Hb, b2n_n2b.
      rewrite (N.div_mod m 256) at 3 by lia. lia. }
  apply (H (N.to_nat n)). rewrite N2Nat.id. apply N.pow_gt_lin_r. lia.
Qed.

(** ** Names *)

Lemma address_eqb_spec a b : address_eqb a b = true <-> a = b.
Proof.
  unfold address_eqb. rewrite andb_true_iff, !bool_decide_eq_true.
  destruct a, b; cbn. split; [by intros [-> ->]|by intros [= -> ->]].
Qed.
Lemma skname_eqb_spec a b : skname_eqb a b = true <-> a = b.
Proof.
  unfold skname_eqb. rewrite andb_true_iff, bool_decide_eq_true, address_eqb_spec.
  destruct a, b; cbn. split; [by intros [-> ->]|by intros [= -> ->]].
Qed.
