(** Lemmas about byte utilities, HKDF, the symmetric ratchet and the key order. *)
From Verif Require Import PyBase Crypto Ecc Kdf Messages SpecUtil.

(** ** HKDF *)

Lemma chr_utf8_small i : (i < 128)%N -> chr_utf8 i = [n2b i].
Proof.
  intros Hi. unfold chr_utf8. rewrite N.mod_small by lia.
  by rewrite (proj2 (N.ltb_lt i 128)).
Qed.

Section hkdf.
Context (C : crypto) (Hok : crypto_ok C).

Lemma expand_loop_rfc first prk info k n rem :
  (first + k + n <= 128)%nat -> (rem <= 32 * n)%nat -> (32 * n <= rem + 31)%nat ->
  hkdf_expand_loop C prk info (N.of_nat (first + k)) n (rfc_T (hmac256 C) first prk info k) rem
  = take rem (concat (map (rfc_T (hmac256 C) first prk info) (seq (S k) n))).
Proof.
  revert k rem. induction n as [|n IH]; intros k rem Hb Hr1 Hr2.
  - replace rem with 0%nat by lia. done.
  - cbn [hkdf_expand_loop seq map concat].
    rewrite chr_utf8_small by lia.
    change (hmac256 C prk (rfc_T (hmac256 C) first prk info k ++ info ++ [n2b (N.of_nat (first + k))]))
      with (rfc_T (hmac256 C) first prk info (S k)).
    set (T := rfc_T (hmac256 C) first prk info (S k)).
    assert (length T = 32) as HT by apply (co_hmac_len C Hok).
    rewrite HT.
    replace (N.of_nat (first + k) + 1)%N with (N.of_nat (first + S k)) by lia.
    destruct (decide (rem <= 32)%nat).
    + rewrite Nat.min_l by lia. rewrite Nat.sub_diag.
      assert (n = 0 \/ 0 < n)%nat as [->|Hn] by lia.
      * cbn. rewrite !app_nil_r. done.
      * assert (rem = 0 \/ rem > 0)%nat by lia. lia.
    + rewrite Nat.min_r by lia. rewrite take_ge by lia.
      rewrite IH by lia. rewrite take_app_ge by lia. by rewrite HT.
Qed.

Lemma expand_rfc first prk info L :
  (first + (L + 31) / 32 <= 128)%nat ->
  hkdf_expand C (N.of_nat first) prk info L = rfc_expand (hmac256 C) first prk info L.
Proof.
  intros Hb. unfold hkdf_expand, rfc_expand.
  pose proof (Nat.div_mod (L + 31) 32 ltac:(lia)). pose proof (Nat.mod_upper_bound (L + 31) 32 ltac:(lia)).
  pose proof (expand_loop_rfc first prk info 0 ((L + 31) / 32) L) as H1.
  rewrite Nat.add_0_r in H1. apply H1; lia.
Qed.

Lemma expand_loop_length prk info i n mixin rem :
  (rem <= 32 * n)%nat -> length (hkdf_expand_loop C prk info i n mixin rem) = rem.
Proof.
  revert i mixin rem. induction n as [|n IH]; intros i mixin rem Hr; cbn [hkdf_expand_loop]; [simpl; lia|].
  rewrite app_length, take_length, (co_hmac_len C Hok), IH; lia.
Qed.

Lemma expand_loop_prefix prk info i n m mixin r1 r2 :
  (r1 <= 32 * n)%nat -> (r1 <= r2)%nat -> (r2 <= 32 * m)%nat -> (n <= m)%nat ->
  hkdf_expand_loop C prk info i n mixin r1 = take r1 (hkdf_expand_loop C prk info i m mixin r2).
Proof.
  revert m i mixin r1 r2. induction n as [|n IH]; intros m i mixin r1 r2 H1 H2 H3 H4.
  - replace r1 with 0%nat by lia. done.
  - destruct m as [|m]; [lia|]. cbn [hkdf_expand_loop].
    set (T := hmac256 C prk _). assert (length T = 32) as HT by apply (co_hmac_len C Hok).
    rewrite HT.
    destruct (decide (r1 <= 32)%nat).
    + rewrite (Nat.min_l r1) by lia. rewrite Nat.sub_diag.
      rewrite take_app_le by (rewrite take_length; lia).
      rewrite take_take, Nat.min_l by lia.
      rewrite <- (app_nil_r (take r1 T)) at 2. f_equal.
      apply nil_length_inv. apply expand_loop_length. lia.
    + rewrite !Nat.min_r by lia. rewrite !(take_ge T) by lia.
      rewrite take_app_ge by lia. rewrite HT. f_equal. apply IH; lia.
Qed.

Lemma derive_length off ikm info L salt : length (hkdf_deriveSecrets C off ikm info L salt) = L.
Proof.
  apply expand_loop_length.
  pose proof (Nat.div_mod (L + 31) 32 ltac:(lia)). pose proof (Nat.mod_upper_bound (L + 31) 32 ltac:(lia)). lia.
Qed.

Lemma derive_prefix off ikm info L1 L2 salt :
  (L1 <= L2)%nat ->
  hkdf_deriveSecrets C off ikm info L1 salt = take L1 (hkdf_deriveSecrets C off ikm info L2 salt).
Proof.
  intros HL. apply expand_loop_prefix; try lia.
  - pose proof (Nat.div_mod (L1 + 31) 32 ltac:(lia)). pose proof (Nat.mod_upper_bound (L1 + 31) 32 ltac:(lia)). lia.
  - pose proof (Nat.div_mod (L2 + 31) 32 ltac:(lia)). pose proof (Nat.mod_upper_bound (L2 + 31) 32 ltac:(lia)). lia.
  - apply Nat.div_le_mono; lia.
Qed.

Lemma derive_rfc (first L : nat) ikm info salt :
  (first + (L + 31) / 32 <= 128)%nat ->
  hkdf_deriveSecrets C (N.of_nat first) ikm info L salt
  = rfc_hkdf (hmac256 C) first (match salt with [] => None | _ => Some salt end) ikm info L.
Proof.
  intros HL. unfold hkdf_deriveSecrets, rfc_hkdf, hkdf_extract. rewrite expand_rfc by done.
  by destruct salt.
Qed.

(** ** Symmetric ratchet *)

(** The key [n] steps later. *)
Lemma ck_next_iter n c :
  Nat.iter n (ck_next C) c = ChainKey (cKdf c) (Nat.iter n (fun k => hmac256 C k [x02]) (cKey c)) (cIndex c + N.of_nat n).
Proof.
  induction n as [|n IH]; [by destruct c; cbn; rewrite N.add_0_r|]. rewrite !Nat.iter_succ.
  rewrite IH. unfold ck_next, ck_baseMaterial. cbn [cKdf cKey cIndex]. f_equal. lia.
Qed.

Lemma ck_messageKeys_split c :
  let okm := hkdf_deriveSecrets C (cKdf c) (hmac256 C (cKey c) [x01]) (str "WhisperMessageKeys") 80 [] in
  ck_messageKeys C c = MessageKeys (take 32 okm) (take 32 (drop 32 okm)) (take 16 (drop 64 okm)) (cIndex c).
Proof.
  cbv zeta. unfold ck_messageKeys, bu_split3, ck_baseMaterial.
  set (okm := hkdf_deriveSecrets _ _ _ _ _ _).
  assert (length okm = 80) by apply derive_length.
  rewrite py_slice_prefix by done.
  change (32 + 32 + 16)%Z with (Z.of_nat 80). change (32 + 32)%Z with (Z.of_nat 64). change 32%Z with (Z.of_nat 32).
  rewrite !py_slice_nonneg by lia. done.
Qed.

Lemma ck_messageKeys_lengths c :
  length (mCipher (ck_messageKeys C c)) = 32 /\ length (mMac (ck_messageKeys C c)) = 32 /\
  length (mIv (ck_messageKeys C c)) = 16.
Proof.
  rewrite ck_messageKeys_split. cbn [mCipher mMac mIv].
  rewrite !take_length, !drop_length, derive_length. lia.
Qed.

Lemma ck_messageKeys_counter c : mCounter (ck_messageKeys C c) = cIndex c.
Proof. unfold ck_messageKeys. by destruct (bu_split3 _ _ _ _) as [[??]?]. Qed.

Lemma sck_next_iter n c :
  Nat.iter n (sck_next C) c = SenderChainKey (scIteration c + N.of_nat n) (Nat.iter n (fun k => hmac256 C k [x02]) (scKey c)).
Proof.
  induction n as [|n IH]; [by destruct c; cbn; rewrite N.add_0_r|]. rewrite !Nat.iter_succ.
  rewrite IH. unfold sck_next, sck_derivative. cbn [scIteration scKey]. f_equal. lia.
Qed.

Lemma sck_messageKey_split c :
  let okm := hkdf_deriveSecrets C hkdf_v3 (hmac256 C (scKey c) [x01]) (str "WhisperGroup") 48 [] in
  sck_messageKey C c = SenderMessageKey (scIteration c) (hmac256 C (scKey c) [x01]) (take 16 okm) (take 32 (drop 16 okm)).
Proof.
  cbv zeta. unfold sck_messageKey, mk_senderMessageKey, bu_split2, sck_derivative.
  rewrite py_slice_prefix by done.
  change (16 + 32)%Z with (Z.of_nat 48). change 16%Z with (Z.of_nat 16).
  rewrite !py_slice_nonneg by lia. done.
Qed.

Lemma mk_senderMessageKey_lengths it seed :
  length (smIv (mk_senderMessageKey C it seed)) = 16 /\ length (smCipher (mk_senderMessageKey C it seed)) = 32.
Proof.
  unfold mk_senderMessageKey, bu_split2. rewrite py_slice_prefix by done.
  change (16 + 32)%Z with (Z.of_nat 48). change 16%Z with (Z.of_nat 16).
  rewrite !py_slice_nonneg by lia. cbn [smIv smCipher].
  rewrite !take_length, !drop_length, derive_length. lia.
Qed.

Lemma rk_createChain_ok r p kp :
  length p = 32 -> length (kp_priv kp) = 32 ->
  let okm := hkdf_deriveSecrets C (rKdf r) (agree C (kp_priv kp) p) (str "WhisperRatchet") 64 (rKey r) in
  rk_createChain C r p kp = Ok (RootKey (rKdf r) (take 32 okm), ChainKey (rKdf r) (take 32 (drop 32 okm)) 0).
Proof.
  intros Hp Hk. cbv zeta. unfold rk_createChain, calculateAgreement, c_calculateAgreement.
  rewrite Hp, Hk. cbn [Nat.eqb andb]. rewrite bind_ok. unfold bu_split2.
  rewrite py_slice_prefix by done.
  change (32 + 32)%Z with (Z.of_nat 64). change 32%Z with (Z.of_nat 32).
  rewrite !py_slice_nonneg by lia. done.
Qed.
End hkdf.

(** ** Key order *)

Lemma be_i32_s32 a b c d : be_i32 [a; b; c; d] = s32 a b c d.
Proof.
  unfold be_i32, s32. cbn [foldl].
  pose proof (b2n_lt a). pose proof (b2n_lt b). pose proof (b2n_lt c). pose proof (b2n_lt d).
  set (za := Z.of_N (b2n a)). set (zb := Z.of_N (b2n b)). set (zc := Z.of_N (b2n c)). set (zd := Z.of_N (b2n d)).
  assert (0 <= za < 256)%Z by lia. assert (0 <= zb < 256)%Z by lia.
  assert (0 <= zc < 256)%Z by lia. assert (0 <= zd < 256)%Z by lia.
  change (2 ^ 31)%Z with 2147483648%Z. change (2 ^ 32)%Z with 4294967296%Z.
  destruct (Z.ltb_spec ((((0 * 256 + za) * 256 + zb) * 256 + zc) * 256 + zd) 2147483648);
    destruct (Z.leb_spec 128 za); lia.
Qed.

Ltac dest32 k := match goal with H : length k = 32 |- _ =>
  do 32 (destruct k as [|? k]; [cbn in H; discriminate H|]); destruct k; [clear H|cbn in H; discriminate H] end.

Lemma unpack8i_ints k : length k = 32 -> unpack8i k = Ok (key_ints k).
Proof.
  intros Hk. unfold unpack8i. rewrite Hk. cbn [Nat.eqb].
  dest32 k.
  cbn -[be_i32 s32]. by rewrite !be_i32_s32.
Qed.

Lemma unpack8i_err k : length k <> 32 -> unpack8i k = Err EStructError.
Proof. intros Hk. unfold unpack8i. by rewrite (proj2 (Nat.eqb_neq _ _)). Qed.

Lemma s32_inj a b c d a' b' c' d' : s32 a b c d = s32 a' b' c' d' -> a = a' /\ b = b' /\ c = c' /\ d = d'.
Proof.
  unfold s32.
  pose proof (b2n_lt a). pose proof (b2n_lt b). pose proof (b2n_lt c). pose proof (b2n_lt d).
  pose proof (b2n_lt a'). pose proof (b2n_lt b'). pose proof (b2n_lt c'). pose proof (b2n_lt d').
  intros Heq.
  assert (b2n a = b2n a' /\ b2n b = b2n b' /\ b2n c = b2n c' /\ b2n d = b2n d')%N as (?&?&?&?).
  { destruct (Z.leb_spec 128 (Z.of_N (b2n a))), (Z.leb_spec 128 (Z.of_N (b2n a'))); lia. }
  repeat split; by apply b2n_inj.
Qed.

Lemma key_ints_inj k k' : length k = 32 -> length k' = 32 -> key_ints k = key_ints k' -> k = k'.
Proof.
  intros Hk Hk'.
  dest32 k.
  dest32 k'.
  cbn [key_ints]. intros [= H1 H2 H3 H4 H5 H6 H7 H8].
  apply s32_inj in H1 as (->&->&->&->). apply s32_inj in H2 as (->&->&->&->).
  apply s32_inj in H3 as (->&->&->&->). apply s32_inj in H4 as (->&->&->&->).
  apply s32_inj in H5 as (->&->&->&->). apply s32_inj in H6 as (->&->&->&->).
  apply s32_inj in H7 as (->&->&->&->). by apply s32_inj in H8 as (->&->&->&->).
Qed.

Lemma key_ints_length k : length k = 32 -> length (key_ints k) = 8.
Proof. intros Hk. dest32 k. done. Qed.

Lemma tuple_lt_lex a b : tuple_lt a b = true <-> lex_lt a b.
Proof.
  revert b. induction a as [|x a IH]; intros [|y b]; cbn; try done.
  destruct (Z.eqb_spec x y) as [->|Hne].
  - rewrite IH. split; [auto|]. intros [?|[_ ?]]; [lia|done].
  - rewrite Z.ltb_lt. split; [auto|]. intros [?|[? _]]; [lia|done].
Qed.

Lemma lex_lt_irrefl a : ~ lex_lt a a.
Proof. induction a as [|x a IH]; cbn; [by intros ?|]. intros [?|[_ ?]]; [lia|done]. Qed.
Lemma lex_lt_trans a b c : lex_lt a b -> lex_lt b c -> lex_lt a c.
Proof.
  revert b c. induction a as [|x a IH]; intros [|y b] [|z c]; cbn; try done.
  intros [?|[-> ?]] [?|[-> ?]]; [left; lia|left; lia|left; lia|right; eauto].
Qed.
Lemma lex_lt_total a b : length a = length b -> a <> b -> lex_lt a b \/ lex_lt b a.
Proof.
  revert b. induction a as [|x a IH]; intros [|y b]; cbn; try done. intros [= Hl] Hne.
  destruct (Z.lt_trichotomy x y) as [?|[->|?]]; [auto| |auto].
  destruct (IH b Hl) as [?|?]; [congruence|auto..].
Qed.

Lemma pub_lt_spec a b :
  length a = 32 -> length b = 32 -> exists t, pub_lt a b = Ok t /\ (t = true <-> lex_lt (key_ints a) (key_ints b)).
Proof.
  intros Ha Hb. unfold pub_lt. rewrite !unpack8i_ints by done. rewrite !bind_ok.
  eexists. split; [done|]. apply tuple_lt_lex.
Qed.

Lemma pub_lt_err a b : length a <> 32 \/ length b <> 32 -> pub_lt a b = Err EStructError.
Proof.
  unfold pub_lt. intros H. destruct (decide (length a = 32)) as [Ha|Ha].
  - destruct H as [?|Hb]; [done|]. rewrite (unpack8i_ints a), (unpack8i_err b) by done. done.
  - by rewrite (unpack8i_err a).
Qed.

Lemma pub_lt_total a b :
  length a = 32 -> length b = 32 -> a <> b ->
  (pub_lt a b = Ok true /\ pub_lt b a = Ok false) \/ (pub_lt a b = Ok false /\ pub_lt b a = Ok true).
Proof.
  intros Ha Hb Hne.
  destruct (pub_lt_spec a b Ha Hb) as (t1 & -> & H1). destruct (pub_lt_spec b a Hb Ha) as (t2 & -> & H2).
  destruct (lex_lt_total (key_ints a) (key_ints b)) as [Hl|Hl].
  - by rewrite !key_ints_length.
  - intros Heq. apply Hne. by apply key_ints_inj.
  - left. apply H1 in Hl as Ht. subst t1. destruct t2; [|done]. exfalso.
    eapply lex_lt_irrefl, lex_lt_trans; [exact Hl|]. by apply H2.
  - right. apply H2 in Hl as Ht. subst t2. destruct t1; [|done]. exfalso.
    eapply lex_lt_irrefl, lex_lt_trans; [exact Hl|]. by apply H1.
Qed.

Lemma pub_lt_irrefl a : length a = 32 -> pub_lt a a = Ok false.
Proof.
  intros Ha. destruct (pub_lt_spec a a Ha Ha) as (t & -> & H). destruct t; [|done].
  exfalso. eapply lex_lt_irrefl. by apply H.
Qed.

Lemma pub_lt_trans a b c : pub_lt a b = Ok true -> pub_lt b c = Ok true -> pub_lt a c = Ok true.
Proof.
  intros H1 H2.
  assert (length a = 32) as Ha by (destruct (decide (length a = 32)); [done|]; rewrite pub_lt_err in H1 by auto; done).
  assert (length b = 32) as Hb by (destruct (decide (length b = 32)); [done|]; rewrite pub_lt_err in H1 by auto; done).
  assert (length c = 32) as Hc by (destruct (decide (length c = 32)); [done|]; rewrite pub_lt_err in H2 by auto; done).
  destruct (pub_lt_spec a b Ha Hb) as (t1 & E1 & I1). destruct (pub_lt_spec b c Hb Hc) as (t2 & E2 & I2).
  destruct (pub_lt_spec a c Ha Hc) as (t3 & E3 & I3).
  rewrite E1 in H1. rewrite E2 in H2. injection H1 as ->. injection H2 as ->.
  rewrite E3. f_equal. apply I3. eapply lex_lt_trans; [by apply I1|by apply I2].
Qed.
