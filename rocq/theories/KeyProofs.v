(** Which messages a state opens: C05, C07. *)
From Verif Require Import PyBase Wire Protos ProtoFacts Crypto Ecc Kdf Messages State Prog Ratchet Builder Cipher Groups Helper.
From Verif Require Import ProgFacts StateFacts UtilFacts HelperFacts MsgFacts CipherFacts DecryptFacts SpecUtil SpecSession SpecKeys SessionProofs HandshakeFacts LockoutProofs SpecApi InvFacts HistoryProofs.

(** ** Length of a parsed WhisperMessage *)

Definition wsize (f : wfield) : nat := match f.2 with WLen b => 2 + length b | _ => 0 end.

Lemma varint_dec_len bs v c z r : varint_dec bs = Some (v, c, z, r) -> length r < length bs.
Proof.
  revert v c z r. induction bs as [|b bs IH]; intros v c z r; cbn [varint_dec]; [done|].
  case_match. { intros [= <- <- <- <-]. cbn. lia. }
  destruct (varint_dec bs) as [[[[v' c'] z'] r']|] eqn:E; [|done]. intros [= <- <- <- <-].
  specialize (IH _ _ _ _ eq_refl). cbn. lia.
Qed.
Lemma dec_tag_len bs n t r : dec_tag bs = Some (n, t, r) -> length r < length bs.
Proof.
  unfold dec_tag. destruct (varint_dec bs) as [[[[v c] z] r']|] eqn:E; [|done]. case_match; [|done].
  intros [= <- <- <-]. by eapply varint_dec_len.
Qed.
Lemma dec_value_len bs n r : dec_value bs = Some (n, r) -> length r <= length bs.
Proof.
  unfold dec_value. destruct (varint_dec bs) as [[[[v c] z] r']|] eqn:E; [|done]. case_match; [|done].
  intros [= <- <-]. apply varint_dec_len in E. lia.
Qed.
Lemma dec_fixed_len k bs n r : dec_fixed k bs = Some (n, r) -> length r <= length bs.
Proof. unfold dec_fixed. case_match; [|done]. intros [= <- <-]. rewrite drop_length. lia. Qed.
Lemma dec_len_len bs b r : dec_len bs = Some (b, r) -> length b + length r < length bs.
Proof.
  unfold dec_len. destruct (varint_dec bs) as [[[[v c] z] r']|] eqn:E; [|done]. case_match; [done|].
  case_match eqn:E2; [|done]. intros [= <- <-]. apply varint_dec_len in E. apply N.leb_le in E2.
  rewrite take_length, drop_length. lia.
Qed.

Lemma dec_fields_size fuel grp bs fs e :
  dec_fields fuel grp bs = Some (fs, e) -> sum_list (wsize <$> fs) + length e <= length bs.
Proof.
  revert grp bs fs e. induction fuel as [|f IH]; intros grp bs fs e; [done|]. cbn [dec_fields].
  destruct bs as [|b bs]. { destruct grp; [done|]. intros [= <- <-]. done. }
  destruct (dec_tag (b :: bs)) as [[[num wt] r]|] eqn:Et; [|done]. apply dec_tag_len in Et.
  revert Et. generalize (length (b :: bs)). intros n Et.
  destruct wt as [|[[p|p|]|[p|p|]|]]; try done.
  - destruct (dec_value r) as [[v r']|] eqn:E; [|done]. apply dec_value_len in E.
    destruct (dec_fields f grp r') as [[fs' e']|] eqn:E2; [|done]. intros [= <- <-].
    apply IH in E2. cbn. lia.
  - destruct p; [done..|]. destruct (dec_fixed 4 r) as [[v r']|] eqn:E; [|done]. apply dec_fixed_len in E.
    destruct (dec_fields f grp r') as [[fs' e']|] eqn:E2; [|done]. intros [= <- <-].
    apply IH in E2. cbn. lia.
  - destruct (dec_fields f (Some num) r) as [[fs0 r']|] eqn:E; [|done]. apply IH in E.
    destruct (dec_fields f grp r') as [[fs' e']|] eqn:E2; [|done]. intros [= <- <-].
    apply IH in E2. cbn. lia.
  - destruct p; [done..|]. destruct grp as [g|]; [|done]. case_match; [|done]. intros [= <- <-]. cbn. lia.
  - destruct (dec_len r) as [[v r']|] eqn:E; [|done]. apply dec_len_len in E.
    destruct (dec_fields f grp r') as [[fs' e']|] eqn:E2; [|done]. intros [= <- <-].
    apply IH in E2. cbn. lia.
  - destruct (dec_fixed 8 r) as [[v r']|] eqn:E; [|done]. apply dec_fixed_len in E.
    destruct (dec_fields f grp r') as [[fs' e']|] eqn:E2; [|done]. intros [= <- <-].
    apply IH in E2. cbn. lia.
Qed.

Definition osize (o : option bytes) : nat := match o with Some b => 2 + length b | None => 0 end.
Lemma wm_step_size fs : forall m m', fold_fields wm_step m fs = Ok m' ->
  osize (wm_ratchetKey m') + osize (wm_ciphertext m') <= sum_list (wsize <$> fs) + osize (wm_ratchetKey m) + osize (wm_ciphertext m).
Proof.
  induction fs as [|[n v] fs IH]; intros m m'; cbn [fold_fields]. { intros [= <-]. cbn. lia. }
  intros (m1 & H1 & H2)%bind_ok_inv. apply IH in H2. change (sum_list (wsize <$> (n, v) :: fs)) with (wsize (n, v) + sum_list (wsize <$> fs)).
  assert (osize (wm_ratchetKey m1) + osize (wm_ciphertext m1) <= wsize (n, v) + osize (wm_ratchetKey m) + osize (wm_ciphertext m)); [|lia].
  revert H1. unfold wm_step, wsize. cbn [snd].
  repeat case_match; intros [= <-]; cbn [wm_set_ratchetKey wm_set_counter wm_set_previousCounter wm_set_ciphertext wm_ratchetKey wm_ciphertext osize]; lia.
Qed.

Lemma whisper_parse_length bs m : whisper_parse bs = Ok m -> 15 <= length bs.
Proof.
  unfold whisper_parse. destruct bs as [|b bs']; [done|]. set (bs := b :: bs').
  unfold res_rethrow. destruct (whisper_parse_body bs) as [x|e] eqn:E; [|by case_match].
  intros _. revert E. unfold whisper_parse_body.
  destruct (bu_split3 bs _ _ _) as [[[|vb p0] message] t] eqn:Es; [done|].
  case_match; [done|]. case_match; [done|].
  intros (w & Hw & H')%bind_ok_inv.
  destruct (bytes_falsy (wm_ciphertext w) || bytes_falsy (wm_ratchetKey w)) eqn:Ef; [done|]. clear H'.
  apply orb_false_iff in Ef as [Ef1 Ef2].
  apply bind_ok_inv in Hw as (fs & Hfs & Hfold). unfold parse_raw in Hfs.
  destruct (dec_fields _ _ _) as [[fs' e]|] eqn:Ed; [|done]. injection Hfs as <-.
  apply dec_fields_size in Ed. apply wm_step_size in Hfold. cbn in Hfold.
  assert (3 <= osize (wm_ciphertext w)) by (destruct (wm_ciphertext w) as [[|]|]; cbn in *; (done || lia)).
  assert (3 <= osize (wm_ratchetKey w)) by (destruct (wm_ratchetKey w) as [[|]|]; cbn in *; (done || lia)).
  assert (6 <= length message) as Hm by lia.
  injection Es as _ <- _. revert Hm. unfold py_slice, zlen, MAC_LENGTH. rewrite take_length.
  set (L := length bs). unfold py_norm. rewrite drop_length. fold L.
  repeat case_match; lia.
Qed.

(** ** Public keys of chains *)

Lemma decode_iff o k : decodePoint (default [] o) 0 = Ok k <-> exists t, o = Some (x05 :: t) /\ k = take 32 t.
Proof.
  split.
  - intros (t & Ht & ->)%decodePoint_ok_inv. exists t. split; [|done]. destruct o; cbn in *; [by subst|done].
  - intros (t & -> & ->). unfold decodePoint. cbn. by rewrite drop_0.
Qed.
Lemma chain_of_iff c k : chain_pub c = Ok k <-> chain_of c k.
Proof. apply decode_iff. Qed.

Lemma receiving_iff s R c : receiving s R c <-> exists j, find_chain R (ss_receiverChains s) 0 = Ok (Some (c, j)).
Proof.
  split.
  - intros (l1 & l2 & -> & Hc & Hl). exists (0 + length l1). apply find_chain_app; [by apply chain_of_iff|].
    eapply Forall_impl; [exact Hl|]. intros x (k & Hk & Hne). exists k. split; [by apply chain_of_iff|done].
  - intros (j & (l1 & l2 & Hl & _ & Hp & Hl1)%find_chain_some). exists l1, l2. split_and!; [done|by apply chain_of_iff|].
    eapply Forall_impl; [exact Hl1|]. intros x (k & Hk & Hne). exists k. split; [by apply chain_of_iff|done].
Qed.
Lemma no_receiving_iff s R : no_receiving s R <-> find_chain R (ss_receiverChains s) 0 = Ok None.
Proof.
  rewrite find_chain_none. unfold no_receiving. split; intros H; (eapply Forall_impl; [exact H|]); intros x (k & Hk & Hne);
    exists k; (split; [by apply chain_of_iff|done]).
Qed.
Lemma receiving_exclusive s R c : receiving s R c -> no_receiving s R -> False.
Proof. intros (j & Hj)%receiving_iff H%no_receiving_iff. congruence. Qed.

(** ** CBC and padding *)

Lemma unpad_iff m pt : pkcs7_unpad m = Ok pt <-> exists k, 1 <= k <= 16 /\ m = pt ++ replicate k (n2b (N.of_nat k)).
Proof.
  split.
  - unfold pkcs7_unpad. destruct (last m) as [b|] eqn:El; [|done].
    destruct (1 <=? N.to_nat (b2n b))%nat eqn:E1; [|done]. destruct (N.to_nat (b2n b) <=? 16)%nat eqn:E2; [|done].
    cbn [andb]. case_bool_decide as E3; [|done]. intros [= <-]. apply Nat.leb_le in E1, E2.
    exists (N.to_nat (b2n b)). split; [done|]. rewrite N2Nat.id, n2b_b2n, <- E3. by rewrite take_drop.
  - intros (k & Hk & ->). unfold pkcs7_unpad.
    assert (last (pt ++ replicate k (n2b (N.of_nat k))) = Some (n2b (N.of_nat k))) as ->.
    { destruct k as [|k']; [lia|]. rewrite last_app, replicate_S_end. by rewrite last_snoc. }
    rewrite b2n_n2b_small by lia. rewrite Nat2N.id, app_length, replicate_length.
    replace (length pt + k - k)%nat with (length pt) by lia. rewrite drop_app, take_app.
    rewrite (proj2 (Nat.leb_le 1 k)) by lia. rewrite (proj2 (Nat.leb_le k 16)) by lia.
    by rewrite bool_decide_eq_true_2.
Qed.

Section keys.
Context (C : crypto).

Lemma sender_index_wf s : ss_wf s -> (default 0%N (ck_index (default ck_empty (ch_chainKey (st_senderChain s)))) < 2 ^ 32)%N.
Proof.
  intros (_ & _ & H & _). unfold st_senderChain. destruct (ss_senderChain s) as [c|]; [|done]. rewrite default_Some.
  destruct H as [H _]. destruct (ch_chainKey c) as [k|]; [|done]. rewrite default_Some.
  unfold wfM, ck_wf, wfV in H. by destruct (ck_index k).
Qed.

(** The DH ratchet step succeeds. *)
Lemma chainStep_new s key ek our kdf x y :
  find_chain key (ss_receiverChains s) 0 = Ok None -> hkdf_createFor (st_getSessionVersion s) = Ok kdf ->
  st_getSenderRatchetKeyPair s = Ok our ->
  rk_createChain C (RootKey kdf (default [] (ss_rootKey s))) key our = Ok x ->
  rk_createChain C x.1 key ek = Ok y -> ss_wf s ->
  chainStep C s key ek = Ok (x.2, steppedState s key x.2 y.1 ek y.2).
Proof.
  intros Hno Hkdf Hour Hx Hy Hwf%sender_index_wf.
  pose proof (rk_createChain_inv C _ _ _ _ Hy) as (_ & _ & _ & _ & Hyi).
  pose proof (rk_createChain_inv C _ _ _ _ Hx) as (_ & _ & _ & _ & Hxi).
  unfold chainStep, st_hasReceiverChain, st_getReceiverChain. rewrite Hno, !bind_ok.
  unfold st_getRootKey. rewrite Hkdf, !bind_ok, Hour, !bind_ok, Hx, !bind_ok, Hy, !bind_ok.
  unfold steppedState. rewrite Hyi.
  unfold st_addReceiverChain, ch_putChainKey. rewrite Hxi, set_u32_ok by done. rewrite !bind_ok.
  set (l' := if (5 <? _)%nat then _ else _).
  change (trimChains (ss_receiverChains s ++ [newChain key x.2])) with
    (trimChains (ss_receiverChains s ++ [ch_set_chainKey (Some (CkS (Some (cIndex x.2)) (Some (cKey x.2)))) (ch_set_ratchetKey (Some (pub_serialize key)) ch_empty)])).
  rewrite Hxi. change (trimChains _) with l'. clearbody l'.
  unfold st_getSenderChainKey.
  change (st_getSessionVersion (ss_set_receiverChains _ _)) with (st_getSessionVersion s). rewrite Hkdf, !bind_ok.
  unfold st_setPreviousCounter. cbn [ch_getChainKey cIndex].
  change (st_senderChain (ss_set_receiverChains _ _)) with (st_senderChain s).
  rewrite set_u32_ok by lia.
  rewrite !bind_ok. unfold st_setSenderChain, ch_putChainKey. rewrite Hyi, set_u32_ok by done. rewrite !bind_ok.
  done.
Qed.

Lemma cbc_dec_zip key iv cs : cbc_dec C key iv cs = zip_with xor (aesD C key <$> cs) (iv :: cs).
Proof. revert iv. induction cs as [|c cs IH]; intros iv; [done|]. cbn. f_equal. apply IH. Qed.

Lemma cbc_plain_iff key iv body pt : aes_decrypt C key iv body = Ok pt <-> cbc_plain C key iv body pt.
Proof.
  unfold aes_decrypt, aes_init_ok, cbc_plain. split.
  - destruct ((length key =? 16) || (length key =? 24) || (length key =? 32))%nat eqn:Ek; [|done].
    destruct (length iv =? 16)%nat eqn:Ei; [|done]. cbn [andb].
    destruct (length body mod 16 =? 0)%nat eqn:Eb; [|done]. apply Nat.eqb_eq in Eb, Ei.
    intros (k & Hk & Hp)%unpad_iff.
    destruct (blocks_spec (length body) body (length body / 16)) as (H1 & H2 & _).
    { pose proof (Nat.div_mod (length body) 16). lia. }
    { apply Nat.div_le_upper_bound; lia. }
    exists (blocks (length body) body), k. split_and!; [done|done|lia|lia| | |done].
    + by rewrite <- Hp, cbc_dec_zip.
    + apply orb_true_iff in Ek as [Ek|Ek]; [apply orb_true_iff in Ek as [Ek|Ek]|]; apply Nat.eqb_eq in Ek; auto.
  - intros (cs & k & -> & Hcs & Hk & Hp & Hkey & Hiv).
    assert (((length key =? 16) || (length key =? 24) || (length key =? 32))%nat = true) as ->.
    { destruct Hkey as [-> | [-> | ->]]; done. }
    rewrite Hiv. cbn [Nat.eqb andb].
    rewrite concat_blocks_length by done.
    replace ((16 * length cs) mod 16)%nat with 0%nat by (rewrite Nat.mul_comm; symmetry; by apply Nat.mod_mul).
    cbn [Nat.eqb]. rewrite blocks_concat by (done || lia). apply unpad_iff. exists k. split; [done|].
    by rewrite cbc_dec_zip, <- Hp.
Qed.

(** ** MAC *)

Lemma authentic_iff m v a b k :
  8 <= length (wSerialized m) -> crypto_ok C ->
  whisper_verifyMac C m v a b k = Ok tt <-> authentic C v a b k (wSerialized m).
Proof.
  intros Hl Hok. unfold whisper_verifyMac, bu_split2, zlen, MAC_LENGTH, authentic.
  set (bs := wSerialized m) in *. rewrite py_slice_prefix by lia.
  replace (Z.to_nat (Z.of_nat (length bs) - 8)) with (length bs - 8) by lia.
  replace (Z.of_nat (length bs) - 8)%Z with (Z.of_nat (length bs - 8)) by lia.
  replace (Z.of_nat (length bs - 8) + 8)%Z with (Z.of_nat (length bs)) by lia.
  rewrite py_slice_nonneg by lia. rewrite (take_ge (drop (length bs - 8) bs)) by (rewrite drop_length; lia).
  unfold wm_getMac, bu_trim, MAC_LENGTH. rewrite py_slice_prefix by lia. change (Z.to_nat 8) with 8.
  change (pub_serialize ?x) with (x05 :: x).
  case_bool_decide as E; split; try done.
  - intros _. exists (take (length bs - 8) bs), (drop (length bs - 8) bs). split_and!.
    + by rewrite take_drop.
    + rewrite drop_length. lia.
    + by rewrite <- E.
  - intros (rest & mac & Hbs & Hm & Hmac). exfalso. apply E. rewrite Hbs in *. rewrite app_length in *.
    replace (length rest + length mac - 8) with (length rest) by lia. rewrite take_app, drop_app. done.
Qed.

(** ** Message keys *)

Definition to_keys (m : messageKeys) : keys := Keys (mCipher m) (mMac m) (mIv m).

Lemma createFor_inv v kdf : hkdf_createFor v = Ok kdf -> kdf = N.of_nat (first_block v) /\ (v = 2%N \/ v = 3%N).
Proof.
  unfold hkdf_createFor, first_block. destruct (v =? 2)%N eqn:E2.
  - intros [= <-]. apply N.eqb_eq in E2. auto.
  - destruct (v =? 3)%N eqn:E3; [|done]. intros [= <-]. apply N.eqb_eq in E3. auto.
Qed.
Lemma createFor_ok v : v = 2%N \/ v = 3%N -> hkdf_createFor v = Ok (N.of_nat (first_block v)).
Proof. intros [-> | ->]; done. Qed.

Context (Hok : crypto_ok C).

Lemma first_block_le v : first_block v <= 1.
Proof. unfold first_block. case_match; lia. Qed.

Lemma keys_of_eq v key n : to_keys (ck_messageKeys C (ChainKey (N.of_nat (first_block v)) key n)) = keys_of C v key.
Proof using Hok.
  rewrite (ck_messageKeys_split C Hok). cbn [cKdf cKey cIndex]. unfold to_keys, keys_of. cbn [mCipher mMac mIv].
  pose proof (first_block_le v).
  rewrite (derive_rfc C Hok) by (cbn; lia).
  f_equal. apply take_ge. rewrite drop_length.
  pose proof (derive_length C Hok (N.of_nat (first_block v)) (hmac256 C key [x01]) (ascii "WhisperMessageKeys") 80 []) as Hlen.
  rewrite (derive_rfc C Hok) in Hlen by (cbn; lia). cbn [length] in Hlen. rewrite Hlen. lia.
Qed.

Lemma dh_chain_eq v root priv remote kp :
  length remote = 32 -> length priv = 32 -> kp_priv kp = priv ->
  exists y, rk_createChain C (RootKey (N.of_nat (first_block v)) root) remote kp = Ok y /\ rKdf y.1 = N.of_nat (first_block v) /\
    y.2 = ChainKey (N.of_nat (first_block v)) (dh_chain C v root priv remote) 0.
Proof using Hok.
  intros Hr Hp <-. eexists. split; [by apply (rk_createChain_ok C)|]. split; [done|]. cbn [snd rKdf rKey]. f_equal.
  pose proof (first_block_le v). unfold dh_chain.
  rewrite (derive_rfc C Hok) by (cbn; lia). apply take_ge. rewrite drop_length.
  rewrite <- (derive_rfc C Hok) by (cbn; lia). rewrite derive_length by done. lia.
Qed.

(** ** The keys found in a chain *)

Definition key_in (v : N) (c : ch_s) (n : N) (k : keys) : Prop :=
  (exists l1 e l2, (n < next_index c)%N /\ ch_messageKeys c = l1 ++ e :: l2 /\ default 0%N (mk_index e) = n /\
     Forall (fun x => default 0%N (mk_index x) <> n) l1 /\
     k = Keys (default [] (mk_cipherKey e)) (default [] (mk_macKey e)) (default [] (mk_iv e))) \/
  ((next_index c <= n <= next_index c + 2000)%N /\
   k = keys_of C v (stepped C (next_key c) (N.to_nat (n - next_index c)))).

Lemma getChainKey_eq kdf c : ch_getChainKey kdf c = ChainKey kdf (next_key c) (next_index c).
Proof. unfold ch_getChainKey, next_key, next_index. by destruct (ch_chainKey c). Qed.

Lemma hasIndex_iff n x : mk_hasIndex n x = true <-> default 0%N (mk_index x) = n.
Proof. unfold mk_hasIndex. by rewrite N.eqb_eq. Qed.
Lemma hasIndex_niff n x : mk_hasIndex n x = false <-> default 0%N (mk_index x) <> n.
Proof. unfold mk_hasIndex. by rewrite N.eqb_neq. Qed.

Lemma take_messageKey_app n l1 e l2 :
  default 0%N (mk_index e) = n -> Forall (fun x => default 0%N (mk_index x) <> n) l1 ->
  take_messageKey n (l1 ++ e :: l2) = Some (e, l1 ++ l2).
Proof.
  intros He. induction 1 as [|x l1 Hx _ IH]; cbn [take_messageKey app].
  - by rewrite (proj2 (hasIndex_iff _ _) He).
  - rewrite (proj2 (hasIndex_niff _ _) Hx), IH. done.
Qed.

Lemma chainTake_keys v c n y :
  chainTake C (N.of_nat (first_block v)) c n = Ok y -> key_in v c n (to_keys y.1).
Proof using Hok.
  unfold chainTake. rewrite getChainKey_eq. cbn [cIndex].
  destruct (n <? next_index c)%N eqn:E1.
  - apply N.ltb_lt in E1. destruct (take_messageKey n (ch_messageKeys c)) as [[e r]|] eqn:Et; [|done].
    intros [= <-]. apply take_messageKey_some in Et as (l1 & l2 & Hl & _ & Hi & Hl1).
    left. exists l1, e, l2. split_and!; [done|done|by apply hasIndex_iff| |done].
    eapply Forall_impl; [exact Hl1|]. intros x. apply hasIndex_niff.
  - apply N.ltb_ge in E1. destruct (2000 <? n - next_index c)%N eqn:E2; [done|]. apply N.ltb_ge in E2.
    destruct (n + 1 <? 2 ^ 32)%N; [|done]. intros [= <-]. right. split; [lia|]. cbn [fst].
    rewrite ck_next_iter. cbn [cKdf cKey cIndex]. apply keys_of_eq.
Qed.

Lemma chainTake_found v c n k :
  key_in v c n k -> (n + 1 < 2 ^ 32)%N ->
  exists y, chainTake C (N.of_nat (first_block v)) c n = Ok y /\ to_keys y.1 = k.
Proof using Hok.
  intros Hk Hn. unfold chainTake. rewrite getChainKey_eq. cbn [cIndex].
  destruct Hk as [(l1 & e & l2 & Hlt & Hl & He & Hl1 & ->)|[Hr ->]].
  - rewrite (proj2 (N.ltb_lt _ _) Hlt), Hl, take_messageKey_app by done. eexists. split; [done|]. done.
  - rewrite (proj2 (N.ltb_ge _ _)) by lia. rewrite (proj2 (N.ltb_ge _ _)) by lia.
    rewrite (proj2 (N.ltb_lt _ _)) by done. eexists. split; [done|]. cbn [fst].
    rewrite ck_next_iter. cbn [cKdf cKey cIndex]. apply keys_of_eq.
Qed.

Lemma openWith_iff v c s m pt :
  8 <= length (wSerialized m) -> wVersion m = v ->
  (exists c', openWith C (N.of_nat (first_block v)) c s m = Ok (pt, c')) ->
  exists k local remote, key_in v c (wCounter m) k /\
    identity_of (ss_remoteIdentity s) remote /\ identity_of (ss_localIdentity s) local /\
    authentic C v remote local (k_mac k) (wSerialized m) /\ cbc_plain C (k_cipher k) (k_iv k) (wBody m) pt.
Proof using Hok.
  intros Hl Hv (c' & H). unfold openWith in H. rewrite Hv in H.
  apply bind_ok_inv in H as (y & Hy & H). apply bind_ok_inv in H as (ri & Hri & H).
  apply bind_ok_inv in H as (li & Hli & H). apply bind_ok_inv in H as ([] & Hmac & H).
  apply bind_ok_inv in H as (pt' & Hpt & H). injection H as -> <-.
  exists (to_keys y.1), li, ri. split_and!.
  - by apply chainTake_keys.
  - by apply decode_iff.
  - by apply decode_iff.
  - by apply authentic_iff.
  - by apply cbc_plain_iff.
Qed.

Lemma openWith_opens v c s m pt k local remote :
  8 <= length (wSerialized m) -> wVersion m = v -> (wCounter m + 1 < 2 ^ 32)%N ->
  key_in v c (wCounter m) k ->
  identity_of (ss_remoteIdentity s) remote -> identity_of (ss_localIdentity s) local ->
  authentic C v remote local (k_mac k) (wSerialized m) -> cbc_plain C (k_cipher k) (k_iv k) (wBody m) pt ->
  exists c', openWith C (N.of_nat (first_block v)) c s m = Ok (pt, c').
Proof using Hok.
  intros Hl Hv Hn Hk Hr Hlo Ha Hc. destruct (chainTake_found v c _ k Hk Hn) as (y & Hy & <-).
  unfold openWith. rewrite Hy, bind_ok, Hv.
  unfold st_getRemoteIdentityKey, st_getLocalIdentityKey.
  rewrite (proj2 (decode_iff _ _) Hr), bind_ok, (proj2 (decode_iff _ _) Hlo), bind_ok.
  cbn [to_keys k_mac k_cipher k_iv] in Ha, Hc.  rewrite (proj2 (authentic_iff _ _ _ _ _ Hl Hok) Ha), bind_ok.
  rewrite (proj2 (cbc_plain_iff _ _ _ _) Hc), bind_ok. eauto.
Qed.

Lemma version_of_iff s v : version_of s v <-> st_getSessionVersion s = v.
Proof.
  unfold version_of, st_getSessionVersion. destruct (ss_version s) as [[|p]|]; cbn; split; intros; subst; done.
Qed.

(** ** One state *)

(** A key in the chain that was found or made is the key of the message. *)
Lemma step_message_key s key n ek v c j s1 k :
  st_getSessionVersion s = v -> v = 2%N \/ v = 3%N ->
  chainStep C s key ek = Ok (ch_getChainKey (N.of_nat (first_block v)) c, s1) ->
  find_chain key (ss_receiverChains s1) 0 = Ok (Some (c, j)) -> key_in v c n k -> message_key C s v key n k.
Proof using Hok.
  intros Hv Hv23 Hstep Hf Hk.
  apply chainStep_inv in Hstep as (kdf' & c0 & j' & Hkdf & Hf' & Hck & [-> | (Hnone & Hlen & our & x & y & Hour & Hx & Hy & -> & ->)]).
  - destruct Hk as [(l1 & e & l2 & Hlt & Hl12 & He & Hl1 & ->)|[Hn ->]].
    + apply (key_stored C s v _ _ c l1 e l2); try done. apply receiving_iff. eauto.
    + apply (key_stepped C s v _ _ c); [|done]. apply receiving_iff. eauto.
  - rewrite Hv, createFor_ok in Hkdf by done. injection Hkdf as <-.
    rewrite Hf in Hf'. injection Hf' as -> ->. clear Hck.
    assert (our_public_ok s /\ kp_priv our = our_private s) as [Hpub Hpriv].
    { unfold st_getSenderRatchetKeyPair, st_getSenderRatchetKey in Hour.
      apply bind_ok_inv in Hour as (pub & Hp & [= <-]). apply decode_iff in Hp as (t & Ht & _).
      unfold st_senderChain in *. unfold our_public_ok, our_private.
      destruct (ss_senderChain s) as [sc|]; [|done]. rewrite default_Some in *. eauto. }
    pose proof (rk_createChain_inv C _ _ _ _ Hx) as (_ & Hpl & _).
    destruct (dh_chain_eq v (default [] (ss_rootKey s)) (our_private s) key our Hlen) as (x' & Hx' & _ & Hx2).
    { by rewrite <- Hpriv. } { done. }
    rewrite Hx in Hx'. injection Hx' as <-.
    destruct Hk as [(l1 & e & l2 & _ & Hl12 & _)|[Hn ->]].
    { cbn in Hl12. by destruct l1. }
    rewrite Hx2 in *. cbn [newChain next_index next_key ch_chainKey ck_index ck_key cIndex cKey default] in *.
    rewrite N.sub_0_r. apply key_new_chain; try done.
    { apply no_receiving_iff. done. } { unfold next_index in Hn. cbn in Hn. lia. } { by rewrite <- Hpriv. }
Qed.

Lemma ok_opens s m ek pt s' :
  8 <= length (wSerialized m) -> decryptPure C s m ek = Ok (pt, s') -> opens C s m pt.
Proof using Hok.
  intros Hl (Hsc & Hv & kdf & c & j & s1 & c' & Hkdf & Hstep & Hf & Ho & ->)%decryptPure_ok_inv.
  set (v := st_getSessionVersion s) in *.
  apply createFor_inv in Hkdf as [-> Hv23].
  destruct (openWith_iff v c s m pt Hl Hv) as (k & local & remote & Hk & Hr & Hlo & Ha & Hc); [eauto|].
  exists v, k, local, remote. split_and!; try done.
  { by apply version_of_iff. }
  { unfold st_hasSenderChain in Hsc. by destruct (ss_senderChain s). }
  by eapply step_message_key.
Qed.

Lemma opens_ok s m ek pt :
  8 <= length (wSerialized m) -> kp_ok ek -> (wCounter m + 1 < 2 ^ 32)%N -> ss_wf s ->
  opens C s m pt -> exists s', decryptPure C s m ek = Ok (pt, s').
Proof using Hok.
  intros Hl [Hek1 Hek2] Hn Hwf (v & k & local & remote & Hv & Hmv & Hv23 & [sc Hsc] & Hk & Hr & Hlo & Ha & Hc).
  apply version_of_iff in Hv.
  assert (st_hasSenderChain s = true) as Hhas by (unfold st_hasSenderChain; by rewrite Hsc).
  assert (hkdf_createFor (st_getSessionVersion s) = Ok (N.of_nat (first_block v))) as Hkdf by (rewrite Hv; by apply createFor_ok).
  assert (forall c s1 j, chainStep C s (wRatchetKey m) ek = Ok (ch_getChainKey (N.of_nat (first_block v)) c, s1) ->
    find_chain (wRatchetKey m) (ss_receiverChains s1) 0 = Ok (Some (c, j)) -> key_in v c (wCounter m) k ->
    exists s', decryptPure C s m ek = Ok (pt, s')) as Hgo.
  { intros c s1 j Hstep Hf Hkin.
    destruct (openWith_opens v c s m pt k local remote) as (c' & Ho); try done.
    rewrite (decryptPure_step C s m ek (N.of_nat (first_block v)) _ s1 c j Hhas) by (done || congruence).
    rewrite Ho, bind_ok. eauto. }
  assert (forall c, receiving s (wRatchetKey m) c -> key_in v c (wCounter m) k ->
     exists s', decryptPure C s m ek = Ok (pt, s')) as Hgo1.
  { intros c (j & Hf)%receiving_iff Hkin. apply (Hgo c s j); [|done|done].
    unfold chainStep, st_hasReceiverChain, st_getReceiverChain. rewrite Hf, !bind_ok.
    unfold st_getReceiverChainKey. rewrite (theReceiverChain_ok _ _ _ Hf), bind_ok, Hkdf. done. }
  destruct Hk as [c l1 e l2 Hrc Hlt Hl12 He Hl1|c Hrc Hn'|Hno Hn' Hlen Hpl Hpub].
  - apply (Hgo1 c); [done|]. left. exists l1, e, l2. done.
  - apply (Hgo1 c); [done|]. right. done.
  - apply no_receiving_iff in Hno.
    destruct Hpub as (sc' & t & Hsc' & Ht).
    rewrite Hsc in Hsc'. injection Hsc' as <-.
    set (our := KeyPair (take 32 t) (our_private s)).
    assert (st_getSenderRatchetKeyPair s = Ok our) as Hour.
    { unfold st_getSenderRatchetKeyPair, st_getSenderRatchetKey, st_senderChain, our, our_private. rewrite Hsc, default_Some.
      rewrite (proj2 (decode_iff (ch_ratchetKey sc) (take 32 t))) by eauto. done. }
    destruct (dh_chain_eq v (default [] (ss_rootKey s)) (our_private s) (wRatchetKey m) our Hlen Hpl eq_refl) as (x & Hx & Hx1 & Hx2).
    destruct (rk_createChain C x.1 (wRatchetKey m) ek) as [y|] eqn:Hy.
    2: { rewrite (rk_createChain_ok C) in Hy by done. done. }
    pose proof (rk_createChain_inv C _ _ _ _ Hy) as (_ & _ & _ & Hyk & Hyi).
    pose proof (rk_createChain_inv C _ _ _ _ Hx) as (_ & _ & _ & Hxk & Hxi).
    apply (Hgo (newChain (wRatchetKey m) x.2) (steppedState s (wRatchetKey m) x.2 y.1 ek y.2)
      (length (trimChains (ss_receiverChains s ++ [newChain (wRatchetKey m) x.2])) - 1)%nat).
    + rewrite (chainStep_new s _ ek our _ x y Hno Hkdf Hour Hx Hy) by done. f_equal. f_equal.
      rewrite getChainKey_eq. unfold next_index, next_key. cbn [newChain ch_chainKey ck_index ck_key].
      by rewrite Hx2.
    + apply find_trim; [done|by apply newChain_pub].
    + right. unfold next_index, next_key. cbn [newChain ch_chainKey ck_index ck_key]. rewrite Hx2. cbn [cIndex cKey]. rewrite !default_Some.
      split; [lia|]. by rewrite N.sub_0_r.
Qed.

(** ** C05 *)

Lemma states_lookup rec j s : sr_states rec !! j = Some s -> s ∈ states rec.
Proof. apply elem_of_list_lookup_2. Qed.

Lemma msg_authentic w r d bs m pt w' :
  whisper_parse bs = Ok m -> run (decryptMsg C r d m) w = (Ok pt, w') ->
  exists rec s, session_at w r d = Ok rec /\ s ∈ states rec /\ opens C s m pt.
Proof using Hok.
  intros Hp H. apply decryptMsg_ok in H as (rec & rec' & _ & Hrec & (j & s & ek & s' & Hj & Hd & _) & _).
  exists rec, s. split_and!; [done|by eapply states_lookup|].
  eapply ok_opens; [|exact Hd]. pose proof (whisper_parse_length _ _ Hp). apply whisper_parse_inv in Hp as [-> _]. lia.
Qed.

Lemma agreement_inv pub priv a : calculateAgreement C pub priv = Ok a -> a = agree C priv pub.
Proof.
  unfold calculateAgreement, c_calculateAgreement. case_match; [|done]. by intros [= <-].
Qed.

Lemma load_signed i w x w' : run (do (CLoadSignedPreKey i)) w = (Ok x, w') ->
  w' = w /\ exists bs, w_signed w !! i = Some bs /\ spr_parse bs = Ok x.
Proof.
  rewrite run_do. cbn [step_call]. intros H. injection H as H <-. split; [done|].
  destruct (w_signed w !! i) as [bs|]; [|done]. exists bs. split; [done|]. unfold signedprekeyrecord_parse in H. by destruct bs.
Qed.
Lemma load_prekey i w x w' : run (do (CLoadPreKey i)) w = (Ok x, w') ->
  w' = w /\ exists bs, w_prekeys w !! i = Some bs /\ pr_parse bs = Ok x.
Proof.
  rewrite run_do. cbn [step_call]. intros H. injection H as H <-. split; [done|].
  destruct (w_prekeys w !! i) as [bs|]; [|done]. exists bs. split; [done|]. unfold prekeyrecord_parse in H. by destruct bs.
Qed.
Lemma stored_keypair_inv a b kp : stored_keypair a b = Ok kp -> kp_priv kp = default [] b.
Proof. unfold stored_keypair. by intros (x & _ & [= <-])%bind_ok_inv. Qed.
Lemma run_lift_inv {A} (x : res A) w a w' : run (lift x) w = (Ok a, w') -> x = Ok a /\ w' = w.
Proof. rewrite run_lift. by intros [= -> ->]. Qed.

Lemma processV3_new w r d rec m x w1 :
  session_at w r d = Ok rec -> run (processV3 C rec m) w = (Ok x, w1) ->
  (x = (rec, None)) \/
  exists s, new_session C w m s /\ sr_state x.1 = s /\ sr_previous x.1 = sr_previous (archiveUnlessFresh rec).
Proof using Hok.
  intros Hrec. unfold processV3. destruct (sr_hasSessionState _ _ _) eqn:E.
  { intros [= <- <-]. by left. }
  intros H. right.
  apply run_bind_ok in H as (spr & w2 & [-> (sbs & Hsb & Hspr)]%load_signed & H).
  apply run_bind_ok in H as (spk & w2 & [Hspk ->]%run_lift_inv & H).
  apply run_bind_ok in H as (id & w2 & Hid & H). rewrite run_do in Hid. injection Hid as <- <-.
  apply run_bind_ok in H as (otpk & w2 & Hotpk & H).
  assert (w2 = w /\ match pPreKeyId m with
    | Some i => exists bs pr, w_prekeys w !! i = Some bs /\ pr_parse bs = Ok pr /\ kp_priv <$> otpk = Some (default [] (pr_privateKey pr))
    | None => kp_priv <$> otpk = None end) as [-> Hot].
  { destruct (pPreKeyId m) as [i|]; [|by injection Hotpk as <- <-].
    apply run_bind_ok in Hotpk as (pr & w3 & [-> (bs & Hb & Hpr)]%load_prekey & Hotpk).
    apply run_bind_ok in Hotpk as (kp & w3 & [Hkp ->]%run_lift_inv & [= <- <-]).
    split; [done|]. exists bs, pr. split_and!; [done..|]. apply stored_keypair_inv in Hkp. cbn. by rewrite Hkp. }
  apply run_bind_ok in H as (s & w2 & [Hs ->]%run_lift_inv & H).
  apply run_bind_ok in H as (reg & w2 & Hreg & H). rewrite run_do in Hreg. injection Hreg as <- <-.
  apply run_bind_ok in H as (s1 & w2 & [Hs1 ->]%run_lift_inv & H).
  apply run_bind_ok in H as (s2 & w2 & [Hs2 ->]%run_lift_inv & H).
  injection H as <- <-. cbn [fst sr_setState sr_state sr_previous].
  eexists. split_and!; [|done|done].
  rewrite (archived_state _ _ _ _ Hrec) in Hs. unfold initializeSessionAsBob in Hs.
  apply bind_ok_inv in Hs as (a1 & ->%agreement_inv & Hs).
  apply bind_ok_inv in Hs as (a2 & ->%agreement_inv & Hs).
  apply bind_ok_inv in Hs as (a3 & ->%agreement_inv & Hs).
  apply bind_ok_inv in Hs as (a4 & Ha4 & Hs).
  assert (a4 = match kp_priv <$> otpk with Some k => agree C k (pBaseKey m) | None => [] end) as ->.
  { destruct otpk as [k|]; cbn; [by apply agreement_inv|by injection Ha4 as <-]. }
  rewrite calculateDerivedKeys_eq in Hs.
  apply bind_ok_inv in Hs as (s' & Hs' & [= <-]).
  apply bind_ok_inv in Hs' as (c' & [-> _]%ch_putChainKey_inv & [= <-]).
  apply bind_ok_inv in Hs1 as (? & _ & [= <-]). apply bind_ok_inv in Hs2 as (? & _ & [= <-]).
  apply stored_keypair_inv in Hspk.
  exists sbs, spr, (kp_priv <$> otpk). split_and!; try done.
  cbv zeta. split_and!; try done.
  rewrite <- Hspk. set (secret := replicate 32 xff ++ _).
  change (Some (take 32 (hkdf_deriveSecrets C (N.of_nat 1) secret (ascii "WhisperText") 64 []))
    = Some (take 32 (rfc_hkdf (hmac256 C) 1 None secret (ascii "WhisperText") 64))).
  rewrite (derive_rfc C Hok) by (cbn; lia). done.
Qed.

Lemma pkmsg_authentic w r d bs m pt w' :
  prekey_parse bs = Ok m -> run (decryptPkmsg C r d m) w = (Ok pt, w') ->
  exists rec s, session_at w r d = Ok rec /\ (s ∈ states rec \/ new_session C w m s) /\ opens C s (pMessage m) pt.
Proof using Hok.
  intros Hp (rec & rec1 & used & w1 & rec2 & w2 & Hrec & _ & HV & _ & Hd & _)%decryptPkmsg_ok.
  pose proof (pspec_run _ _ _ _ _ (pspec_decryptWithSessionRecord C _ _ rec1 (pMessage m)) Hd) as (j & s & ek & s' & Hj & Hdd & _).
  exists rec, s. split; [done|]. split.
  - apply states_lookup in Hj. destruct (processV3_new _ _ _ _ _ _ _ Hrec HV) as [Hx|(s0 & Hn & Hs & Hpr)].
    + injection Hx as -> ->. by left.
    + cbn [fst] in *. apply elem_of_cons in Hj as [->|Hin]; [right; by rewrite Hs|]. left. rewrite Hpr in Hin.
      unfold archiveUnlessFresh in Hin. destruct (sr_fresh rec) eqn:E; [by apply elem_of_cons; right|].
      cbn [sr_archiveCurrentState sr_promoteState sr_previous] in Hin. case_match; [|done].
      by eapply (elem_of_submseteq _ _ _ Hin), sublist_submseteq, sublist_take.
  - eapply ok_opens; [|exact Hdd]. apply prekey_parse_inv in Hp as (_ & _ & _ & _ & _ & _ & _ & Hp).
    pose proof (whisper_parse_length _ _ Hp). lia.
Qed.
End keys.

(** ** C07 *)

Section skip.
Context (C : crypto).

Lemma too_far s v m w c :
  version_of s v -> v = 2%N \/ v = 3%N -> receiving s (wRatchetKey m) c ->
  (next_index c + 2000 < wCounter m)%N ->
  run (decryptWithSessionState C s m) w = (Err EInvalidMessage, w).
Proof.
  intros Hv%version_of_iff Hv23 (j & Hf)%receiving_iff Hn. unfold decryptWithSessionState.
  destruct (negb (st_hasSenderChain s)); [done|]. destruct (negb _); [done|].
  rewrite run_bind. unfold getOrCreateChainKey, st_hasReceiverChain, st_getReceiverChain.
  rewrite run_bind, run_lift, Hf, bind_ok.
  unfold st_getReceiverChainKey. rewrite (theReceiverChain_ok _ _ _ Hf), bind_ok, run_bind, run_lift, Hv, createFor_ok, bind_ok by done.
  cbn [run]. cbn [fst snd]. rewrite run_lift, (getOrCreateMessageKeys_eq C _ _ _ _ _ _ Hf).
  unfold chainTake. rewrite getChainKey_eq. cbn [cIndex].
  rewrite (proj2 (N.ltb_ge _ _)) by lia. rewrite (proj2 (N.ltb_lt _ _)) by lia. done.
Qed.

Lemma too_far_new (Hok : crypto_ok C) s v m w :
  version_of s v -> v = 2%N \/ v = 3%N -> ss_wf s -> no_receiving s (wRatchetKey m) -> our_public_ok s ->
  length (wRatchetKey m) = 32 -> length (our_private s) = 32 -> (2000 < wCounter m)%N ->
  exists w', run (decryptWithSessionState C s m) w = (Err EInvalidMessage, w') /\ unchanged w w'.
Proof.
  intros Hv Hv23 Hwf Hno%no_receiving_iff (sc & t & Hsc & Ht) Hl1 Hl2 Hn.
  destruct (run_decryptWithSessionState C Hok s m w) as (w' & Hw' & ->). exists w'. split; [|by apply unchanged_same].
  f_equal. set (ek := kp_at C w (w_pos w)).
  destruct (st_hasSenderChain s) eqn:Hhas; [|unfold decryptPure; by rewrite Hhas].
  destruct (wVersion m =? st_getSessionVersion s)%N eqn:Hmv; [|unfold decryptPure; by rewrite Hhas, Hmv].
  apply N.eqb_eq in Hmv. apply version_of_iff in Hv.
  assert (hkdf_createFor (st_getSessionVersion s) = Ok (N.of_nat (first_block v))) as Hkdf by (rewrite Hv; by apply createFor_ok).
  set (our := KeyPair (take 32 t) (our_private s)).
  assert (st_getSenderRatchetKeyPair s = Ok our) as Hour.
  { unfold st_getSenderRatchetKeyPair, st_getSenderRatchetKey, st_senderChain, our, our_private. rewrite Hsc, default_Some.
    rewrite (proj2 (decode_iff (ch_ratchetKey sc) (take 32 t))) by eauto. done. }
  destruct (dh_chain_eq C Hok v (default [] (ss_rootKey s)) (our_private s) (wRatchetKey m) our Hl1 Hl2 eq_refl) as (x & Hx & Hx1 & Hx2).
  destruct (rk_createChain C x.1 (wRatchetKey m) ek) as [y|] eqn:Hy.
  2: { rewrite (rk_createChain_ok C) in Hy by (done || by apply kp_at_priv_len). done. }
  pose proof (chainStep_new C s _ ek our _ x y Hno Hkdf Hour Hx Hy Hwf) as Hstep.
  rewrite (decryptPure_step C s m ek (N.of_nat (first_block v)) _ _ (newChain (wRatchetKey m) x.2) _ Hhas Hmv Hstep
    (find_trim _ _ _ Hno (newChain_pub _ _ Hl1))).
  2: { rewrite getChainKey_eq. unfold next_index, next_key. cbn [newChain ch_chainKey ck_index ck_key]. by rewrite Hx2. }
  unfold openWith, chainTake. rewrite getChainKey_eq, Hx2.
  match goal with |- context [next_index ?c] => change (next_index c) with 0%N end. cbn [cIndex].
  rewrite (proj2 (N.ltb_ge _ _)) by lia. rewrite (proj2 (N.ltb_lt _ _)) by lia. done.
Qed.

(** One decryption adds at most 2000 stored keys. *)
Lemma chainTake_stored kdf c n y :
  chainTake C kdf c n = Ok y -> length (ch_messageKeys y.2) <= length (ch_messageKeys c) + 2000.
Proof.
  unfold chainTake. case_match.
  - destruct (take_messageKey n (ch_messageKeys c)) as [[e r]|] eqn:Et; [|done]. intros [= <-].
    apply take_messageKey_some in Et as (l1 & l2 & -> & -> & _). cbn [snd ch_messageKeys ch_set_messageKeys].
    rewrite !app_length. cbn. lia.
  - destruct (N.ltb_spec 2000 (n - cIndex (ch_getChainKey kdf c))) as [|Hle]; [done|]. case_match; [|done]. intros [= <-].
    cbn [snd ch_messageKeys ch_set_messageKeys ch_set_chainKey]. rewrite app_length, map_length, seq_length. cbn [ch_getChainKey cIndex] in Hle. lia.
Qed.

Lemma sum_cons (x : nat) l : sum_list (x :: l) = x + sum_list l.
Proof. done. Qed.
Lemma sum_insert (l : list ch_s) j c c' (f : ch_s -> nat) k :
  l !! j = Some c -> f c' <= f c + k -> sum_list (f <$> <[j:=c']> l) <= sum_list (f <$> l) + k.
Proof.
  revert j. induction l as [|x l IH]; intros [|j]; try done.
  - intros [= ->] H. change (<[0:=c']> (c :: l)) with (c' :: l). rewrite !fmap_cons, !sum_cons. lia.
  - intros Hj H. specialize (IH j Hj H). change (<[S j:=c']> (x :: l)) with (x :: <[j:=c']> l).
    rewrite !fmap_cons, !sum_cons. lia.
Qed.
Lemma sum_app (f : ch_s -> nat) l1 l2 : sum_list (f <$> l1 ++ l2) = sum_list (f <$> l1) + sum_list (f <$> l2).
Proof. induction l1 as [|x l1 IH]; [done|]. cbn [app]. rewrite !fmap_cons, !sum_cons, IH. lia. Qed.
Lemma sum_trim (f : ch_s -> nat) l : sum_list (f <$> trimChains l) <= sum_list (f <$> l).
Proof. unfold trimChains. case_match; [|done]. destruct l as [|x l]; [done|]. cbn [drop]. rewrite !fmap_cons, !sum_cons, drop_0. lia. Qed.

Lemma decryptPure_stored s m ek pt s' :
  decryptPure C s m ek = Ok (pt, s') -> keys_stored s' <= keys_stored s + 2000.
Proof.
  intros (Hsc & Hv & kdf & c & j & s1 & c' & Hkdf & Hstep & Hf & Ho & ->)%decryptPure_ok_inv.
  assert (length (ch_messageKeys c') <= length (ch_messageKeys c) + 2000) as Hc.
  { unfold openWith in Ho. apply bind_ok_inv in Ho as (y & Hy%chainTake_stored & Ho).
    do 4 (apply bind_ok_inv in Ho as (? & _ & Ho)). by injection Ho as _ <-. }
  assert (keys_stored s1 <= keys_stored s) as Hs1.
  { apply chainStep_inv in Hstep as (kdf' & c0 & j' & _ & _ & _ & [->|(_ & _ & our & x & y & _ & _ & _ & _ & ->)]); [done|].
    unfold keys_stored, steppedState. cbn [ss_set_senderChain ss_set_previousCounter ss_set_receiverChains ss_set_rootKey ss_receiverChains].
    etrans; [apply sum_trim|]. rewrite sum_app, fmap_cons, sum_cons. cbn [length newChain ch_messageKeys]. rewrite fmap_nil. change (sum_list []) with 0. lia. }
  unfold keys_stored, st_clearUnacknowledgedPreKeyMessage, st_putReceiverChain in *.
  cbn [ss_set_pendingPreKey ss_set_receiverChains ss_receiverChains].
  etrans; [eapply (sum_insert _ _ _ _ (fun c => length (ch_messageKeys c))); [by eapply find_chain_lookup|exact Hc]|]. lia.
Qed.

Lemma state_stored s m w pt s' :
  (run (decryptWithSessionState C s m) w).1 = Ok (pt, s') -> keys_stored s' <= keys_stored s + 2000.
Proof.
  intros H. destruct (run (decryptWithSessionState C s m) w) as [o w'] eqn:E. cbn in H. subst o.
  destruct (pspec_run _ _ _ _ _ (pspec_decryptWithSessionState C (fun _ => True) (fun _ => True) s m) E) as (ek & Hek).
  by eapply decryptPure_stored.
Qed.

Lemma stored_perm l1 l2 : l1 ≡ₚ l2 -> keys_stored_all l1 = keys_stored_all l2.
Proof. unfold keys_stored_all. induction 1; rewrite ?fmap_cons, ?sum_cons; lia. Qed.
Lemma stored_take n l : keys_stored_all (take n l) <= keys_stored_all l.
Proof. unfold keys_stored_all. revert n. induction l as [|x l IH]; intros [|n]; cbn [take]; [rewrite ?fmap_nil; cbn; lia..|]. specialize (IH n). rewrite !fmap_cons, !sum_cons. lia. Qed.

Lemma stored_front s n (b : bool) l :
  keys_stored_all (s :: (if b then take n l else l)) <= keys_stored s + keys_stored_all l.
Proof.
  change (keys_stored s + keys_stored_all (if b then take n l else l) <= keys_stored s + keys_stored_all l).
  apply Nat.add_le_mono_l. destruct b; [apply stored_take|done].
Qed.

Lemma decrypted_stored rec m pt rec' :
  decrypted C rec m pt rec' -> keys_stored_all (states rec') <= keys_stored_all (states rec) + 2000.
Proof.
  intros (j & s & ek & s' & Hj & Hd & ->). apply decryptPure_stored in Hd.
  destruct j as [|i]; cbn [record_after].
  - injection Hj as <-. unfold keys_stored_all, states. cbn [sr_setState sr_state sr_previous]. rewrite !fmap_cons, !sum_cons. lia.
  - cbn in Hj. unfold states, sr_promoteState. cbn [sr_state sr_previous].
    set (l := sr_state rec :: delete i (sr_previous rec)).
    etrans; [apply stored_front|].
    change (keys_stored_all (sr_state rec :: sr_previous rec)) with (keys_stored (sr_state rec) + keys_stored_all (sr_previous rec)).
    rewrite (stored_perm (sr_previous rec) (s :: delete i (sr_previous rec))) by (by apply delete_Permutation).
    unfold l, keys_stored_all. rewrite !fmap_cons, !sum_cons. lia.
Qed.

Lemma msg_stored w r d m pt w' rec :
  reachable C w -> run (decryptMsg C r d m) w = (Ok pt, w') -> session_at w r d = Ok rec ->
  exists rec', session_at w' r d = Ok rec' /\ keys_stored_all (states rec') <= keys_stored_all (states rec) + 2000.
Proof.
  intros Hr%reachable_inv (rec0 & rec' & _ & Hrec0 & Hd & w1 & _ & ->)%decryptMsg_ok Hrec. rewrite Hrec in Hrec0. injection Hrec0 as <-.
  pose proof (decrypted_inv C _ _ _ _ (proj1 (Hr _ _ _ Hrec)) Hd) as [Hwf _].
  eexists. split; [by apply session_stored|]. by apply decrypted_stored in Hd.
Qed.

Lemma pkmsg_stored (Hok : crypto_ok C) w r d m pt w' rec :
  reachable C w -> run (decryptPkmsg C r d m) w = (Ok pt, w') -> session_at w r d = Ok rec ->
  exists rec', session_at w' r d = Ok rec' /\ keys_stored_all (states rec') <= keys_stored_all (states rec) + 2000.
Proof.
  intros Hr%reachable_inv (rec0 & rec1 & used & w1 & rec2 & w2 & Hrec0 & _ & HV & Hs1 & Hd & Hs2 & ->)%decryptPkmsg_ok Hrec.
  rewrite Hrec in Hrec0. injection Hrec0 as <-.
  pose proof (pspec_run _ _ _ _ _ (pspec_decryptWithSessionRecord C _ _ rec1 (pMessage m)) Hd) as Hdec. cbn [fst snd] in Hdec.
  pose proof (processV3_inv C _ _ _ _ _ _ Hr (Hr _ _ _ Hrec) HV) as Hi1.
  pose proof (decrypted_inv C _ _ _ _ Hi1 Hdec) as [Hwf _].
  exists (SessionRecord false (sr_state rec2) (sr_previous rec2)). split.
  { pose proof (session_stored w2 r d rec2 Hwf) as Hss. by destruct used. }
  apply decrypted_stored in Hdec. etrans; [exact Hdec|]. apply Nat.add_le_mono_r.
  destruct (processV3_new C Hok _ _ _ _ _ _ _ Hrec HV) as [Hx|(s0 & Hn & Hs & Hpr)]; [by injection Hx as -> ->|].
  cbn [fst] in *. unfold states. rewrite Hs, Hpr.
  destruct Hn as (? & ? & ? & _ & _ & _ & _ & _ & _ & Hrc & _).
  unfold archiveUnlessFresh. destruct (sr_fresh rec) eqn:E.
  - unfold keys_stored_all. rewrite !fmap_cons, !sum_cons. unfold keys_stored at 1. rewrite Hrc. cbn [fmap list_fmap]. change (sum_list []) with 0. lia.
  - cbn [sr_archiveCurrentState sr_promoteState sr_previous].
    etrans; [apply stored_front|]. unfold keys_stored at 1. by rewrite Hrc.
Qed.

Lemma msg_accepted (Hok : crypto_ok C) w r d bs m pt rec :
  whisper_parse bs = Ok m -> is_Some (w_sessions w !! (r, d)) -> session_at w r d = Ok rec -> ss_wf (sr_state rec) ->
  (wCounter m + 1 < 2 ^ 32)%N -> opens C (sr_state rec) m pt ->
  exists w', run (decryptMsg C r d m) w = (Ok pt, w').
Proof.
  intros Hp Hs Hrec Hwf Hn Ho. unfold decryptMsg. rewrite run_bind, run_do. cbn [step_call].
  rewrite bool_decide_eq_true_2 by done. rewrite run_bind, run_do, load_session, Hrec, run_bind.
  unfold decryptWithSessionRecord. rewrite run_catch, run_bind.
  destruct (run_decryptWithSessionState C Hok (sr_state rec) m w) as (w1 & _ & ->).
  destruct (opens_ok C Hok (sr_state rec) m (kp_at C w (w_pos w)) pt) as (s' & ->).
  - pose proof (whisper_parse_length _ _ Hp). apply whisper_parse_inv in Hp as [-> _]. lia.
  - by apply kp_at_ok.
  - done.
  - done.
  - done.
  - cbn [run]. rewrite run_bind, run_do. cbn [step_call]. eauto.
Qed.
Lemma state_accepts (Hok : crypto_ok C) s m pt bs w :
  whisper_parse bs = Ok m -> ss_wf s -> (wCounter m + 1 < 2 ^ 32)%N -> opens C s m pt ->
  exists s', (run (decryptWithSessionState C s m) w).1 = Ok (pt, s').
Proof.
  intros Hp Hwf Hn Ho. destruct (run_decryptWithSessionState C Hok s m w) as (w1 & _ & ->).
  apply (opens_ok C Hok); try done; [|by apply kp_at_ok].
  pose proof (whisper_parse_length _ _ Hp). apply whisper_parse_inv in Hp as [-> _]. lia.
Qed.
End skip.
