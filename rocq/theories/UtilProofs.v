(** Proofs of the utility properties. *)
From Verif Require Import PyBase Wire Protos Crypto Ecc Kdf Messages State Prog ProgFacts Ratchet Builder Helper.
From Verif Require Import SpecUtil UtilFacts HelperFacts Toy.

Lemma derive_rfc_v3 C : crypto_ok C -> forall ikm info L salt, ((L + 31) / 32 <= 127)%nat ->
  hkdf_deriveSecrets C hkdf_v3 ikm info L salt
  = rfc_hkdf (hmac256 C) 1 (match salt with [] => None | _ => Some salt end) ikm info L.
Proof. intros Hok ikm info L salt HL. apply (derive_rfc C Hok 1). lia. Qed.

Lemma derive_rfc_v2 C : crypto_ok C -> forall ikm info L salt, ((L + 31) / 32 <= 128)%nat ->
  hkdf_deriveSecrets C hkdf_v2 ikm info L salt
  = rfc_hkdf (hmac256 C) 0 (match salt with [] => None | _ => Some salt end) ikm info L.
Proof. intros Hok ikm info L salt HL. apply (derive_rfc C Hok 0). lia. Qed.

(** A crypto instance whose MAC only depends on the length of the message. *)
Definition with_hmac (f : bytes -> bytes -> bytes) (C : crypto) : crypto :=
  Crypto f (genPriv C) (genPub C) (agree C) (sign C) (verify C) (aesE C) (aesD C).
Lemma with_hmac_ok f C : crypto_ok C -> (forall k m, length (f k m) = 32) -> crypto_ok (with_hmac f C).
Proof. intros [H1 H2 H3 H4 H5 H6 H7 H8 H9] Hf. by split. Qed.
Definition lentoy : crypto := with_hmac (fun k m => replicate 32 (n2b (N.of_nat (length m)))) toy.
Lemma lentoy_ok : crypto_ok lentoy.
Proof. apply with_hmac_ok; [exact toy_ok|]. intros. apply replicate_length. Qed.

Lemma derive_rfc_refuted : exists C, crypto_ok C /\ exists ikm info L salt,
  (L <= 255 * 32)%nat /\
  hkdf_deriveSecrets C hkdf_v3 ikm info L salt
  <> rfc_hkdf (hmac256 C) 1 (match salt with [] => None | _ => Some salt end) ikm info L.
Proof.
  exists lentoy. split; [exact lentoy_ok|]. exists [], [], (128 * 32)%nat, []. split; [lia|].
  intros H. apply (f_equal last) in H. vm_compute in H. discriminate H.
Qed.

Lemma nth_message_keys C : crypto_ok C -> forall c n,
  let key_n := Nat.iter n (fun k => hmac256 C k [x02]) (cKey c) in
  let c_n := Nat.iter n (ck_next C) c in
  let mk := ck_messageKeys C c_n in
  cKey c_n = key_n /\ cIndex c_n = (cIndex c + N.of_nat n)%N /\
  mCipher mk ++ mMac mk ++ mIv mk
    = hkdf_deriveSecrets C (cKdf c) (hmac256 C key_n [x01]) (str "WhisperMessageKeys") 80 [] /\
  length (mCipher mk) = 32 /\ length (mMac mk) = 32 /\ length (mIv mk) = 16 /\
  mCounter mk = (cIndex c + N.of_nat n)%N.
Proof.
  intros Hok c n. cbv zeta. rewrite ck_next_iter. cbn [cKey cIndex].
  split; [done|]. split; [done|].
  pose proof (ck_messageKeys_lengths C Hok (ChainKey (cKdf c) (Nat.iter n (fun k => hmac256 C k [x02]) (cKey c)) (cIndex c + N.of_nat n))) as (?&?&?).
  split; [|by rewrite ck_messageKeys_counter].
  rewrite ck_messageKeys_split by done. cbn [mCipher mMac mIv cKdf cKey].
  set (okm := hkdf_deriveSecrets _ _ _ _ _ _).
  assert (length okm = 80) as Hl by by apply derive_length.
  rewrite (take_ge (drop 64 okm)) by (rewrite drop_length; lia).
  replace (drop 64 okm) with (drop 32 (drop 32 okm)) by (by rewrite drop_drop).
  by rewrite !take_drop.
Qed.

Lemma nth_sender_key C : crypto_ok C -> forall c n,
  let key_n := Nat.iter n (fun k => hmac256 C k [x02]) (scKey c) in
  let c_n := Nat.iter n (sck_next C) c in
  let mk := sck_messageKey C c_n in
  scKey c_n = key_n /\ scIteration c_n = (scIteration c + N.of_nat n)%N /\
  smSeed mk = hmac256 C key_n [x01] /\
  smIv mk ++ smCipher mk = hkdf_deriveSecrets C hkdf_v3 (smSeed mk) (str "WhisperGroup") 48 [] /\
  length (smIv mk) = 16 /\ length (smCipher mk) = 32 /\
  smIteration mk = (scIteration c + N.of_nat n)%N.
Proof.
  intros Hok c n. cbv zeta. rewrite sck_next_iter. cbn [scKey scIteration].
  rewrite sck_messageKey_split. cbn [smSeed smIv smCipher smIteration scKey scIteration].
  set (okm := hkdf_deriveSecrets _ _ _ _ _ _).
  assert (length okm = 48) as Hl by by apply derive_length.
  split_and!; try done.
  - rewrite (take_ge (drop 16 okm)) by (rewrite drop_length; lia). by rewrite take_drop.
  - rewrite take_length. lia.
  - rewrite take_length, drop_length. lia.
Qed.

Lemma consecutive_map start (f : nat -> Z) l i :
  (forall k, f (S k) = next_prekey_id (f k)) -> l = map f (seq i start) -> consecutive l.
Proof.
  intros Hf. revert i l. induction start as [|n IH]; intros i l ->; [done|].
  cbn [seq map]. destruct n as [|n]; [done|]. cbn [seq map]. split; [apply Hf|].
  by apply (IH (S i)).
Qed.

Lemma prekey_ids C : crypto_ok C -> forall start count w,
  exists l w', run (generatePreKeys C start count) w = (Ok l, w') /\ length l = count /\
    let ids := map (fun r => Z.of_N (prekeyrecord_getId r)) l in
    Forall (fun i => 1 <= i <= max_prekey_id)%Z ids /\
    consecutive ids /\
    ((1 <= start <= max_prekey_id)%Z -> (0 < count)%nat -> head ids = Some start) /\
    ((Z.of_nat count <= max_prekey_id)%Z -> NoDup ids).
Proof.
  intros Hok start count w. unfold generatePreKeys. rewrite generatePreKeys_run by done.
  eexists _, _. split; [done|]. split; [by rewrite map_length, seq_length|]. cbv zeta.
  rewrite map_map.
  match goal with |- context [map ?f (seq 0 count)] =>
    assert (map f (seq 0 count) = map (preKeyId_at start) (seq 0 count)) as -> end.
  { apply map_ext. intros k.
    change (Z.of_N (Z.to_N (preKeyId_at start k)) = preKeyId_at start k). rewrite Z2N.id; [done|].
    pose proof (preKeyId_range start k). lia. }
  split_and!.
  - apply Forall_map, Forall_true. intros k. apply preKeyId_range.
  - eapply consecutive_map; [|done]. intros k. apply preKeyId_next.
  - intros Hs Hc. destruct count as [|n]; [lia|]. cbn [seq map head]. f_equal. by apply preKeyId_first.
  - intros Hc. change (map (preKeyId_at start) (seq 0 count)) with (preKeyId_at start <$> seq 0 count).
    apply (NoDup_fmap_2_strong (preKeyId_at start)).
    + intros i j Hi Hj Heq. rewrite elem_of_seq in *.
      destruct (Nat.lt_trichotomy i j) as [Hl|[?|Hl]]; [|done|].
      * exfalso. eapply (preKeyId_inj start i j); [done|lia|done].
      * exfalso. eapply (preKeyId_inj start j i); [done|lia|done].
    + apply NoDup_seq.
Qed.

Lemma prekey_pairs C : crypto_ok C -> forall start count w l w',
  run (generatePreKeys C start count) w = (Ok l, w') ->
  Forall (fun r => exists k, length k = 32 /\ prekeyrecord_getKeyPair r = Ok (KeyPair (genPub C k) k)) l.
Proof.
  intros Hok start count w l w'. unfold generatePreKeys. rewrite generatePreKeys_run by done.
  intros [= <- _]. apply Forall_map, Forall_true. intros k.
  exists (kp_priv (kp_at C w (w_pos w + k))). split; [by apply kp_at_priv_len|].
  pose proof (kp_at_pub_len C Hok w (w_pos w + k)) as H.
  unfold prekeyrecord_getKeyPair, stored_keypair. cbn [pr_publicKey pr_privateKey compose].
  change (default [] (Some ?x)) with x.
  rewrite decodePoint_serialize by (apply Nat.eq_le_incl; exact H). done.
Qed.

Lemma registration_id ext w : exists v w',
  run (generateRegistrationId ext) w = (Ok v, w') /\ (1 <= v <= (if ext then 2147483646 else 16380))%N.
Proof.
  unfold generateRegistrationId. rewrite run_bind, run_getRandomSequence by (by destruct ext).
  rewrite run_ret. eexists _, _. split; [done|].
  pose proof (be_val_mod_lt (w_tape w (w_pos w)) (if ext then 2147483646 else 16380) ltac:(by destruct ext)) as H.
  revert H. generalize (be_val (w_tape w (w_pos w)) mod (if ext then 2147483646 else 16380))%N.
  intros v Hv. destruct ext; lia.
Qed.

Lemma sender_key_id w : exists v w', run generateSenderKeyId w = (Ok v, w') /\ (v <= 2147483646)%N.
Proof.
  unfold generateSenderKeyId. rewrite run_getRandomSequence by done. eexists _, _. split; [done|].
  pose proof (be_val_mod_lt (w_tape w (w_pos w)) 2147483647 ltac:(done)) as H.
  revert H. generalize (be_val (w_tape w (w_pos w)) mod 2147483647)%N. intros v Hv. lia.
Qed.

Lemma registration_id_onto ext v : (1 <= v <= (if ext : bool then 2147483646 else 16380))%N ->
  forall w, exists tape, forall n w', w' = World (w_sessions w) (w_prekeys w) (w_signed w) (w_trusted w)
     (w_identity w) (w_regid w) (w_senderkeys w) tape n -> (run (generateRegistrationId ext) w').1 = Ok v.
Proof.
  intros Hv w. destruct (be_val_surj (v - 1)) as [b Hb]. exists (fun _ => b). intros n w' ->.
  unfold generateRegistrationId. rewrite run_bind, run_getRandomSequence by (by destruct ext).
  rewrite run_ret. cbn [fst w_tape]. rewrite Hb. f_equal.
  rewrite N.mod_small; [lia|]. destruct ext; lia.
Qed.

Lemma address_eq_parts a b : address_eqb a b = true <-> aName a = aName b /\ aDevice a = aDevice b.
Proof. rewrite address_eqb_spec. destruct a, b; cbn. split; [by intros [= -> ->]|by intros [-> ->]]. Qed.

Lemma skname_eq_parts a b : skname_eqb a b = true <->
  nGroup a = nGroup b /\ aName (nSender a) = aName (nSender b) /\ aDevice (nSender a) = aDevice (nSender b).
Proof. rewrite skname_eqb_spec. destruct a as [? []], b as [? []]; cbn. split; [by intros [= -> -> ->]|by intros (-> & -> & ->)]. Qed.

Lemma equal_hash_alike h : (forall a b, address_eqb a b = true -> address_hash h a = address_hash h b) /\
  (forall a b, skname_eqb a b = true -> skname_hash h a = skname_hash h b).
Proof. split; intros a b H; [apply address_eqb_spec in H|apply skname_eqb_spec in H]; by subst. Qed.

Lemma skname_serialize_refuted : exists a b, skname_eqb a b = false /\ skname_serialize a = skname_serialize b.
Proof.
  exists (SenderKeyNameObj "a::b" (AxolotlAddress "c" 1)), (SenderKeyNameObj "a" (AxolotlAddress "b::c" 1)).
  by vm_compute.
Qed.

(** *** Injectivity of the serialised name when the sender contains no colon *)

Notation chars := String.list_ascii_of_string.
Notation colon := (Ascii.ascii_of_nat 58).

Lemma chars_app a b : chars (String.append a b) = chars a ++ chars b.
Proof. induction a as [|x a IH]; [done|].
  change (x :: chars (String.append a b) = x :: (chars a ++ chars b)). by rewrite IH. Qed.
Lemma chars_inj a b : chars a = chars b -> a = b.
Proof. intros H. by rewrite <- (String.string_of_list_ascii_of_string a), H, String.string_of_list_ascii_of_string. Qed.

Lemma last_sep_inj {A} (c : A) l1 l2 d1 d2 :
  Forall (fun x => x <> c) d1 -> Forall (fun x => x <> c) d2 ->
  l1 ++ c :: d1 = l2 ++ c :: d2 -> l1 = l2 /\ d1 = d2.
Proof.
  intros H1 H2. revert l2. induction l1 as [|x l1 IH]; intros [|y l2]; cbn.
  - by intros [= ->].
  - intros [= <- ->]. exfalso. apply Forall_app in H1 as [_ [H1 _]%Forall_cons]. done.
  - intros [= -> <-]. exfalso. apply Forall_app in H2 as [_ [H2 _]%Forall_cons]. done.
  - intros [= -> H]. apply IH in H as [-> ->]. done.
Qed.

Definition dig_val (c : Ascii.ascii) : N := (Ascii.N_of_ascii c - 48)%N.
Definition digits_val (l : list Ascii.ascii) : N := foldl (fun a c => (10 * a + dig_val c)%N) 0%N l.
Definition is_digit (c : Ascii.ascii) : Prop := (48 <= Ascii.N_of_ascii c < 58)%N.

Lemma digit_ascii n : (n < 10)%N -> dig_val (Ascii.ascii_of_N (48 + n)) = n /\ is_digit (Ascii.ascii_of_N (48 + n)).
Proof.
  intros Hn. unfold dig_val, is_digit. rewrite Ascii.N_ascii_embedding by lia. lia.
Qed.

Lemma dec_digits_spec fuel n :
  (n < 2 ^ N.of_nat fuel)%N -> digits_val (chars (dec_digits fuel n)) = n /\ Forall is_digit (chars (dec_digits fuel n)).
Proof.
  revert n. induction fuel as [|fuel IH]; intros n Hn; [cbn in *; split; [lia|constructor]|].
  cbn [dec_digits]. rewrite chars_app.
  assert (n mod 10 < 10)%N as Hm by (by apply N.mod_lt).
  destruct (digit_ascii (n mod 10) Hm) as [Hd Hi].
  unfold digits_val. rewrite foldl_app. cbn [String.list_ascii_of_string foldl]. rewrite Hd.
  destruct (N.ltb_spec n 10).
  - cbn [String.list_ascii_of_string foldl app]. split; [rewrite N.mod_small by done; lia|by apply Forall_singleton].
  - assert (n / 10 < 2 ^ N.of_nat fuel)%N as Hlt.
    { apply N.div_lt_upper_bound; [lia|]. rewrite Nat2N.inj_succ, N.pow_succ_r' in Hn. lia. }
    destruct (IH _ Hlt) as [Hv Hf]. fold (digits_val (chars (dec_digits fuel (n / 10)))). rewrite Hv.
    split; [symmetry; by apply N.div_mod|]. apply Forall_app. split; [done|by apply Forall_singleton].
Qed.

Lemma size_fuel n : (n < 2 ^ N.of_nat (S (N.to_nat (N.size n))))%N.
Proof.
  rewrite Nat2N.inj_succ, N2Nat.id, N.pow_succ_r'. pose proof (N.size_gt n). lia.
Qed.

Lemma dec_Z_chars z : exists ds, chars (dec_Z z) = (if (z <? 0)%Z then [Ascii.ascii_of_nat 45] else []) ++ ds /\
  digits_val ds = Z.to_N (Z.abs z) /\ Forall is_digit ds.
Proof.
  unfold dec_Z. exists (chars (dec_digits (S (N.to_nat (N.size (Z.to_N (Z.abs z))))) (Z.to_N (Z.abs z)))).
  split; [|apply dec_digits_spec, size_fuel].
  rewrite chars_app. by destruct (z <? 0)%Z.
Qed.

Lemma dec_Z_no_colon z : Forall (fun c => c <> colon) (chars (dec_Z z)).
Proof.
  destruct (dec_Z_chars z) as (ds & -> & _ & Hd). apply Forall_app. split.
  - destruct (z <? 0)%Z; [|constructor]. constructor; [|constructor]. done.
  - eapply Forall_impl; [exact Hd|]. intros c Hc ->. unfold is_digit in Hc. vm_compute in Hc. by destruct Hc.
Qed.

Lemma dec_Z_inj x y : dec_Z x = dec_Z y -> x = y.
Proof.
  intros H. apply (f_equal chars) in H.
  destruct (dec_Z_chars x) as (dx & Hx & Vx & Fx). destruct (dec_Z_chars y) as (dy & Hy & Vy & Fy).
  rewrite Hx, Hy in H.
  assert (forall d l, Ascii.ascii_of_nat 45 :: d = l -> ~ Forall is_digit l) as Hneg.
  { intros d l <- [Hc _]%Forall_cons. unfold is_digit in Hc. vm_compute in Hc. by destruct Hc. }
  destruct (Z.ltb_spec x 0), (Z.ltb_spec y 0); cbn [app] in H.
  - injection H as ->. rewrite Vx in Vy. lia.
  - exfalso. by eapply Hneg.
  - exfalso. symmetry in H. by eapply Hneg.
  - subst dy. rewrite Vx in Vy. lia.
Qed.

Lemma skname_serialize_inj a b :
  no_colon (aName (nSender a)) -> no_colon (aName (nSender b)) ->
  skname_serialize a = skname_serialize b -> a = b.
Proof.
  unfold no_colon. destruct a as [g1 [n1 d1]], b as [g2 [n2 d2]]. cbn. intros H1 H2 H.
  apply (f_equal chars) in H. unfold skname_serialize in H. cbn [nGroup nSender aName aDevice] in H.
  rewrite !chars_app in H.
  change (chars "::"%string) with [colon; colon] in H.
  assert (forall g n d, g ++ [colon; colon] ++ n ++ [colon; colon] ++ d = ((g ++ [colon; colon] ++ n) ++ [colon]) ++ colon :: d) as E1.
  { intros g n d. rewrite <- !app_assoc. done. }
  rewrite !E1 in H. apply last_sep_inj in H as [H HD]; [|apply dec_Z_no_colon..].
  apply app_inj_2 in H as [H _]; [|done].
  assert (forall g n, g ++ [colon; colon] ++ n = (g ++ [colon]) ++ colon :: n) as E2.
  { intros g n. rewrite <- !app_assoc. done. }
  rewrite !E2 in H. apply last_sep_inj in H as [H HN]; [|done..].
  apply app_inj_2 in H as [H _]; [|done].
  apply chars_inj in H as ->. apply chars_inj in HN as ->. apply chars_inj, dec_Z_inj in HD as ->. done.
Qed.

(** *** Byte utilities *)

Lemma split_of_combination a b c rest :
  bu_combine [BSeq a; BSeq b; BSeq c; BSeq rest] = Ok (a ++ b ++ c ++ rest) /\
  bu_split3 (a ++ b ++ c ++ rest) (zlen a) (zlen b) (zlen c) = (a, b, c) /\
  bu_split2 (a ++ b ++ rest) (zlen a) (zlen b) = (a, b) /\
  bu_trim (a ++ rest) (zlen a) = a.
Proof.
  split_and!; [|apply split3_app|apply split2_app|].
  - cbn. by rewrite app_nil_r.
  - unfold bu_trim, zlen. rewrite py_slice_prefix by lia. rewrite Nat2Z.id. apply take_app.
Qed.

Lemma nibbles h l : (h < 16)%N -> (l < 16)%N ->
  (bu_intsToByteHighAndLow h l < 256)%N /\
  bu_highBitsToInt (bu_intsToByteHighAndLow h l) = h /\ bu_lowBitsToInt (bu_intsToByteHighAndLow h l) = l.
Proof.
  intros Hh Hl. split; [rewrite highlow_spec by done; lia|].
  split; [by apply high_highlow|by apply low_highlow].
Qed.

Lemma int_to_byte_array l (o : nat) v :
  ((o + 4 <= length l)%nat -> exists l', bu_intToByteArray l (Z.of_nat o) v = Ok l' /\ length l' = length l /\
     be_val (take 4 (drop o l')) = (v mod 2 ^ 32)%N /\ take o l' = take o l /\ drop (o + 4) l' = drop (o + 4) l) /\
  ((length l < o + 4)%nat -> bu_intToByteArray l (Z.of_nat o) v = Err EIndexError).
Proof.
  split; [|apply intToByteArray_err]. intros Ho. eexists. split; [by apply intToByteArray_spec|].
  assert (length (take o l) = o) as Hto by (rewrite take_length; lia).
  split; [rewrite !app_length, take_length, drop_length; cbn; lia|].
  set (X := [n2b (v / 16777216); n2b (v / 65536); n2b (v / 256); n2b v] ++ drop (o + 4) l).
  assert (drop o (take o l ++ X) = X) as H1 by (by apply drop_app_alt).
  split_and!; [|by apply take_app_alt|by rewrite <- drop_drop, H1]. rewrite H1. unfold X.
  cbn [take app be_val foldl]. rewrite take_0. cbn [foldl]. rewrite !b2n_n2b. change (2 ^ 32)%N with 4294967296%N.
  change 65536%N with (256 * 256)%N. change 16777216%N with (256 * (256 * 256))%N.
  rewrite <- !N.div_div by lia.
  assert (forall x, x = 256 * (x / 256) + x mod 256 /\ x mod 256 < 256)%N as Hdm.
  { intros x. split; [by apply N.div_mod|by apply N.mod_lt]. }
  destruct (Hdm v) as [E1 L1]. destruct (Hdm (v / 256)%N) as [E2 L2].
  destruct (Hdm (v / 256 / 256)%N) as [E3 L3]. destruct (Hdm (v / 256 / 256 / 256)%N) as [E4 L4].
  apply (N.mod_unique _ _ (v / 256 / 256 / 256 / 256)%N);
    revert E1 L1 E2 L2 E3 L3 E4 L4; clear;
    generalize (v / 256 / 256 / 256 / 256)%N, (v / 256 / 256 / 256 mod 256)%N, (v / 256 / 256 mod 256)%N, (v / 256 mod 256)%N, (v mod 256)%N;
    generalize (v / 256 / 256 / 256)%N; generalize (v / 256 / 256)%N; generalize (v / 256)%N; lia.
Qed.

Lemma aes_accepted C key iv body p : aes_decrypt C key iv body = Ok p ->
  (exists n, length body = (16 * S n)%nat) /\
  exists k : nat, (1 <= k <= 16)%nat /\
    concat (cbc_dec C key iv (blocks (length body) body)) = p ++ replicate k (n2b (N.of_nat k)).
Proof.
  intros H. split.
  - destruct (decide (length body mod 16 = 0)%nat) as [Hm|Hm].
    + destruct body as [|b body]; [by rewrite aes_decrypt_not_blocks in H by auto|].
      pose proof (Nat.div_mod (length (b :: body)) 16 ltac:(lia)) as Hd. rewrite Hm in Hd.
      destruct (length (b :: body) / 16)%nat as [|n] eqn:E; [cbn in Hd; lia|]. exists n. lia.
    + by rewrite aes_decrypt_not_blocks in H by auto.
  - unfold aes_decrypt in H. destruct (aes_init_ok key iv); [|done].
    destruct (length body mod 16 =? 0)%nat; [|done]. by apply pkcs7_unpad_inv.
Qed.
