(** Facts about the five message classes and the stored records: round trips, versions,
    exceptions of the parsers. *)
From Verif Require Import PyBase Wire Protos ProtoFacts Crypto Ecc Kdf Messages State Prog StateFacts HelperFacts UtilFacts.

Lemma highlow_lt a b : (bu_intsToByteHighAndLow a b < 256)%N.
Proof. unfold bu_intsToByteHighAndLow. by apply N.mod_lt. Qed.

(** Injectivity without the simplification the [injection] tactic performs. *)
Lemma Ok_inj {A} (a b : A) : Ok a = Ok b -> b = a.
Proof. congruence. Qed.

Lemma falsy_nonnil b : b <> [] -> bytes_falsy (Some b) = false.
Proof. by destruct b. Qed.

Lemma falsy_pub k : bytes_falsy (Some (pub_serialize k)) = false.
Proof. done. Qed.
Lemma default_Some {A} (d x : A) : default d (Some x) = x.
Proof. done. Qed.

Lemma wfV_default o : wfV o -> (default 0 o < 2 ^ 32)%N.
Proof. destruct o; [done|]. intros _. by apply N.ltb_lt. Qed.

(** Splitting off one byte, a tail of known length, and what is between them. *)
Lemma split3_frame (vb : Byte.byte) m t :
  bu_split3 (vb :: m ++ t) 1 (zlen (vb :: m ++ t) - 1 - zlen t) (zlen t) = ([vb], m, t).
Proof.
  replace (zlen (vb :: m ++ t) - 1 - zlen t)%Z with (zlen m).
  - pose proof (split3_app [vb] m t []) as H. rewrite app_nil_r in H. exact H.
  - unfold zlen. cbn [length]. rewrite app_length. lia.
Qed.

Lemma split2_frame (vb : Byte.byte) m : bu_split2 (vb :: m) 1 (zlen (vb :: m) - 1) = ([vb], m).
Proof.
  replace (zlen (vb :: m) - 1)%Z with (zlen m) by (unfold zlen; cbn [length]; lia).
  pose proof (split2_app [vb] m []) as H. rewrite app_nil_r in H. exact H.
Qed.

Lemma split2_tail m t : bu_split2 (m ++ t) (zlen (m ++ t) - zlen t) (zlen t) = (m, t).
Proof.
  replace (zlen (m ++ t) - zlen t)%Z with (zlen m) by (unfold zlen; rewrite app_length; lia).
  pose proof (split2_app m t []) as H. rewrite app_nil_r in H. exact H.
Qed.

(** Whatever the length, splitting one byte off the front of a non-empty string. *)
Lemma slice_head (vb : Byte.byte) m : py_slice (vb :: m) 0 1 = [vb].
Proof. rewrite py_slice_prefix by lia. done. Qed.

Section facts.
Context (C : crypto) (Hok : crypto_ok C).

Lemma wm_getMac_length v a b k s : zlen (wm_getMac C v a b k s) = MAC_LENGTH.
Proof using Hok.
  unfold wm_getMac, bu_trim, MAC_LENGTH. rewrite py_slice_prefix by lia.
  unfold zlen. rewrite take_length, (co_hmac_len C Hok). done.
Qed.

(** ** WhisperMessage *)

Lemma whisper_create_ok version mac key counter prev ct a b :
  (counter < 2 ^ 32)%N -> (prev < 2 ^ 32)%N ->
  let vb := n2b (bu_intsToByteHighAndLow version CURRENT_VERSION) in
  let m := wm_enc (WmS (Some (pub_serialize key)) (Some counter) (Some prev) (Some ct)) in
  whisper_create C version mac key counter prev ct a b =
  Ok (WhisperMessage key version counter prev ct
        (vb :: m ++ wm_getMac C version a b mac (vb :: m))).
Proof.
  intros Hc Hp vb m. unfold whisper_create. rewrite !set_u32_ok by done. cbn [mbind res_bind].
  fold m. set (mc := wm_getMac C version a b mac (vb :: m)).
  assert (bu_combine [BSeq m] = Ok m) as H1 by (pose proof (combine_seqs [m]) as H; cbn [map concat] in H; by rewrite app_nil_r in H).
  assert (bu_combine [BSeq m; BSeq mc] = Ok (m ++ mc)) as H2
    by (pose proof (combine_seqs [m; mc]) as H; cbn [map concat] in H; by rewrite app_nil_r in H).
  rewrite (combine_int _ _ _ (highlow_lt _ _) H1). cbn [mbind res_bind]. fold vb. fold mc.
  rewrite (combine_int _ _ _ (highlow_lt _ _) H2). done.
Qed.

Lemma whisper_create_err version mac key counter prev ct a b e :
  whisper_create C version mac key counter prev ct a b = Err e -> e = EValueError.
Proof.
  unfold whisper_create.
  intros [[-> _]%set_u32_err|(c & Hc & H)]%bind_err_inv; [done|].
  apply bind_err_inv in H as [[-> _]%set_u32_err|(p & Hp & H)]; [done|].
  apply bind_err_inv in H as [H|(x & Hx & H)].
  - cbn [bu_combine] in H. case_match; [done|]. by injection H.
  - apply bind_err_inv in H as [H|(y & Hy & H)]; [|done].
    cbn [bu_combine] in H. case_match; [done|]. by injection H.
Qed.

Lemma whisper_roundtrip version mac key counter prev ct a b m :
  (version = 2 \/ version = 3)%N -> length key <= 32 -> ct <> [] ->
  whisper_create C version mac key counter prev ct a b = Ok m ->
  whisper_parse (wSerialized m) = Ok m.
Proof using Hok.
  intros Hv Hk Hct H.
  assert (counter < 2 ^ 32 /\ prev < 2 ^ 32)%N as [Hc Hp].
  { unfold whisper_create in H. apply bind_ok_inv in H as (x & [-> Hx]%set_u32_inv & H).
    by apply bind_ok_inv in H as (y & [-> Hy]%set_u32_inv & _). }
  rewrite whisper_create_ok in H by done. apply Ok_inj in H as ->. cbn [wSerialized].
  set (vb := n2b (bu_intsToByteHighAndLow version CURRENT_VERSION)).
  set (w := WmS _ _ _ _). set (mc := wm_getMac _ _ _ _ _ _).
  unfold whisper_parse, whisper_parse_body. cbv beta iota.
  replace MAC_LENGTH with (zlen mc) by apply wm_getMac_length.
  rewrite split3_frame.
  assert (bu_highBitsToInt (b2n vb) = version) as ->.
  { unfold vb. rewrite b2n_n2b_small by apply highlow_lt. apply high_highlow; [lia|done]. }
  assert ((version <=? UNSUPPORTED_VERSION)%N = false) as -> by (apply N.leb_gt; unfold UNSUPPORTED_VERSION; lia).
  assert ((CURRENT_VERSION <? version)%N = false) as -> by (apply N.ltb_ge; unfold CURRENT_VERSION; lia).
  rewrite wm_roundtrip by done. rewrite bind_ok.
  cbn [wm_ciphertext wm_ratchetKey wm_counter wm_previousCounter w].
  rewrite falsy_nonnil, falsy_pub, !default_Some by done. cbn [orb].
  rewrite decodePoint_serialize by done. done.
Qed.

(** Parsing: what comes out describes the input. *)
Lemma whisper_parse_inv bs m :
  whisper_parse bs = Ok m -> wSerialized m = bs /\ length (wRatchetKey m) <= 32 /\
    (2 <= wVersion m <= 3)%N /\ (wCounter m < 2 ^ 32)%N /\ (wPreviousCounter m < 2 ^ 32)%N /\ wBody m <> [].
Proof.
  unfold whisper_parse. destruct bs as [|b bs]; [done|].
  unfold res_rethrow. destruct (whisper_parse_body (b :: bs)) as [x|e] eqn:E; [|by case_match].
  intros [= ->]. revert E. unfold whisper_parse_body.
  destruct (bu_split3 (b :: bs) _ _ _) as [[[|vb p0] message] t]; [done|].
  destruct (N.leb_spec (bu_highBitsToInt (b2n vb)) UNSUPPORTED_VERSION) as [|H1]; [done|].
  destruct (N.ltb_spec CURRENT_VERSION (bu_highBitsToInt (b2n vb))) as [|H2]; [done|].
  intros (w & Hw & H)%bind_ok_inv.
  destruct (bytes_falsy (wm_ciphertext w) || bytes_falsy (wm_ratchetKey w)) eqn:Ef; [done|].
  apply orb_false_iff in Ef as [Ef1 Ef2].
  apply bind_ok_inv in H as (k & Hk%decodePoint_length & [= <-]).
  apply wm_parse_wf in Hw as (H3 & H4). cbn [wSerialized wRatchetKey wVersion wCounter wPreviousCounter wBody].
  unfold UNSUPPORTED_VERSION, CURRENT_VERSION in *.
  split_and!; try done; try lia.
  - by apply wfV_default.
  - by apply wfV_default.
  - destruct (wm_ciphertext w) as [[|]|]; done.
Qed.

Lemma whisper_parse_version b bs :
  (b2n b / 16 <= 1)%N -> whisper_parse (b :: bs) = Err ELegacyMessage.
Proof.
  intros H. unfold whisper_parse, whisper_parse_body, bu_split3. rewrite slice_head.
  rewrite high_spec by apply b2n_lt. unfold UNSUPPORTED_VERSION.
  by rewrite (proj2 (N.leb_le _ _)).
Qed.
Lemma whisper_parse_version_new b bs :
  (4 <= b2n b / 16)%N -> whisper_parse (b :: bs) = Err EInvalidMessage.
Proof.
  intros H. unfold whisper_parse, whisper_parse_body, bu_split3. rewrite slice_head.
  rewrite high_spec by apply b2n_lt. unfold UNSUPPORTED_VERSION, CURRENT_VERSION.
  rewrite (proj2 (N.leb_gt _ _)) by lia. by rewrite (proj2 (N.ltb_lt _ _)) by lia.
Qed.
Lemma whisper_parse_version_ok b bs m :
  whisper_parse (b :: bs) = Ok m -> wVersion m = (b2n b / 16)%N.
Proof.
  unfold whisper_parse, whisper_parse_body, bu_split3. rewrite slice_head.
  rewrite high_spec by apply b2n_lt.
  destruct (_ <=? _)%N; [done|]. destruct (_ <? _)%N; [done|].
  destruct (wm_parse _) as [w|e]; cbn [mbind res_bind]; [|unfold res_rethrow; by case_match].
  case_match; [done|]. destruct (decodePoint _ _); cbn [mbind res_bind]; [|unfold res_rethrow; by case_match].
  by intros [= <-].
Qed.

Lemma bytes_falsy_false o : bytes_falsy o = false -> exists b r, o = Some (b :: r).
Proof. destruct o as [[|b r]|]; [done|eauto|done]. Qed.

(** decodePoint of a non-empty string fails only with InvalidKeyException. *)
Lemma decodePoint_cons_err b r e : decodePoint (b :: r) 0 = Err e -> e = EInvalidKey.
Proof. unfold decodePoint. cbn [lookup list_lookup]. repeat case_match; congruence. Qed.

Lemma whisper_parse_errs b bs e :
  whisper_parse (b :: bs) = Err e -> e = EInvalidMessage \/ e = ELegacyMessage \/ e = EDecodeError.
Proof.
  unfold whisper_parse, whisper_parse_body, bu_split3. rewrite slice_head.
  destruct (_ <=? _)%N; [cbn; intros [= <-]; auto|]. destruct (_ <? _)%N; [cbn; intros [= <-]; auto|].
  unfold res_rethrow. destruct (wm_parse _) as [w|e'] eqn:Ew; cbn [mbind res_bind].
  - destruct (bytes_falsy (wm_ciphertext w) || bytes_falsy (wm_ratchetKey w)) eqn:Ef; [cbn; intros [= <-]; auto|].
    apply orb_false_iff in Ef as [_ (kb & kr & Hk)%bytes_falsy_false]. rewrite Hk, default_Some.
    destruct (decodePoint (kb :: kr) 0) as [k|e'] eqn:Ed; cbn [mbind res_bind]; [done|].
    apply decodePoint_cons_err in Ed as ->. cbn. intros [= <-]. auto.
  - apply wm_parse_err in Ew as ->. cbn. intros [= <-]. auto.
Qed.

(** ** PreKeyWhisperMessage *)

Lemma combine_vb v m : bu_combine [BInt (bu_intsToByteHighAndLow v CURRENT_VERSION); BSeq m]
  = Ok (n2b (bu_intsToByteHighAndLow v CURRENT_VERSION) :: m).
Proof. apply (combine_int _ [BSeq m] m); [apply highlow_lt|]. cbn. by rewrite app_nil_r. Qed.

Lemma prekey_create_ok version rid pid spid base ident w :
  (rid < 2 ^ 32)%N -> (spid < 2 ^ 32)%N -> wfV pid ->
  prekey_create version rid pid spid base ident w =
  Ok (PreKeyWhisperMessage version rid pid spid base ident w
       (n2b (bu_intsToByteHighAndLow version CURRENT_VERSION) ::
          pk_enc (PkS pid (Some (pub_serialize base)) (Some (pub_serialize ident))
                           (Some (wSerialized w)) (Some rid) (Some spid)))).
Proof.
  intros Hr Hs Hp. unfold prekey_create. rewrite !set_u32_ok by done. cbn [mbind res_bind].
  destruct pid as [i|]; [rewrite set_u32_ok by done|]; cbn [mbind res_bind]; by rewrite combine_vb.
Qed.

Lemma prekey_create_inv version rid pid spid base ident w m :
  prekey_create version rid pid spid base ident w = Ok m ->
  (rid < 2 ^ 32)%N /\ (spid < 2 ^ 32)%N /\ wfV pid.
Proof.
  unfold prekey_create. intros (x & [-> Hx]%set_u32_inv & H)%bind_ok_inv.
  apply bind_ok_inv in H as (y & [-> Hy]%set_u32_inv & H).
  apply bind_ok_inv in H as (z & Hz & H). split_and!; try done.
  destruct pid as [i|]; [|done]. by apply bind_ok_inv in Hz as (j & [-> Hj]%set_u32_inv & _).
Qed.

Lemma prekey_version_byte version :
  (version < 16)%N -> bu_highBitsToInt (b2n (n2b (bu_intsToByteHighAndLow version CURRENT_VERSION))) = version.
Proof. intros. rewrite b2n_n2b_small by apply highlow_lt. by apply high_highlow. Qed.

(** What parsing the serialisation gives: an absent prekey id reads as 0. *)
Lemma prekey_reparse rid pid spid base ident w m :
  length base <= 32 -> length ident <= 32 -> whisper_parse (wSerialized w) = Ok w ->
  prekey_create 3 rid pid spid base ident w = Ok m ->
  prekey_parse (pSerialized m) =
    Ok (PreKeyWhisperMessage 3 rid (Some (default 0%N pid)) spid base ident w (pSerialized m)).
Proof.
  intros Hb Hi Hw H. destruct (prekey_create_inv _ _ _ _ _ _ _ _ H) as (Hr & Hs & Hp).
  rewrite prekey_create_ok in H by done. apply Ok_inj in H as ->. cbn [pSerialized].
  unfold prekey_parse, prekey_parse_body. rewrite prekey_version_byte by done.
  change (CURRENT_VERSION <? 3)%N with false. change (3 <? CURRENT_VERSION)%N with false. cbv iota.
  rewrite pk_roundtrip by (by repeat split). rewrite bind_ok.
  cbn [pk_baseKey pk_identityKey pk_message pk_registrationId pk_preKeyId pk_signedPreKeyId].
  assert (wSerialized w <> []) as Hne.
  { intros E. rewrite E in Hw. done. }
  rewrite (falsy_nonnil (wSerialized w)) by done. rewrite !falsy_pub, !default_Some. cbn [orb].
  rewrite !decodePoint_serialize by done. rewrite !bind_ok. rewrite Hw. done.
Qed.

Lemma prekey_roundtrip rid pid spid base ident w m :
  length base <= 32 -> length ident <= 32 -> whisper_parse (wSerialized w) = Ok w ->
  prekey_create 3 rid (Some pid) spid base ident w = Ok m ->
  prekey_parse (pSerialized m) = Ok m.
Proof.
  intros Hb Hi Hw H. rewrite (prekey_reparse rid (Some pid) spid base ident w m) by done.
  destruct (prekey_create_inv _ _ _ _ _ _ _ _ H) as (Hr & Hs & Hp).
  rewrite prekey_create_ok in H by done. by apply Ok_inj in H as ->.
Qed.

Lemma prekey_parse_inv bs m :
  prekey_parse bs = Ok m -> pSerialized m = bs /\ pVersion m = 3%N /\
    length (pBaseKey m) <= 32 /\ length (pIdentityKey m) <= 32 /\ (pRegistrationId m < 2 ^ 32)%N /\
    (pSignedPreKeyId m < 2 ^ 32)%N /\ (exists i, pPreKeyId m = Some i /\ (i < 2 ^ 32)%N) /\
    whisper_parse (wSerialized (pMessage m)) = Ok (pMessage m).
Proof.
  unfold prekey_parse. destruct bs as [|b bs]; [done|].
  unfold res_rethrow. destruct (prekey_parse_body (b :: bs)) as [x|e] eqn:E; [|by case_match].
  intros [= ->]. revert E. unfold prekey_parse_body.
  destruct (N.ltb_spec CURRENT_VERSION (bu_highBitsToInt (b2n b))) as [|H2]; [done|].
  destruct (N.ltb_spec (bu_highBitsToInt (b2n b)) CURRENT_VERSION) as [|H1]; [done|].
  intros (k & Hk & H)%bind_ok_inv. case_match; [done|].
  apply bind_ok_inv in H as (bk & Hbk%decodePoint_length & H).
  apply bind_ok_inv in H as (ik & Hik%decodePoint_length & H).
  apply bind_ok_inv in H as (w & Hw & ->%Ok_inj).
  cbn [pSerialized pVersion pBaseKey pIdentityKey pRegistrationId pSignedPreKeyId pPreKeyId pMessage].
  apply pk_parse_wf in Hk as (Hk1 & Hk2 & Hk3).
  unfold CURRENT_VERSION in *.
  split_and!; try done; try lia.
  - by apply wfV_default.
  - by apply wfV_default.
  - eexists. split; [done|]. by apply wfV_default.
  - destruct (whisper_parse_inv _ _ Hw) as [-> _]. done.
Qed.

Lemma prekey_parse_version_new b bs : (4 <= b2n b / 16)%N -> prekey_parse (b :: bs) = Err EInvalidVersion.
Proof.
  intros H. unfold prekey_parse, prekey_parse_body. rewrite high_spec by apply b2n_lt.
  unfold CURRENT_VERSION. by rewrite (proj2 (N.ltb_lt _ _)) by lia.
Qed.
Lemma prekey_parse_version_old b bs : (b2n b / 16 <= 2)%N -> prekey_parse (b :: bs) = Err EInvalidMessage.
Proof.
  intros H. unfold prekey_parse, prekey_parse_body. rewrite high_spec by apply b2n_lt.
  unfold CURRENT_VERSION. rewrite (proj2 (N.ltb_ge _ _)) by lia.
  by rewrite (proj2 (N.ltb_lt _ _)) by lia.
Qed.

Lemma prekey_parse_errs b bs e :
  prekey_parse (b :: bs) = Err e -> e = EInvalidMessage \/ e = EInvalidVersion.
Proof.
  unfold prekey_parse, prekey_parse_body.
  destruct (_ <? _)%N; [cbn; intros [= <-]; auto|]. destruct (_ <? _)%N; [cbn; intros [= <-]; auto|].
  unfold res_rethrow. destruct (pk_parse _) as [w|e'] eqn:Ew; cbn [mbind res_bind].
  - destruct (_ || _) eqn:Ef; [cbn; intros [= <-]; auto|].
    apply orb_false_iff in Ef as [Ef (mb & mr & Hm)%bytes_falsy_false].
    apply orb_false_iff in Ef as [(bb & br & Hb)%bytes_falsy_false (ib & ir & Hi)%bytes_falsy_false].
    rewrite Hm, Hb, Hi. rewrite !default_Some.
    destruct (decodePoint (bb :: br) 0) as [k|e'] eqn:Ed; cbn [mbind res_bind];
      [|apply decodePoint_cons_err in Ed as ->; cbn; intros [= <-]; auto].
    destruct (decodePoint (ib :: ir) 0) as [k'|e'] eqn:Ed'; cbn [mbind res_bind];
      [|apply decodePoint_cons_err in Ed' as ->; cbn; intros [= <-]; auto].
    destruct (whisper_parse (mb :: mr)) as [x|e'] eqn:Ewp; cbn [mbind res_bind]; [done|].
    apply whisper_parse_errs in Ewp as [->|[->| ->]]; cbn; intros [= <-]; auto.
  - apply pk_parse_err in Ew as ->. cbn. intros [= <-]. auto.
Qed.

(** ** KeyExchangeMessage *)

Lemma kx_id_split q f : (f < 32)%N ->
  N.shiftr (N.lor (N.shiftl q 5) f) 5 = q /\ N.land (N.lor (N.shiftl q 5) f) 31 = f
  /\ N.lor (N.shiftl q 5) f = (32 * q + f)%N.
Proof.
  intros Hf.
  assert (forall i, (5 <= i)%N -> N.testbit f i = false) as Hbit.
  { intros i Hi. destruct (N.eq_dec f 0) as [->|Hn]; [by rewrite N.bits_0|].
    apply N.bits_above_log2. assert (N.log2 f < 5)%N by (apply N.log2_lt_pow2; lia). lia. }
  split_and!.
  - apply N.bits_inj. intros i. rewrite N.shiftr_spec', N.lor_spec, N.shiftl_spec_high' by lia.
    rewrite Hbit by lia. rewrite orb_false_r. f_equal. lia.
  - change 31%N with (N.ones 5). rewrite N.land_ones. apply N.bits_inj. intros i.
    destruct (N.lt_ge_cases i 5) as [Hi|Hi].
    + rewrite N.mod_pow2_bits_low by done. rewrite N.lor_spec, N.shiftl_spec_low by done. done.
    + rewrite N.mod_pow2_bits_high by done. symmetry. by apply Hbit.
  - rewrite <- N.lxor_lor.
    + rewrite <- N.add_nocarry_lxor.
      * rewrite N.shiftl_mul_pow2. change (2 ^ 5)%N with 32%N. lia.
      * apply N.bits_inj. intros i. rewrite N.land_spec, N.bits_0.
        destruct (N.lt_ge_cases i 5) as [Hi|Hi]; [by rewrite N.shiftl_spec_low|].
        rewrite Hbit by done. apply andb_false_r.
    + apply N.bits_inj. intros i. rewrite N.land_spec, N.bits_0.
      destruct (N.lt_ge_cases i 5) as [Hi|Hi]; [by rewrite N.shiftl_spec_low|].
      rewrite Hbit by done. apply andb_false_r.
Qed.

Lemma kx_roundtrip_msg sequence flags base sig ratchet ident m :
  length base <= 32 -> length ratchet <= 32 -> length ident <= 32 -> (flags < 32)%N ->
  kx_create 3 sequence flags base sig ratchet ident = Ok m ->
  kx_msg_parse (xSerialized m) = Ok m.
Proof.
  intros Hb Hr Hi Hf H. destruct (kx_id_split sequence flags Hf) as (H1 & H2 & H3).
  unfold kx_create in H. apply bind_ok_inv in H as (id & [-> Hid]%set_u32_inv & H).
  change (3 <=? 3)%N with true in H. cbv iota in H.
  rewrite combine_vb in H. rewrite bind_ok in H. apply Ok_inj in H as ->. cbn [xSerialized].
  unfold kx_msg_parse, kx_parse_body. rewrite split2_frame.
  rewrite prekey_version_byte by done.
  change (CURRENT_VERSION <? 3)%N with false. change (3 <? CURRENT_VERSION)%N with false. cbv iota.
  rewrite kx_roundtrip by (by repeat split). rewrite bind_ok.
  cbn [kx_id kx_baseKey kx_ratchetKey kx_identityKey kx_baseKeySignature].
  rewrite !decodePoint_serialize by done. cbn [mbind res_bind res_rethrow].
  rewrite H1, H2. do 2 f_equal.
Qed.

Lemma kx_parse_version_new b bs : (4 <= b2n b / 16)%N -> kx_msg_parse (b :: bs) = Err EInvalidVersion.
Proof.
  intros H. unfold kx_msg_parse, kx_parse_body. rewrite split2_frame. rewrite high_spec by apply b2n_lt.
  unfold CURRENT_VERSION. rewrite (proj2 (N.ltb_ge _ _)) by lia. by rewrite (proj2 (N.ltb_lt _ _)) by lia.
Qed.
Lemma kx_parse_version_old b bs : (b2n b / 16 <= 2)%N -> kx_msg_parse (b :: bs) = Err ELegacyMessage.
Proof.
  intros H. unfold kx_msg_parse, kx_parse_body. rewrite split2_frame. rewrite high_spec by apply b2n_lt.
  unfold CURRENT_VERSION. by rewrite (proj2 (N.ltb_lt _ _)) by lia.
Qed.
Lemma kx_parse_version_ok bs m : kx_msg_parse bs = Ok m ->
  xVersion m = 3%N /\ exists b r, bs = b :: r /\ (b2n b / 16 = 3)%N.
Proof.
  destruct bs as [|b r]; [done|]. intros H.
  assert (b2n b / 16 = 3)%N as Hv.
  { destruct (N.le_gt_cases (b2n b / 16) 2) as [Hl|Hl]; [by rewrite kx_parse_version_old in H|].
    destruct (N.le_gt_cases 4 (b2n b / 16)) as [Hg|Hg]; [by rewrite kx_parse_version_new in H|]. lia. }
  split; [|eauto]. revert H. unfold kx_msg_parse, kx_parse_body. rewrite split2_frame.
  rewrite high_spec, Hv by apply b2n_lt. cbn [N.ltb N.compare CURRENT_VERSION Pos.compare Pos.compare_cont].
  unfold res_rethrow. destruct (kx_parse r) as [k|e]; cbn [mbind res_bind]; [|by case_match].
  destruct (kx_id k), (kx_baseKey k) as [b0|], (kx_ratchetKey k) as [b1|], (kx_identityKey k) as [b2|], (kx_baseKeySignature k);
    cbn [mbind res_bind]; try done.
  destruct (decodePoint b0 0); cbn [mbind res_bind]; [|by case_match].
  destruct (decodePoint b1 0); cbn [mbind res_bind]; [|by case_match].
  destruct (decodePoint b2 0); cbn [mbind res_bind]; [|by case_match].
  by intros [= <-].
Qed.

Lemma kx_parse_errs b bs e :
  kx_msg_parse (b :: bs) = Err e ->
  e = EInvalidMessage \/ e = ELegacyMessage \/ e = EInvalidVersion \/ e = EDecodeError \/ e = EIndexError.
Proof.
  unfold kx_msg_parse, kx_parse_body. rewrite split2_frame.
  destruct (_ <? _)%N; [cbn; intros [= <-]; auto|]. destruct (_ <? _)%N; [cbn; intros [= <-]; auto|].
  unfold res_rethrow. destruct (kx_parse bs) as [k|e'] eqn:Ek; cbn [mbind res_bind].
  2:{ apply kx_parse_err in Ek as ->. cbn. intros [= <-]. auto. }
  destruct (kx_id k), (kx_baseKey k) as [k1|], (kx_ratchetKey k) as [k2|], (kx_identityKey k) as [k3|], (kx_baseKeySignature k);
    cbn [mbind res_bind]; try (by cbn; intros [= <-]; auto).
  destruct (decodePoint k1 0) as [?|e1] eqn:E1; cbn [mbind res_bind].
  2:{ apply decodePoint_err in E1 as [-> | ->]; cbn; intros [= <-]; auto. }
  destruct (decodePoint k2 0) as [?|e1] eqn:E2; cbn [mbind res_bind].
  2:{ apply decodePoint_err in E2 as [-> | ->]; cbn; intros [= <-]; auto. }
  destruct (decodePoint k3 0) as [?|e1] eqn:E3; cbn [mbind res_bind].
  2:{ apply decodePoint_err in E3 as [-> | ->]; cbn; intros [= <-]; auto. }
  done.
Qed.

(** ** SenderKeyMessage *)

Lemma sk_tosign_ok id it ct :
  (id < 2 ^ 32)%N -> (it < 2 ^ 32)%N ->
  sk_tosign id it ct = Ok (x33 :: sk_enc (SkS (Some id) (Some it) (Some ct))).
Proof.
  intros. unfold sk_tosign. rewrite !set_u32_ok by done. cbn [mbind res_bind bu_combine].
  by rewrite app_nil_r.
Qed.
Lemma sk_tosign_inv id it ct b :
  sk_tosign id it ct = Ok b ->
  (id < 2 ^ 32)%N /\ (it < 2 ^ 32)%N /\ b = x33 :: sk_enc (SkS (Some id) (Some it) (Some ct)).
Proof.
  intros H. assert (id < 2 ^ 32 /\ it < 2 ^ 32)%N as [H1 H2].
  { unfold sk_tosign in H. apply bind_ok_inv in H as (x & [-> Hx]%set_u32_inv & H).
    by apply bind_ok_inv in H as (y & [-> Hy]%set_u32_inv & _). }
  rewrite sk_tosign_ok in H by done. by apply Ok_inj in H as ->.
Qed.

(** Parsing the framed serialisation with any 64 byte signature. *)
Lemma sk_parse_signed id it ct sig :
  (id < 2 ^ 32)%N -> (it < 2 ^ 32)%N -> length sig = 64 ->
  let b := x33 :: sk_enc (SkS (Some id) (Some it) (Some ct)) in
  sk_msg_parse (b ++ sig) = Ok (SenderKeyMessage 3 id it ct (b ++ sig)).
Proof.
  intros Hid Hit Hsig b. unfold sk_msg_parse, b. cbn [app]. unfold sk_parse_body.
  replace SIGNATURE_LENGTH with (zlen sig) by (unfold zlen, SIGNATURE_LENGTH; lia).
  rewrite split3_frame. change (bu_highBitsToInt (b2n x33)) with 3%N.
  change (3 <? 3)%N with false. change (CURRENT_VERSION <? 3)%N with false. cbv iota.
  rewrite sk_roundtrip by (by repeat split). done.
Qed.

Lemma sk_roundtrip_msg id it ct priv rand m :
  sk_create C id it ct priv rand = Ok m -> sk_msg_parse (gSerialized m) = Ok m.
Proof using Hok.
  unfold sk_create. intros (b & (H1 & H2 & ->)%sk_tosign_inv & H)%bind_ok_inv.
  apply bind_ok_inv in H as (sig & Hs & ->%Ok_inj).
  unfold calculateSignature_with, c_calculateSignature in Hs.
  destruct (Nat.eqb_spec (length rand) 64); [|done].
  destruct (Nat.eqb_spec (length priv) 32); [|done]. cbn [andb] in Hs. injection Hs as <-.
  cbn [gSerialized]. apply sk_parse_signed; [done..|]. by apply (co_sign_len C Hok).
Qed.

Lemma sk_parse_version b bs : (b2n b / 16 <> 3)%N -> sk_msg_parse (b :: bs) = Err EInvalidMessage.
Proof.
  intros H. unfold sk_msg_parse, sk_parse_body, bu_split3. rewrite slice_head.
  rewrite high_spec by apply b2n_lt. unfold CURRENT_VERSION.
  destruct (N.ltb_spec (b2n b / 16) 3); [done|]. destruct (N.ltb_spec 3 (b2n b / 16)); [done|]. lia.
Qed.
Lemma sk_parse_errs b bs e : sk_msg_parse (b :: bs) = Err e -> e = EInvalidMessage.
Proof. unfold sk_msg_parse, res_rethrow. case_match; congruence. Qed.
Lemma sk_parse_inv bs m : sk_msg_parse bs = Ok m ->
  gSerialized m = bs /\ gVersion m = 3%N /\ (gKeyId m < 2 ^ 32)%N /\ (gIteration m < 2 ^ 32)%N.
Proof.
  destruct bs as [|b r]; [done|]. intros H.
  assert (b2n b / 16 = 3)%N as Hv.
  { destruct (N.eq_dec (b2n b / 16) 3); [done|]. by rewrite sk_parse_version in H. }
  revert H. unfold sk_msg_parse, sk_parse_body, bu_split3. rewrite slice_head.
  rewrite high_spec, Hv by apply b2n_lt. change (3 <? 3)%N with false. change (CURRENT_VERSION <? 3)%N with false.
  cbv iota. unfold res_rethrow. destruct (sk_parse _) as [k|] eqn:E; cbn [mbind res_bind]; [|done].
  intros [= <-]. cbn. apply sk_parse_wf in E as (H1 & H2). split_and!; try done.
  - by apply wfV_default.
  - by apply wfV_default.
Qed.

(** ** SenderKeyDistributionMessage *)

Lemma skd_create_ok id it ck sk :
  (id < 2 ^ 32)%N -> (it < 2 ^ 32)%N ->
  skd_create id it ck sk = Ok (SenderKeyDistributionMessage id it ck sk
     (x33 :: skd_enc (SkdS (Some id) (Some it) (Some ck) (Some (pub_serialize sk))))).
Proof.
  intros. unfold skd_create. rewrite !set_u32_ok by done. cbn [mbind res_bind bu_combine].
  by rewrite app_nil_r.
Qed.

Lemma skd_roundtrip_msg id it ck sk m :
  length sk <= 32 -> skd_create id it ck sk = Ok m -> skd_msg_parse (dSerialized m) = Ok m.
Proof.
  intros Hsk H. assert (id < 2 ^ 32 /\ it < 2 ^ 32)%N as [H1 H2].
  { unfold skd_create in H. apply bind_ok_inv in H as (x & [-> Hx]%set_u32_inv & H).
    by apply bind_ok_inv in H as (y & [-> Hy]%set_u32_inv & _). }
  rewrite skd_create_ok in H by done. apply Ok_inj in H as ->. cbn [dSerialized].
  unfold skd_msg_parse, skd_parse_body. rewrite split2_frame.
  change (bu_highBitsToInt (b2n x33)) with 3%N.
  change (3 <? 3)%N with false. change (CURRENT_VERSION <? 3)%N with false. cbv iota.
  rewrite skd_roundtrip by (by repeat split). rewrite bind_ok. cbn [skd_signingKey skd_id skd_iteration skd_chainKey].
  rewrite !default_Some.
  by rewrite decodePoint_serialize.
Qed.

Lemma skd_parse_version b bs : (b2n b / 16 <> 3)%N -> skd_msg_parse (b :: bs) = Err EInvalidMessage.
Proof.
  intros H. unfold skd_msg_parse, skd_parse_body. rewrite split2_frame.
  rewrite high_spec by apply b2n_lt. unfold CURRENT_VERSION.
  destruct (N.ltb_spec (b2n b / 16) 3); [done|]. destruct (N.ltb_spec 3 (b2n b / 16)); [done|]. lia.
Qed.
Lemma skd_parse_errs b bs e : skd_msg_parse (b :: bs) = Err e -> e = EInvalidMessage.
Proof. unfold skd_msg_parse, res_rethrow. case_match; congruence. Qed.
Lemma skd_parse_inv bs m : skd_msg_parse bs = Ok m ->
  dSerialized m = bs /\ (dId m < 2 ^ 32)%N /\ (dIteration m < 2 ^ 32)%N /\ length (dSignatureKey m) <= 32 /\
  exists b r, bs = b :: r /\ (b2n b / 16 = 3)%N.
Proof.
  destruct bs as [|b r]; [done|]. intros H.
  assert (b2n b / 16 = 3)%N as Hv.
  { destruct (N.eq_dec (b2n b / 16) 3); [done|]. by rewrite skd_parse_version in H. }
  revert H. unfold skd_msg_parse, skd_parse_body. rewrite split2_frame.
  rewrite high_spec, Hv by apply b2n_lt. change (3 <? 3)%N with false. change (CURRENT_VERSION <? 3)%N with false.
  cbv iota. unfold res_rethrow. destruct (skd_parse _) as [k|] eqn:E; cbn [mbind res_bind]; [|done].
  destruct (decodePoint _ 0) as [p|] eqn:Ed; cbn [mbind res_bind]; [|done]. apply decodePoint_length in Ed.
  intros [= <-]. cbn. apply skd_parse_wf in E as (H1 & H2). split_and!; try done; [| |eauto].
  - by apply wfV_default.
  - by apply wfV_default.
Qed.
End facts.

(** ** Stored records *)

Lemma prekeyrecord_roundtrip id kp r :
  length (kp_pub kp) <= 32 -> prekeyrecord_create id kp = Ok r ->
  prekeyrecord_parse (pr_enc r) = Ok r /\ prekeyrecord_getId r = id /\ prekeyrecord_getKeyPair r = Ok kp.
Proof.
  intros Hk (i & [-> Hi]%set_u32_inv & [= <-])%bind_ok_inv. split_and!; [|done|].
  - unfold prekeyrecord_parse. destruct (pr_enc _) as [|b bs] eqn:E.
    + apply enc_fields_nil_inv in E. done.
    + rewrite <- E. by apply pr_roundtrip.
  - unfold prekeyrecord_getKeyPair, stored_keypair. cbn [pr_publicKey pr_privateKey].
      rewrite !default_Some.
    rewrite decodePoint_serialize by done. by destruct kp.
Qed.

Lemma signedprekeyrecord_roundtrip id ts kp sig r :
  length (kp_pub kp) <= 32 -> signedprekeyrecord_create id ts kp sig = Ok r ->
  signedprekeyrecord_parse (spr_enc r) = Ok r /\ signedprekeyrecord_getId r = id /\
  signedprekeyrecord_getTimestamp r = ts /\ signedprekeyrecord_getSignature r = sig /\
  signedprekeyrecord_getKeyPair r = Ok kp.
Proof.
  intros Hk (i & [-> Hi]%set_u32_inv & H)%bind_ok_inv.
  apply bind_ok_inv in H as (t & Ht & [= <-]). unfold set_u64 in Ht.
  destruct (N.ltb_spec ts (2 ^ 64)); [|done]. injection Ht as <-. split_and!; try done.
  - unfold signedprekeyrecord_parse. destruct (spr_enc _) as [|b bs] eqn:E.
    + apply enc_fields_nil_inv in E. done.
    + rewrite <- E. by apply spr_roundtrip.
  - unfold signedprekeyrecord_getKeyPair, stored_keypair. cbn [spr_publicKey spr_privateKey].
    rewrite !default_Some.
    rewrite decodePoint_serialize by done. by destruct kp.
Qed.

Lemma identitykeypair_roundtrip kp :
  length (kp_pub kp) <= 32 -> identitykeypair_parse (identitykeypair_serialize kp) = Ok kp.
Proof.
  intros Hk. unfold identitykeypair_parse, identitykeypair_serialize.
  rewrite ik_roundtrip by done. rewrite bind_ok. cbn [ik_publicKey ik_privateKey].
  rewrite !default_Some.
  rewrite decodePoint_serialize by done. by destruct kp.
Qed.

Lemma skr_roundtrip l : Forall st_wf l -> skr_deserialize (skr_serialize l) = Ok l.
Proof.
  intros Hl. unfold skr_deserialize. destruct (skr_serialize l) as [|b bs] eqn:E.
  - unfold skr_serialize in E. apply enc_fields_nil_inv in E. by destruct l.
  - rewrite <- E. unfold skr_serialize. by rewrite Protos.sr_roundtrip.
Qed.

Lemma skr_deserialize_wf bs l : skr_deserialize bs = Ok l -> Forall st_wf l.
Proof.
  unfold skr_deserialize. destruct bs; [intros [= <-]; constructor|].
  intros (x & Hx & [= <-])%bind_ok_inv. by apply sr_parse_wf in Hx.
Qed.
