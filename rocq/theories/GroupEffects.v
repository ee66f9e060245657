(** The lemmas behind C75. *)
From Verif Require Import PyBase Wire Protos ProtoFacts Crypto Ecc Kdf Messages State Prog Groups.
From Verif Require Import ProgFacts StateFacts UtilFacts HelperFacts MsgFacts SpecUtil SpecSession SpecKeys KeyProofs SpecGroup SpecGroupHist GroupFacts GroupProofs GroupHistProofs SpecGroupStep.

Section effects.
Context (C : crypto) (Hok : crypto_ok C).

(** ** Keys *)

Lemma mk_sender_okm it seed :
  mk_senderMessageKey C it seed = SenderMessageKey it seed (take 16 (group_okm C seed)) (take 32 (drop 16 (group_okm C seed))).
Proof using Hok.
  unfold mk_senderMessageKey, bu_split2, group_okm. rewrite py_slice_prefix by done.
  change (16 + 32)%Z with (Z.of_nat 48). change 16%Z with (Z.of_nat 16). rewrite !py_slice_nonneg by lia.
  change hkdf_v3 with (N.of_nat 1). rewrite (derive_rfc C Hok) by (cbn; lia). done.
Qed.
Lemma sck_message_okm c :
  sck_messageKey C c = SenderMessageKey (scIteration c) (group_seed C (scKey c)) (take 16 (group_okm C (group_seed C (scKey c))))
    (take 32 (drop 16 (group_okm C (group_seed C (scKey c))))).
Proof using Hok. apply mk_sender_okm. Qed.

Lemma take_key_iff n l e r : take_senderMessageKey n l = Some (e, r) <->
  exists l1 l2, l = l1 ++ e :: l2 /\ r = l1 ++ l2 /\ iteration_of e = n /\ Forall (fun k => iteration_of k <> n) l1.
Proof using.
  revert e r. induction l as [|x l IH]; intros e r; cbn [take_senderMessageKey].
  - split; [done|]. intros ([|? ?] & ? & H & _); done.
  - unfold smk_hasIteration. change (default 0%N (smk_iteration x)) with (iteration_of x).
    destruct (N.eqb_spec (iteration_of x) n) as [E|E].
    + split.
      * intros [= -> ->]. exists [], r. by split_and!.
      * intros ([|y l1] & l2 & Hl & -> & He & Hf); injection Hl as -> ->; [done|]. by apply Forall_cons in Hf as [? _].
    + destruct (take_senderMessageKey n l) as [[y r']|] eqn:Et.
      * split.
        -- intros [= -> <-]. destruct (proj1 (IH e r') eq_refl) as (l1 & l2 & -> & -> & He & Hf).
           exists (x :: l1), l2. split_and!; try done. by constructor.
        -- intros ([|z l1] & l2 & Hl & -> & He & Hf); injection Hl as -> ->; [done|]. apply Forall_cons in Hf as [_ Hf].
           assert (Some (y, r') = Some (e, l1 ++ l2)) as [= -> ->]; [|done]. apply IH. by exists l1, l2.
      * split; [done|]. intros ([|z l1] & l2 & Hl & -> & He & Hf); injection Hl as -> ->; [done|]. apply Forall_cons in Hf as [_ Hf].
        assert (None = Some (e, l1 ++ l2)); [|done]. apply IH. by exists l1, l2.
Qed.

Lemma skip_exact k : forall c s, (scIteration c + N.of_nat k <= 2 ^ 32)%N ->
  skipSenderKeys C k c s = Ok (SenderChainKey (scIteration c + N.of_nat k) (group_stepped C (scKey c) k),
    StS (st_senderKeyId s) (st_senderChainKey s) (st_senderSigningKey s)
      (st_senderMessageKeys s ++
       map (fun i => SmkS (Some (scIteration c + N.of_nat i)%N) (Some (group_seed C (group_stepped C (scKey c) i)))) (seq 0 k))).
Proof using Hok.
  induction k as [|k IH]; intros c s Hk; cbn [skipSenderKeys].
  - cbn. rewrite N.add_0_r, app_nil_r. by destruct c, s.
  - unfold sks_addSenderMessageKey. rewrite sck_message_okm. cbn [smIteration smSeed].
    rewrite set_u32_ok by lia. rewrite !bind_ok, IH by (cbn [sck_next scIteration]; lia).
    cbn [sck_next scIteration scKey st_set_senderMessageKeys st_senderKeyId st_senderChainKey st_senderSigningKey st_senderMessageKeys].
    assert (forall i, group_stepped C (sck_derivative C [x02] (scKey c)) i = group_stepped C (scKey c) (S i)) as Hst.
    { intros i. unfold group_stepped. rewrite Nat.iter_succ_r. done. }
    do 2 f_equal; [f_equal; [lia|apply Hst]|]. f_equal. rewrite <- app_assoc. f_equal.
    change (seq 0 (S k)) with (0 :: seq 1 k). rewrite <- fmap_S_seq. cbn [map app]. f_equal.
    + by rewrite N.add_0_r.
    + change (fmap S (seq 0 k)) with (map S (seq 0 k)). rewrite map_map. apply map_ext. intros i. rewrite Hst. do 2 f_equal. lia.
Qed.

(** Taking the key of an iteration. *)
Lemma getSenderKey_iff s n k s' : (n < 2 ^ 32)%N ->
  getSenderKey C s n = Ok (k, s') <-> exists seed, group_read C s n seed s' /\ k = mk_senderMessageKey C n seed.
Proof using Hok.
  intros Hn. unfold getSenderKey. rewrite chain_at_iter. destruct (N.ltb_spec n (chain_at s)) as [Hlt|Hge].
  - unfold sks_removeSenderMessageKey. split.
    + destruct (sks_hasSenderMessageKey n s); [|done].
      destruct (take_senderMessageKey n (st_senderMessageKeys s)) as [[e r]|] eqn:Et; [|done]. intros [= <- <-].
      apply take_key_iff in Et as (l1 & l2 & Hl & -> & He & Hf). exists (default [] (smk_seed e)). split.
      * by eapply read_stored.
      * change (default 0%N (smk_iteration e)) with (iteration_of e). by rewrite He.
    + intros (seed & Hr & ->). destruct Hr as [l1 e l2 _ Hl He Hf|d Hd _]; [|lia].
      assert (sks_hasSenderMessageKey n s = true) as ->.
      { apply has_key_kept. unfold kept. rewrite Hl, fmap_app, fmap_cons, <- He. apply elem_of_app. right. left. }
      rewrite (proj2 (take_key_iff n _ e (l1 ++ l2))) by (by exists l1, l2).
      change (default 0%N (smk_iteration e)) with (iteration_of e). by rewrite He.
  - destruct (Z.ltb_spec 2000 (Z.of_N (chain_at s) - Z.of_N n)); [lia|].
    rewrite skip_exact by (rewrite chain_at_iter; lia). rewrite bind_ok. cbn [fst snd]. rewrite chain_at_iter.
    set (d := N.to_nat (n - chain_at s)). assert (n = chain_at s + N.of_nat d)%N as Hd by lia. rewrite <- Hd.
    unfold sks_setSenderChainKey. cbn [sck_next scIteration scKey]. rewrite sck_message_okm. cbn [scIteration scKey].
    change (scKey (sks_getSenderChainKey s)) with (chain_key s).
    change (sck_derivative C [x02] (group_stepped C (chain_key s) d)) with (group_stepped C (chain_key s) (S d)).
    rewrite <- mk_sender_okm.
    destruct (N.lt_ge_cases (n + 1) (2 ^ 32)) as [Hu|Hu].
    + rewrite set_u32_ok by done. rewrite !bind_ok. cbn [st_set_senderChainKey st_senderKeyId st_senderSigningKey st_senderMessageKeys].
      split.
      * intros [= <- <-]. eexists. split; [by apply read_ahead with (d := d)|done].
      * intros (seed & Hr & ->). destruct Hr as [l1 e l2 Hlt _ _ _|d' Hd' _]; [lia|].
        assert (d' = d) as -> by lia. done.
    + split.
      * intros (x & Hx & _)%bind_ok_inv. apply bind_ok_inv in Hx as (y & [_ Hy]%set_u32_inv & _). lia.
      * intros (seed & Hr & ->). destruct Hr as [l1 e l2 Hlt _ _ _|d' Hd' Hb]; lia.
Qed.

Lemma public_iff s pub : sks_getSigningKeyPublic s = Ok pub <-> identity_of (signing_public s) pub.
Proof using. unfold sks_getSigningKeyPublic. apply decode_iff. Qed.

Lemma verify_iff m pub : sk_verifySignature C m pub = Ok tt <->
  verifies C pub (take (length (gSerialized m) - 64) (gSerialized m)) (drop (length (gSerialized m) - 64) (gSerialized m)).
Proof using.
  split; [apply sk_verify_inv|]. intros (H1 & H2 & H3). destruct m as [v id it ct bs]. cbn [gSerialized] in *.
  rewrite <- (take_drop (length bs - 64) bs) at 1. by apply sk_verify_ok.
Qed.

Lemma find_state_iff id rec i s : find_state id rec 0 = Ok (i, s) <->
  exists l1 l2, rec = l1 ++ s :: l2 /\ i = length l1 /\ key_id s = id /\ Forall (fun x => key_id x <> id) l1.
Proof using.
  split.
  - intros (n & -> & Hl & Hk & Hb)%find_state_some. exists (take n rec), (drop (S n) rec). split_and!; [by rewrite take_drop_middle| |done|].
    + rewrite take_length. apply lookup_lt_Some in Hl. lia.
    + apply Forall_forall. intros x (j & Hj)%elem_of_list_lookup. apply lookup_take_Some in Hj as [Hj Hlt]. by eapply Hb.
  - intros (l1 & l2 & -> & -> & Hk & Hf). rewrite find_state_app by (rewrite Forall_forall in Hf; exact Hf).
    cbn [find_state]. change (sks_getKeyId s) with (key_id s). by rewrite Hk, N.eqb_refl.
Qed.

Lemma group_read_wf s n seed s' : group_read C s n seed s' -> st_wf s -> st_wf s'.
Proof using Hok.
  intros H. assert (n < 2 ^ 32 \/ 2 ^ 32 <= n)%N as [Hn|Hn] by lia.
  - assert (getSenderKey C s n = Ok (mk_senderMessageKey C n seed, s')) as Hg by (apply getSenderKey_iff; eauto).
    apply getSenderKey_adv in Hg as (A & _). apply (adv_wf _ _ A).
  - intros (W1 & W2 & W3 & W4). destruct H as [l1 e l2 Hlt Hl He Hf|d Hd Hb]; [|lia].
    assert (chain_at s < 2 ^ 32)%N; [|lia]. unfold chain_at. destruct (st_senderChainKey s) as [[[i|] ck]|]; cbn in *; lia || done.
Qed.

(** ** Decrypting *)

Lemma group_opens_iff w name bs pt w' :
  run (group_decrypt C name bs) w = (Ok pt, w') <-> group_opens C w name bs pt w'.
Proof using Hok.
  rewrite run_group_decrypt. split.
  - destruct (senderkey_at w name) as [rec|e] eqn:Hr; [|done]. destruct rec as [|s0 r] eqn:Er; [done|]. rewrite <- Er in *. clear Er.
    destruct (groupOpen C rec bs) as [x|e] eqn:Ho; [|done]. intros [= <- <-]. unfold groupOpen in Ho.
    apply bind_ok_inv in Ho as (m & Hm & Ho). apply bind_ok_inv in Ho as ([i s] & Hi & Ho). cbn [fst snd] in Ho.
    apply bind_ok_inv in Ho as (pub & Hp & Ho). apply bind_ok_inv in Ho as ([] & Hv & Ho).
    apply bind_ok_inv in Ho as ([k s'] & Hk & Ho). cbn [fst snd] in Ho. apply bind_ok_inv in Ho as (p & Hpt & ->%Ok_inj). cbn [fst snd].
    pose proof (sk_parse_inv _ _ Hm) as (Hser & _ & _ & Hit).
    apply find_state_iff in Hi as (l1 & l2 & -> & -> & Hk1 & Hf). apply getSenderKey_iff in Hk as (seed & Hread & ->); [|done].
    rewrite mk_sender_okm in Hpt. cbn [smCipher smIv] in Hpt. unfold res_rethrow in Hpt. destruct (aes_decrypt _ _ _ _) as [p'|] eqn:Ha; [|done].
    injection Hpt as ->. apply cbc_plain_iff in Ha. apply verify_iff in Hv. rewrite Hser in Hv. apply public_iff in Hp.
    exists m, l1, s, l2, pub, seed, s'. split_and!; try done.
    unfold put_state. rewrite insert_app_r_alt, Nat.sub_diag by lia. cbn [insert list_insert]. split; [|done].
    apply senderkey_stored. apply senderkey_wf in Hr. apply Forall_app in Hr as [W1 [W2 W3]%Forall_cons].
    apply Forall_app. split; [done|]. apply Forall_cons. split; [|done]. by eapply group_read_wf.
  - intros (m & l1 & s & l2 & pub & seed & s' & Hm & Hr & Hk & Hf & Hp & Hv & Hread & Hb & Hs & ->).
    rewrite Hr. destruct (l1 ++ s :: l2) as [|s0 r] eqn:Er; [by destruct l1|]. rewrite <- Er.
    pose proof (sk_parse_inv _ _ Hm) as (Hser & _ & _ & Hit).
    unfold groupOpen. rewrite Hm, bind_ok. rewrite (proj2 (find_state_iff (gKeyId m) _ (length l1) s)) by (by exists l1, l2).
    rewrite bind_ok. cbn [fst snd]. rewrite (proj2 (public_iff s pub) Hp), bind_ok.
    rewrite (proj2 (verify_iff m pub)) by (by rewrite Hser). rewrite bind_ok.
    rewrite (proj2 (getSenderKey_iff s (gIteration m) (mk_senderMessageKey C (gIteration m) seed) s' Hit)) by eauto.
    rewrite bind_ok. cbn [fst snd]. rewrite mk_sender_okm. cbn [smCipher smIv].
    rewrite (proj2 (cbc_plain_iff C _ _ _ pt) Hb). cbn [res_rethrow]. rewrite bind_ok. cbn [fst snd].
    unfold put_state. rewrite insert_app_r_alt, Nat.sub_diag by lia. done.
Qed.

(** ** Encrypting *)

Lemma chain_bound s : st_wf s -> (chain_at s < 2 ^ 32)%N /\ (key_id s < 2 ^ 32)%N.
Proof using.
  intros (W1 & W2 & W3 & W4). split.
  - unfold chain_at. destruct (st_senderChainKey s) as [[[i|] ck]|]; cbn in *; lia || done.
  - unfold key_id. destruct (st_senderKeyId s) as [i|]; cbn in *; lia || done.
Qed.

Lemma group_encrypt_runs w name pt s rec :
  senderkey_at w name = Ok (s :: rec) -> length (signing_private s) = 32 -> (chain_at s + 1 < 2 ^ 32)%N ->
  exists bs w', run (group_encrypt C name pt) w = (Ok bs, w') /\ group_sends C w name pt bs w'.
Proof using Hok.
  intros Hr Hp Hn. pose proof (senderkey_wf _ _ _ Hr) as [Hw Hws]%Forall_cons. destruct (chain_bound s Hw) as [_ Hid].
  unfold group_encrypt. rewrite run_rethrow, run_bind, run_do, load_senderkey, Hr. rewrite run_bind, run_lift. cbn [first_state].
  rewrite sck_message_okm. cbn [smCipher smIv smIteration]. change (scKey (sks_getSenderChainKey s)) with (chain_key s).
  set (seed := group_seed C (chain_key s)).
  assert (length (take 16 (group_okm C seed)) = 16 /\ length (take 32 (drop 16 (group_okm C seed))) = 32) as [L1 L2].
  { pose proof (mk_senderMessageKey_lengths C Hok 0 seed) as [A B]. rewrite mk_sender_okm in A, B. done. }
  destruct (aes_roundtrip C Hok (take 32 (drop 16 (group_okm C seed))) (take 16 (group_okm C seed)) pt L2 L1) as (ct & He & Hd & _).
  rewrite run_bind, run_lift, He. rewrite run_bind, run_lift.
  change (scIteration (sks_getSenderChainKey s)) with (chain_at s). change (sks_getKeyId s) with (key_id s).
  rewrite sk_tosign_ok by lia. rewrite run_bind. change (sks_getSigningKeyPrivate s) with (signing_private s).
  rewrite run_calculateSignature by done. rewrite run_bind, run_lift. unfold sks_setSenderChainKey. cbn [sck_next scIteration scKey].
  change (scIteration (sks_getSenderChainKey s)) with (chain_at s). change (scKey (sks_getSenderChainKey s)) with (chain_key s).
  rewrite set_u32_ok by done. rewrite bind_ok. rewrite run_bind, run_do. cbn [step_call run put_state insert list_insert].
  set (signed := x33 :: sk_enc (SkS (Some (key_id s)) (Some (chain_at s)) (Some ct))).
  set (sig := sign C (resize 64 x00 (w_tape w (w_pos w))) (signing_private s) signed).
  assert (length sig = 64) as Hsig by (apply (co_sign_len C Hok); [apply resize_length|done]).
  eexists (signed ++ sig), _. split; [done|]. exists s, rec, ct, signed. split_and!; try done.
  - by apply cbc_plain_iff.
  - apply sk_parse_signed; [done|lia|done].
  - split; [|done]. apply senderkey_stored. constructor; [|done]. destruct Hw as (W1 & W2 & W3 & W4). split_and!; try done.
Qed.

Lemma group_sends_ok w name pt bs w' :
  run (group_encrypt C name pt) w = (Ok bs, w') -> group_sends C w name pt bs w'.
Proof using Hok.
  intros H. destruct (senderkey_at w name) as [[|s rec]|e] eqn:Hr.
  1,3: unfold group_encrypt in H; rewrite run_rethrow, run_bind, run_do, load_senderkey, Hr in H; cbn in H; try done.
  assert (length (signing_private s) = 32 /\ (chain_at s + 1 < 2 ^ 32)%N) as [Hp Hn].
  { unfold group_encrypt in H. rewrite run_rethrow in H. case_match eqn:E. destruct r as [b'|e]; [|done]. injection H as -> ->.
    apply run_bind_ok in E as (rec1 & w1 & E1 & E). rewrite run_do, load_senderkey, Hr in E1. injection E1 as <- <-.
    apply run_bind_ok in E as (s1 & w1 & E2 & E). rewrite run_lift in E2. injection E2 as <- <-.
    apply run_bind_ok in E as (ct & w1 & E2 & E). rewrite run_lift in E2. injection E2 as _ <-.
    apply run_bind_ok in E as (h & w1 & E2 & E). rewrite run_lift in E2. injection E2 as E2 <-.
    apply run_bind_ok in E as (sig & w1 & E3 & E).
    apply run_bind_ok in E as (s' & w2 & E4 & E). rewrite run_lift in E4. injection E4 as E4 <-. split.
    - unfold calculateSignature in E3. apply run_bind_ok in E3 as (rnd & w2 & R1 & R2). rewrite run_lift in R2. injection R2 as R2 _.
      unfold calculateSignature_with, c_calculateSignature in R2. case_match; [|done].
      match goal with H : _ && _ = true |- _ => by apply andb_true_iff in H as [L1%Nat.eqb_eq L2%Nat.eqb_eq] end.
    - apply set_chain_inv in E4 as [E4 _]. exact E4. }
  destruct (group_encrypt_runs w name pt s rec Hr Hp Hn) as (bs1 & w1 & H1 & Hs). rewrite H in H1. by injection H1 as <- <-.
Qed.

(** ** Distributing *)

Lemma group_process_runs w name m rec :
  senderkey_at w name = Ok rec -> (dId m < 2 ^ 32)%N -> (dIteration m < 2 ^ 32)%N ->
  exists w', run (group_process name m) w = (Ok tt, w') /\
    sender_keys_become w name (rec ++ [fresh_state (dId m) (dIteration m) (dChainKey m) (dSignatureKey m) None]) w'.
Proof using.
  intros Hr Hi Hn. unfold group_process. rewrite run_bind, run_do, load_senderkey, Hr. rewrite run_bind, run_lift. unfold sks_create.
  rewrite !set_u32_ok by done. rewrite !bind_ok, run_do. cbn [step_call]. eexists. split; [done|]. split; [|done].
  apply senderkey_stored. apply Forall_app. split; [by eapply senderkey_wf|]. repeat constructor; done.
Qed.

Lemma group_create_again w name s rec pub :
  senderkey_at w name = Ok (s :: rec) -> identity_of (signing_public s) pub ->
  exists m, run (group_create C name) w = (Ok m, w) /\ distributes m (key_id s) (chain_at s) (chain_key s) pub.
Proof using.
  intros Hr Hp. pose proof (senderkey_wf _ _ _ Hr) as [Hw _]%Forall_cons. destruct (chain_bound s Hw) as [Hc Hid].
  unfold group_create. rewrite run_rethrow, run_bind, run_do, load_senderkey, Hr. rewrite run_bind. cbn [run]. rewrite run_lift. cbn [first_state].
  rewrite bind_ok, (proj2 (public_iff s pub) Hp), bind_ok.
  change (scIteration (sks_getSenderChainKey s)) with (chain_at s). change (scKey (sks_getSenderChainKey s)) with (chain_key s).
  change (sks_getKeyId s) with (key_id s). pose proof (skd_create_ok (key_id s) (chain_at s) (chain_key s) pub Hid Hc) as Hd.
  rewrite Hd. eexists. split; [done|]. split_and!; try done. eapply skd_roundtrip_msg; [|done].
  destruct Hp as (t & _ & ->). rewrite take_length. lia.
Qed.

Lemma group_create_first w name :
  senderkey_at w name = Ok [] ->
  let id := (be_val (w_tape w (w_pos w)) mod 2147483647)%N in
  let ck := resize 32 x00 (w_tape w (1 + w_pos w)) in let kp := kp_at C w (2 + w_pos w) in
  exists m w', run (group_create C name) w = (Ok m, w') /\ distributes m id 0 ck (kp_pub kp) /\
    sender_keys_become (w_set_pos (3 + w_pos w) w) name [fresh_state id 0 ck (kp_pub kp) (Some (kp_priv kp))] w'.
Proof using Hok.
  intros Hr id ck kp. unfold group_create. rewrite run_rethrow, run_bind, run_do, load_senderkey, Hr.
  rewrite run_bind, run_bind, run_getRandomSequence by done. change (be_val (w_tape w (w_pos w)) mod 2147483647)%N with id.
  assert (id < 2 ^ 32)%N as Hid.
  { unfold id. generalize (be_val (w_tape w (w_pos w))). intros x. pose proof (N.mod_lt x 2147483647 ltac:(done)). lia. }
  rewrite run_bind, run_do. cbn [step_call]. change (resize 32 x00 (w_tape (w_set_pos _ _) _)) with ck.
  rewrite run_bind, (run_generateKeyPair C Hok). change (kp_at C _ _) with kp.
  rewrite run_bind, run_lift. unfold sks_create. rewrite !set_u32_ok by done. rewrite !bind_ok, run_bind, run_do. cbn [step_call run].
  rewrite run_lift. cbn [first_state]. rewrite bind_ok.
  pose proof (kp_at_pub_len C Hok w (2 + w_pos w)) as Hl. change (length (kp_pub kp) = 32) in Hl.
  unfold sks_getSigningKeyPublic. cbn [st_senderSigningKey]. rewrite default_Some. cbn [ssk_public]. rewrite default_Some.
  rewrite decodePoint_serialize by lia. rewrite bind_ok.
  change (sks_getKeyId _) with id. change (scIteration (sks_getSenderChainKey _)) with 0%N. change (scKey (sks_getSenderChainKey _)) with ck.
  pose proof (skd_create_ok id 0 ck (kp_pub kp) Hid ltac:(done)) as Hd. rewrite Hd. eexists _, _. split; [done|]. split.
  - split_and!; try done. eapply skd_roundtrip_msg; [|done]. lia.
  - split; [|done]. apply senderkey_stored. repeat constructor; done.
Qed.
End effects.
