(** A device that was just installed can be contacted: C88. *)
From Verif Require Import PyBase Wire Protos Crypto Ecc Kdf Messages State Prog Ratchet Builder Cipher Groups Helper ProgFacts ProtoFacts StateFacts UtilFacts HelperFacts MsgFacts Sched.
From Verif Require Import SpecUtil SpecSession SpecKeys SpecConv SpecMany SpecExact SpecIso SpecInstall Install UtilProofs HandshakeFacts IsoProofs SessionProofs HandshakeProofs ConvStart ExactProofs.

Section install.
Context (C : crypto) (Hok : crypto_ok C).

(** *** The generated keys *)

Lemma prekey_created start w k :
  let r := PrS (Some (Z.to_N (preKeyId_at start k))) (Some (pub_serialize (kp_pub (kp_at C w (w_pos w + k)))))
             (Some (kp_priv (kp_at C w (w_pos w + k)))) in
  prekeyrecord_parse (pr_enc r) = Ok r /\ prekeyrecord_getId r = Z.to_N (preKeyId_at start k) /\
  prekeyrecord_getKeyPair r = Ok (kp_at C w (w_pos w + k)) /\ (prekeyrecord_getId r < 2 ^ 32)%N /\ prekeyrecord_getId r <> 16777215%N.
Proof using Hok.
  intros r. pose proof (preKeyId_range start k) as Hr. unfold max_prekey_id in Hr.
  assert (Z.to_N (preKeyId_at start k) < 2 ^ 32)%N as Hlt by lia.
  destruct (prekeyrecord_roundtrip (Z.to_N (preKeyId_at start k)) (kp_at C w (w_pos w + k)) r) as (H1 & H2 & H3).
  { rewrite kp_at_pub_len by done. lia. }
  { unfold prekeyrecord_create. rewrite set_u32_ok by done. done. }
  rewrite H2. split_and!; [done|done|done|done|lia].
Qed.

Lemma storePreKeys_elem l m r : NoDup (prekeyrecord_getId <$> l) -> r ∈ l -> storePreKeys l m !! prekeyrecord_getId r = Some (pr_enc r).
Proof.
  revert m. induction l as [|r0 l IH]; intros m Hnd Hr; [by apply elem_of_nil in Hr|].
  rewrite fmap_cons in Hnd. apply NoDup_cons in Hnd as [Hn Hnd]. cbn. apply elem_of_cons in Hr as [->|Hr].
  - clear IH Hnd. revert m. induction l as [|r1 l IH] using rev_ind; intros m; [cbn; by rewrite lookup_insert|].
    unfold storePreKeys in *. rewrite foldl_app. cbn. rewrite lookup_insert_ne.
    + apply IH. intros H. apply Hn. rewrite fmap_app. apply elem_of_app. by left.
    + intros H. apply Hn. rewrite fmap_app. apply elem_of_app. right. cbn. rewrite H. by left.
  - by apply (IH _ Hnd).
Qed.

Definition rec_ok (r : pr_s) : Prop :=
  exists k, genuine C k /\ prekeyrecord_parse (pr_enc r) = Ok r /\ prekeyrecord_getKeyPair r = Ok k /\
    (prekeyrecord_getId r < 2 ^ 32)%N /\ prekeyrecord_getId r <> 16777215%N.

Lemma prekeys_run start count w : exists l,
  run (generatePreKeys C start count) w = (Ok l, w_set_pos (w_pos w + count) w) /\ length l = count /\ Forall rec_ok l /\
  ((Z.of_nat count <= max_prekey_id)%Z -> NoDup (prekeyrecord_getId <$> l)).
Proof using Hok.
  destruct (prekey_ids C Hok start count w) as (l & w' & Hrun & Hlen & _ & _ & _ & Hnd). cbv zeta in Hnd.
  exists l. unfold generatePreKeys in *. rewrite generatePreKeys_run in Hrun |- * by done. injection Hrun as <- <-.
  split; [done|]. split; [done|]. split.
  - apply Forall_map, Forall_true. intros k. exists (kp_at C w (w_pos w + k)).
    destruct (prekey_created start w k) as (H1 & H2 & H3 & H4 & H5). cbv zeta in *. split_and!; [by apply kp_at_genuine|done..].
  - intros Hc. apply Hnd in Hc. apply (NoDup_fmap_1 Z.of_N). rewrite <- list_fmap_compose. exact Hc.
Qed.

Lemma signed_run w0 n id w : let identity := kp_at C w0 n in (id < 2 ^ 32)%N ->
  exists spr kp w', run (generateSignedPreKey C identity id) w = (Ok spr, w') /\
    signedprekeyrecord_parse (spr_enc spr) = Ok spr /\ signedprekeyrecord_getId spr = id /\ signedprekeyrecord_getKeyPair spr = Ok kp /\
    genuine C kp /\ verifies C (kp_pub identity) (x05 :: kp_pub kp) (signedprekeyrecord_getSignature spr).
Proof using Hok.
  intros identity Hid. unfold generateSignedPreKey.
  rewrite run_bind, (run_generateKeyPair C Hok).
  assert (length (kp_priv identity) = 32) as Hil by (by apply kp_at_priv_len).
  rewrite run_bind, (run_calculateSignature C) by done.
  rewrite run_bind, run_do. cbn [step_call]. rewrite run_lift.
  set (t := (_ mod _)%N). assert (t < 2 ^ 64)%N as Ht by (by apply N.mod_lt).
  set (sig := sign C _ _ _). set (kp := kp_at C w (w_pos w)).
  assert (exists spr, signedprekeyrecord_create id t kp sig = Ok spr) as [spr Hspr].
  { unfold signedprekeyrecord_create. rewrite set_u32_ok by done. rewrite bind_ok.
    unfold set_u64. rewrite (proj2 (N.ltb_lt _ _)) by done. rewrite bind_ok. by eexists. }
  destruct (signedprekeyrecord_roundtrip id t kp sig spr) as (H1 & H2 & _ & H4 & H5); [unfold kp; rewrite kp_at_pub_len by done; lia|done|].
  rewrite Hspr. eexists spr, kp, _. split; [done|]. rewrite H4. split_and!; try done.
  - by apply kp_at_genuine.
  - split_and!; [by apply kp_at_pub_len| |].
    + apply (co_sign_len C Hok); [|done]. apply resize_length.
    + apply (co_verify C Hok); [|apply resize_length]. apply resize_length.
Qed.

(** *** The installed device *)

Definition installed (id : N) (x : keypair * N * list pr_s * spr_s) : Prop :=
  let '(identity, reg, l, spr) := x in
  genuine C identity /\ (reg < 2 ^ 32)%N /\ Forall rec_ok l /\
  exists kp, signedprekeyrecord_parse (spr_enc spr) = Ok spr /\ signedprekeyrecord_getId spr = id /\
    signedprekeyrecord_getKeyPair spr = Ok kp /\ genuine C kp /\
    verifies C (kp_pub identity) (x05 :: kp_pub kp) (signedprekeyrecord_getSignature spr).
Lemma install_run ext start count id w : (id < 2 ^ 32)%N ->
  exists x w', run (install C ext start count id) w = (Ok x, w') /\ installed id x /\ length x.1.2 = count /\
    ((Z.of_nat count <= max_prekey_id)%Z -> NoDup (prekeyrecord_getId <$> x.1.2)).
Proof using Hok.
  intros Hid. unfold install, generateIdentityKeyPair. rewrite run_bind, (run_generateKeyPair C Hok).
  destruct (registration_id ext (w_set_pos (S (w_pos w)) w)) as (v & w1 & Hreg & Hv). rewrite run_bind, Hreg.
  destruct (prekeys_run start count w1) as (l & Hl & Hlen & Hall & Hnd). rewrite run_bind, Hl.
  destruct (signed_run w (w_pos w) id (w_set_pos (w_pos w1 + count) w1) Hid) as (spr & kp & w2 & Hs & Hspr). cbv zeta in *.
  rewrite run_bind, Hs, run_ret. eexists _, _. split; [done|]. cbn. split_and!; [by apply kp_at_genuine|destruct ext; lia|done|by exists kp|done|done].
Qed.

Lemma bundle_of_stored id x p dev wB :
  installed id x -> (id < 2 ^ 31)%N -> p ∈ x.1.2 ->
  w_identity wB = x.1.1.1 -> w_signed wB !! id = Some (spr_enc x.2) -> w_prekeys wB !! prekeyrecord_getId p = Some (pr_enc p) ->
  exists b spk k, bundle_with (kp_pub x.1.1.1) x.1.1.2 dev p x.2 = Ok b /\ signedprekeyrecord_getKeyPair x.2 = Ok spk /\
    bundle_of C wB b spk (Some (prekeyrecord_getId p, k)) /\ prekeyrecord_getId p <> 16777215%N.
Proof using Hok.
  destruct x as [[[identity reg] l] spr]. cbn. intros (G & Hreg & Hall & kp & H1 & H2 & H3 & H4 & H5) Hid Hp Hi Hs Hk.
  rewrite Forall_forall in Hall. destruct (Hall p Hp) as (k & Gk & K1 & K2 & K3 & K4).
  unfold bundle_with. rewrite K2, bind_ok, H3, bind_ok. eexists _, kp, k. split; [done|]. split; [done|]. split; [|done].
  unfold bundle_of. cbn [bu_identityKey bu_signedPreKeyId bu_signedPreKey bu_signedPreKeySignature bu_registrationId bu_preKeyId bu_preKey].
  rewrite Hi, H2. split_and!; try done.
  - exists (spr_enc spr), spr. done.
  - exists (pr_enc p), p. done.
Qed.

Lemma device_holds id x w : installed id x -> NoDup (prekeyrecord_getId <$> x.1.2) ->
  let wB := device_of x w in
  able C wB /\ w_identity wB = x.1.1.1 /\ w_signed wB !! id = Some (spr_enc x.2) /\
  (forall p, p ∈ x.1.2 -> w_prekeys wB !! prekeyrecord_getId p = Some (pr_enc p)) /\ w_sessions wB = ∅ /\ w_trusted wB = ∅.
Proof using.
  destruct x as [[[identity reg] l] spr]. cbn. intros (G & Hreg & Hall & kp & H1 & H2 & H3 & H4 & H5) Hnd.
  split_and!; try done.
  - rewrite <- H2. apply lookup_singleton.
  - intros p Hp. by apply storePreKeys_elem.
Qed.

Lemma contact_run extA sA nA idA w1 xA wA extB sB nB idB w2 xB wB p rA dA rB dB :
  (idA < 2 ^ 32)%N -> (idB < 2 ^ 31)%N -> (Z.of_nat nB <= max_prekey_id)%Z ->
  run (install C extA sA nA idA) w1 = (Ok xA, wA) -> run (install C extB sB nB idB) w2 = (Ok xB, wB) -> p ∈ xB.1.2 ->
  exists b spk wA1, bundle_with (kp_pub xB.1.1.1) xB.1.1.2 dB p xB.2 = Ok b /\ signedprekeyrecord_getKeyPair xB.2 = Ok spk /\
    run (processPreKeyBundle C rB dB b) (device_of xA wA) = (Ok tt, wA1) /\
    forall l es n', play C rA dA rB dB l (Net wA1 (device_of xB wB) [] []) = (es, n') ->
      NoDup ([kp_pub spk] ++ drawn C (device_of xA wA) (n_A n') ++ drawn C (device_of xB wB) (n_B n')) ->
      (N.of_nat (length l) < 2 ^ 32)%N ->
      exactly C rA dA rB dB l (Net wA1 (device_of xB wB) [] []) (Conv (Some (Party 1 0 [] true)) None [] []).
Proof using Hok.
  intros HidA HidB HnB HA HB Hp.
  destruct (install_run extA sA nA idA w1 HidA) as (xA' & wA' & HA' & IA & _ & _). rewrite HA in HA'. injection HA' as <- <-.
  destruct (install_run extB sB nB idB w2 ltac:(lia)) as (xB' & wB' & HB' & IB & _ & NB). rewrite HB in HB'. injection HB' as <- <-.
  destruct (device_holds idB xB wB IB (NB HnB)) as (AB & B1 & B2 & B3 & B4 & B5). cbv zeta in *.
  assert (able C (device_of xA wA) /\ w_sessions (device_of xA wA) = ∅ /\ w_trusted (device_of xA wA) = ∅) as (AA & A4 & A5).
  { destruct xA as [[[identity reg] ?] spr]. destruct IA as (G & Hreg & _). done. }
  destruct (bundle_of_stored idB xB p dB (device_of xB wB) IB HidB Hp B1 B2 (B3 p Hp)) as (b & spk & k & Hb & Hs & Hbu & _).
  assert (trusts (device_of xA wA) rB (kp_pub (w_identity (device_of xB wB)))) as TA by (left; by rewrite A5).
  assert (session_at (device_of xA wA) rB dB = Ok sr_new) as SA by (unfold session_at; by rewrite A4).
  destruct (bundle_run C Hok rB dB b spk _ _ _ _ AA Hbu TA SA) as (wA1 & s & Hrun & _ & Hst & _).
  exists b, spk, wA1. split_and!; [done..|]. intros l es n' Hplay Hnd Hlen.
  destruct (bundle_exact C Hok rA dA rB dB b spk _ k (device_of xA wA) (device_of xB wB) sr_new l es n' wA1 AA AB Hbu TA SA
    ltac:(left; by rewrite B5) ltac:(by rewrite B4) Hrun Hplay Hnd Hlen) as (recA & Hrec & H).
  rewrite Hst in Hrec. injection Hrec as <-. by apply H.
Qed.

(** *** Everybody at once *)

Definition serves (id : N) (x : keypair * N * list pr_s * spr_s) (w : world) : Prop :=
  (w_regid w < 2 ^ 32)%N /\ w_identity w = x.1.1.1 /\ w_signed w !! id = Some (spr_enc x.2).
Definition waits (x : keypair * N * list pr_s * spr_s) (rB dB : Z) (w : world) (c : contact) : Prop :=
  ct_prekey c ∈ x.1.2 /\ able C (ct_world c) /\ w_sessions (ct_world c) !! (rB, dB) = None /\ w_trusted (ct_world c) !! rB = None /\
  w_prekeys w !! prekeyrecord_getId (ct_prekey c) = Some (pr_enc (ct_prekey c)) /\
  w_sessions w !! (ct_r c, ct_d c) = None /\ w_trusted w !! ct_r c = None.
Definition served_now (w : world) (c : contact) : Prop :=
  (exists rec, session_at w (ct_r c) (ct_d c) = Ok rec /\ is_Some (ss_senderChain (sr_state rec))) /\
  w_trusted w !! ct_r c = Some (kp_pub (w_identity (ct_world c))).

Lemma one_run id x rB dB spk c m w : installed id x -> (id < 2 ^ 31)%N -> signedprekeyrecord_getKeyPair x.2 = Ok spk ->
  says C rB dB x c m -> serves id x w -> waits x rB dB w c ->
  NoDup (kp_pub spk :: draws3 C (ct_world c) ++ [kp_pub (kp_at C w (w_pos w))]) ->
  exists w1, run (decryptPkmsg C (ct_r c) (ct_d c) m) w = (Ok (ct_text c), w1) /\ serves id x w1 /\ w_pos w1 = S (w_pos w) /\
    w_tape w1 = w_tape w /\ served_now w1 c /\ w_prekeys w1 = delete (prekeyrecord_getId (ct_prekey c)) (w_prekeys w) /\
    only_changes (ct_r c) (ct_d c) w w1.
Proof using Hok.
  intros Hx Hid Hspk Hm (Hreg & Hi & Hs) (Hp & HA & HAs & HAt & Hk & Hns & Hnt) Hnd.
  destruct (bundle_of_stored id x (ct_prekey c) dB w Hx Hid Hp Hi Hs Hk) as (b & spk' & k & Hb & Hspk' & Hbu & Hlast).
  rewrite Hspk in Hspk'. injection Hspk' as <-.
  destruct x as [[[identity reg] l] spr]. cbn in Hb. destruct Hm as (b' & w1 & m0 & w2 & Hb' & R1 & R2 & R3).
  rewrite Hb in Hb'. injection Hb' as <-.
  assert (able C w) as HB. { split; [|done]. rewrite Hi. by destruct Hx as (G & _). }
  destruct (first_message_pos C Hok (ct_r c) (ct_d c) rB dB b spk _ k (ct_world c) w sr_new (ct_text c) [] HA HB Hbu) as
    (x1 & x2 & x3 & x4 & x5 & x6 & x7 & x8 & H1 & H2 & H3 & H4 & H5 & H6 & H7 & _ & _ & H10).
  { left. done. } { unfold session_at. by rewrite HAs. } { left. done. } { done. }
  { unfold draws3 in Hnd. cbn in Hnd. rewrite Nat.add_0_r, !(Nat.add_comm (w_pos (ct_world c))) in Hnd. exact Hnd. }
  rewrite R1 in H1. injection H1 as <-. rewrite R2 in H2. injection H2 as <- <-. rewrite R3 in H3. injection H3 as <-.
  exists x5. pose proof (proj1 (peer_isolated C (ct_r c) (ct_d c) _ _ (peer_pkmsg C _ _ m)) w) as Hoc. rewrite H4 in Hoc. cbn in Hoc.
  pose proof Hoc as (_ & _ & _ & O1 & O2 & O3).
  split; [done|]. split. { unfold serves. rewrite O1, O2, O3. done. }
  split; [done|]. split. { pose proof (ConvProofs.run_stream' _ _ _ _ H4) as [? _]. done. }
  split; [done|]. split; [|done].
  destruct (pkmsg_prekeys C (ct_r c) (ct_d c) m w) as [E|(j & _ & _ & E)]; rewrite H4 in E; cbn in E; specialize (H7 Hlast).
  - rewrite E in H7. congruence.
  - rewrite E in H7 |- *. apply lookup_delete_None in H7 as [->|H7]; [done|congruence].
Qed.

Lemma everyone_run id x rB dB spk : installed id x -> (id < 2 ^ 31)%N -> signedprekeyrecord_getKeyPair x.2 = Ok spk ->
  forall cs ms, Forall2 (says C rB dB x) cs ms ->
  forall w, serves id x w -> NoDup (ct_r <$> cs) -> NoDup ((prekeyrecord_getId ∘ ct_prekey) <$> cs) -> Forall (waits x rB dB w) cs ->
  NoDup (kp_pub spk :: concat ((fun c => draws3 C (ct_world c)) <$> cs) ++ ((fun i => kp_pub (kp_at C w i)) <$> seq (w_pos w) (length cs))) ->
  let '(os, w') := arrive C (zip cs ms) w in
  os = (fun c => Ok (ct_text c)) <$> cs /\ Forall (served_now w') cs /\
  (forall r d, r ∉ ct_r <$> cs -> w_sessions w' !! (r, d) = w_sessions w !! (r, d) /\ w_trusted w' !! r = w_trusted w !! r) /\
  (forall i, w_prekeys w' !! i = if bool_decide (i ∈ (prekeyrecord_getId ∘ ct_prekey) <$> cs) then None else w_prekeys w !! i).
Proof using Hok.
  intros Hx Hid Hspk cs ms Hsays. induction Hsays as [|c m cs ms Hm Hms IH]; intros w Hw Hr Hp Hwait Hnd.
  { cbn. split_and!; [done|constructor|done|done]. }
  apply Forall_cons in Hwait as [Hwc Hwait]. rewrite fmap_cons in Hr. rewrite fmap_cons in Hp. apply NoDup_cons in Hr as [Hr0 Hr]. apply NoDup_cons in Hp as [Hp0 Hp].
  cbn [zip zip_with arrive]. 
  destruct (one_run id x rB dB spk c m w Hx Hid Hspk Hm Hw Hwc) as (w1 & Hrun & Hw1 & Hpos & Htape & Hsn & Hpk & Hoc).
  { eapply sublist_NoDup; [exact Hnd|]. cbn [fmap list_fmap concat length seq]. apply sublist_skip.
    rewrite <- app_assoc. apply sublist_app; [done|]. apply sublist_inserts_l. apply sublist_skip, sublist_nil_l. }
  rewrite Hrun. specialize (IH w1 Hw1 Hr Hp).
  pose proof Hoc as (O1 & O2 & _).
  destruct (arrive C (zip cs ms) w1) as [os w'] eqn:E. destruct IH as (I1 & I2 & I3 & I4).
  { rewrite Forall_forall in Hwait |- *. intros c' Hc'. destruct (Hwait c' Hc') as (W1 & W2 & W3 & W4 & W5 & W6 & W7).
    assert (ct_r c' <> ct_r c) as Hne. { intros Heq. apply Hr0. rewrite <- Heq. by apply elem_of_list_fmap_1. }
    unfold waits. rewrite Hpk, O1 by congruence. rewrite O2 by done. split_and!; try done. rewrite lookup_delete_ne; [done|].
    intros Heq. apply Hp0. cbn in *. rewrite Heq. by apply (elem_of_list_fmap_1 (prekeyrecord_getId ∘ ct_prekey)). }
  { eapply sublist_NoDup; [exact Hnd|]. cbn [fmap list_fmap concat length seq]. apply sublist_skip.
    rewrite <- app_assoc. apply sublist_inserts_l. apply sublist_app; [done|]. rewrite Hpos.
    apply sublist_cons. erewrite list_fmap_ext; [done|]. intros i y _. cbn. unfold kp_at. by rewrite Htape. }
  split_and!.
  - rewrite fmap_cons. by f_equal.
  - constructor; [|done]. destruct Hsn as [(rec & S1 & S2) S3]. destruct (I3 (ct_r c) (ct_d c) Hr0) as [J1 J2].
    split; [exists rec; split; [|done]; unfold session_at in *; by rewrite J1|by rewrite J2].
  - intros r d Hn. rewrite fmap_cons in Hn. apply not_elem_of_cons in Hn as [Hn1 Hn2]. destruct (I3 r d Hn2) as [-> ->].
    rewrite O1, O2 by congruence. done.
  - intros i. rewrite I4, Hpk, fmap_cons. destruct (bool_decide_reflect (i ∈ (prekeyrecord_getId ∘ ct_prekey) <$> cs)) as [Hin|Hin].
    + rewrite bool_decide_true by (by right). done.
    + destruct (decide (i = prekeyrecord_getId (ct_prekey c))) as [->|Hne].
      * rewrite bool_decide_true by (by left). apply lookup_delete.
      * rewrite bool_decide_false by (intros [?|?]%elem_of_cons; done). by rewrite lookup_delete_ne.
Qed.

Lemma everyone ext start count id w0 x w1 rB dB spk cs ms :
  (id < 2 ^ 31)%N -> (Z.of_nat count <= max_prekey_id)%Z -> run (install C ext start count id) w0 = (Ok x, w1) ->
  signedprekeyrecord_getKeyPair x.2 = Ok spk -> Forall2 (says C rB dB x) cs ms ->
  NoDup (ct_r <$> cs) -> NoDup ((prekeyrecord_getId ∘ ct_prekey) <$> cs) ->
  Forall (fun c => ct_prekey c ∈ x.1.2 /\ able C (ct_world c) /\ w_sessions (ct_world c) !! (rB, dB) = None /\ w_trusted (ct_world c) !! rB = None) cs ->
  NoDup (kp_pub spk :: concat ((fun c => draws3 C (ct_world c)) <$> cs) ++ first_draws C w1 (length cs)) ->
  let '(os, w') := arrive C (zip cs ms) (device_of x w1) in
  os = (fun c => Ok (ct_text c)) <$> cs /\
  Forall (fun c => (exists rec, session_at w' (ct_r c) (ct_d c) = Ok rec /\ is_Some (ss_senderChain (sr_state rec))) /\
    w_trusted w' !! ct_r c = Some (kp_pub (w_identity (ct_world c)))) cs /\
  (forall p, p ∈ x.1.2 -> w_prekeys w' !! prekeyrecord_getId p =
     if bool_decide (prekeyrecord_getId p ∈ (prekeyrecord_getId ∘ ct_prekey) <$> cs) then None else Some (pr_enc p)).
Proof using Hok.
  intros Hid Hc Hrun Hspk Hsays Hr Hp Hall Hnd.
  destruct (install_run ext start count id w0 ltac:(lia)) as (x' & w' & Hrun' & Hx & _ & Hids). rewrite Hrun in Hrun'. injection Hrun' as <- <-.
  destruct (device_holds id x w1 Hx (Hids Hc)) as (AB & B1 & B2 & B3 & B4 & B5). cbv zeta in *.
  pose proof (everyone_run id x rB dB spk Hx Hid Hspk cs ms Hsays (device_of x w1)) as H.
  destruct (arrive C (zip cs ms) (device_of x w1)) as [os w']. destruct H as (H1 & H2 & _ & H4).
  - destruct AB as [_ AB]. done.
  - done.
  - done.
  - eapply Forall_impl; [exact Hall|]. intros c (W1 & W2 & W3 & W4). unfold waits. rewrite B4, B5. split_and!; try done. by apply B3.
  - destruct x as [[[??]?]?]. exact Hnd.
  - split_and!; [done|done|]. intros p Hpx. by rewrite H4, (B3 p Hpx).
Qed.
Lemma install_ok ext start count id w : (id < 2 ^ 32)%N ->
  exists x w', run (install C ext start count id) w = (Ok x, w') /\ length x.1.2 = count /\
    forall p dev, p ∈ x.1.2 -> exists b, bundle_with (kp_pub x.1.1.1) x.1.1.2 dev p x.2 = Ok b.
Proof using Hok.
  intros Hid. destruct (install_run ext start count id w Hid) as (x & w' & Hrun & Hx & Hlen & _). exists x, w'. split_and!; [done..|].
  intros p dev Hp. destruct x as [[[identity reg] l] spr]. destruct Hx as (_ & _ & Hall & kp & _ & _ & H3 & _). cbn in *.
  rewrite Forall_forall in Hall. destruct (Hall p Hp) as (k & _ & _ & K2 & _). unfold bundle_with. rewrite K2, bind_ok, H3, bind_ok. by eexists.
Qed.
End install.
