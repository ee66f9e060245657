(** How conversations start: matching sessions (C01), a prekey bundle (C11). *)
From Verif Require Import PyBase Wire Protos ProtoFacts Crypto Ecc Kdf Messages State Prog Ratchet Builder Cipher Helper.
From Verif Require Import ProgFacts StateFacts UtilFacts HelperFacts MsgFacts CipherFacts DecryptFacts SpecUtil SpecSession SessionProofs HandshakeFacts.
From Verif Require Import InvFacts HistoryProofs SpecKeys KeyProofs SpecEncrypt EncryptProofs Sched SpecConv ConvFacts ConvProofs ConvNet.

Lemma sublist_NoDup {A} (l k : list A) : NoDup k -> l `sublist_of` k -> NoDup l.
Proof.
  intros Hk Hs. revert Hk. induction Hs as [|x l k Hs IH|x l k Hs IH]; intros Hk; [done|..]; apply NoDup_cons in Hk as [Hx Hk]; [|by apply IH].
  apply NoDup_cons. split; [|by apply IH]. intros H. apply Hx. by eapply elem_of_submseteq; [|apply sublist_submseteq].
Qed.

Section start.
Context (C : crypto) (Hok : crypto_ok C).

(** ** The two ends at the start *)

Lemma start_second root chain me them s ka kb al :
  sends s me them root kb chain -> ss_receiverChains s = [] ->
  srel C root chain me them [kb; ka] s (Party 0 0 [] al).
Proof using.
  intros (H1 & H2 & H3 & H4 & c & H5 & H6 & H7 & H8) Hr. unfold srel. cbn [p_turn p_sent p_got].
  split_and!; try done.
  - cbn. lia.
  - eauto 6.
  - rewrite Hr. constructor.
  - by intros l i ?%elem_of_nil.
Qed.

Lemma start_first root chain me them s ka kb al c :
  sends s me them (dh_root C root (kp_priv kb) (kp_pub ka)) ka (dh_chain C 3 root (kp_priv kb) (kp_pub ka)) ->
  ss_receiverChains s = [c] -> ch_ratchetKey c = Some (x05 :: kp_pub kb) ->
  ch_chainKey c = Some (CkS (Some 0%N) (Some chain)) -> ch_messageKeys c = [] ->
  srel C root chain me them [kb; ka] s (Party 1 0 [] al).
Proof using Hok.
  intros (H1 & H2 & H3 & H4 & c' & H5 & H6 & H7 & H8) Hr Hc1 Hc2 Hc3. unfold srel. cbn [p_turn p_sent p_got].
  change (level C root chain [kb; ka] 1) with (rkdf C root (agree C (kp_priv kb) (kp_pub ka))).
  rewrite (dh_rkdf C Hok). cbn [fst snd].
  split_and!; try done.
  - cbn. lia.
  - eauto 6.
  - rewrite Hr. change (kept 1) with [0%nat]. constructor; [|constructor].
    unfold crel. rewrite Hc1, Hc2, Hc3. split_and!; try done.
    + constructor.
    + intros i. cbn. rewrite elem_of_nil. split; [done|]. lia.
  - by intros l i ?%elem_of_nil.
Qed.

(** ** C01 *)

Lemma conversation rA dA rB dB wA wB recA recB ida idb ka kb l es n' :
  session_at wA rB dB = Ok recA -> session_at wB rA dA = Ok recB ->
  matching C (sr_state recA) (sr_state recB) ida idb ka kb ->
  play C rA dA rB dB l (Net wA wB [] []) = (es, n') ->
  NoDup ([kp_pub ka; kp_pub kb] ++ drawn C wA (n_A n') ++ drawn C wB (n_B n')) ->
  (N.of_nat (length l) < 2 ^ 32)%N ->
  as_expected l es (Conv (Some (first_party recA)) (Some (second_party recB)) [] []).
Proof using Hok.
  intros HrA HrB (Gka & Gkb & La & Lb & PA & PB & root & chain & SB & RB & SA & c & RA & C1 & C2 & C3) Hplay Hnd Hlen.
  apply (play_net C Hok rA dA rB dB root chain ida idb None La Lb ltac:(done) (fun _ => False) kb ltac:(done) ltac:(done) l [kb; ka]
    (Net wA wB [] []) _ es n'); try done.
  - unfold nrel. cbn [n_A n_B n_fromA n_fromB c_A c_B c_fromA c_fromB turn_of p_turn first_party second_party].
    split_and!; try done.
    + constructor; [done|]. constructor; [done|]. constructor.
    + eexists. split; [done|]. exists recA. split_and!; try done.
      * by eapply start_first.
      * unfold pending_ok. by rewrite PA.
    + exists recB. split_and!; try done.
      * by apply start_second.
      * unfold pending_ok. by rewrite PB.
    + by exists 0%nat.
    + by exists 0%nat.
    + by left.
  - unfold fresh. cbn [n_A n_B fmap list_fmap]. eapply NoDup_Permutation_proper; [|exact Hnd]. apply perm_swap.
Qed.

(** ** The first message to a device without a session *)

(** B can answer a prekey message that names these prekeys. *)
Definition ready (rA dA : Z) (ida : bytes) (idB spk otpk : keypair) (sid pid : N) (w : world) : Prop :=
  w_sessions w !! (rA, dA) = None /\ trusts w rA ida /\ w_identity w = idB /\ (w_regid w < 2 ^ 32)%N /\
  (exists spr, step_call (CLoadSignedPreKey sid) w = (Ok spr, w) /\ signedprekeyrecord_getKeyPair spr = Ok spk) /\
  (exists pr, step_call (CLoadPreKey pid) w = (Ok pr, w) /\ prekeyrecord_getKeyPair pr = Ok otpk).

Lemma ready_unchanged rA dA ida idB spk otpk sid pid w w' :
  unchanged w w' \/ (unchanged_but_trust w w' /\ w_trusted w' = <[rA := ida]> (w_trusted w)) ->
  ready rA dA ida idB spk otpk sid pid w -> ready rA dA ida idB spk otpk sid pid w'.
Proof using.
  intros Hu (H1 & H2 & H3 & H4 & (spr & H5 & H6) & (pr & H7 & H8)).
  assert (w_sessions w' = w_sessions w /\ w_prekeys w' = w_prekeys w /\ w_signed w' = w_signed w /\
    w_identity w' = w_identity w /\ w_regid w' = w_regid w) as (U1 & U2 & U3 & U4 & U5)
    by (destruct Hu as [(?&?&?&?&?&?&?)|[(?&?&?&?&?&?) _]]; done).
  assert (trusts w' rA ida) as Ht.
  { destruct Hu as [(_&_&_&Ht&_)|[_ Ht]]; unfold trusts; rewrite Ht; [done|]. right. by rewrite lookup_insert. }
  unfold ready. rewrite U1, U4, U5. split_and!; try done.
  - exists spr. split; [|done]. cbn [step_call] in *. rewrite U3. injection H5 as ->. done.
  - exists pr. split; [|done]. cbn [step_call] in *. rewrite U2. injection H7 as ->. done.
Qed.

Lemma first_decrypt rA dA ida idB spk otpk sid base r0 c0 :
  genuine C idB -> genuine C spk -> (forall k, snd <$> otpk = Some k -> genuine C k) -> length ida = 32 -> length base = 32 ->
  let k0 := mkdf C (secretB C idB spk (snd <$> otpk) ida base) in
  r0 = k0.1 -> c0 = k0.2 ->
  forall ks w q i pt,
  Forall (genuine C) ks -> NoDup (kp_pub <$> ks) -> length ks = 2 -> kth ks 0 = spk ->
  w_sessions w !! (rA, dA) = None -> trusts w rA ida -> w_identity w = idB -> (w_regid w < 2 ^ 32)%N ->
  (exists spr, step_call (CLoadSignedPreKey sid) w = (Ok spr, w) /\ signedprekeyrecord_getKeyPair spr = Ok spk) ->
  (forall pid k, otpk = Some (pid, k) -> exists pr, step_call (CLoadPreKey pid) w = (Ok pr, w) /\ prekeyrecord_getKeyPair pr = Ok k) ->
  mrel C r0 c0 ks ida (kp_pub idB) (1%nat, i, pt) (pMessage q) ->
  pVersion q = 3%N -> pBaseKey q = base -> pIdentityKey q = ida -> pSignedPreKeyId q = sid -> pPreKeyId q = fst <$> otpk ->
  (pRegistrationId q < 2 ^ 32)%N ->
  if (2000 <? i)%N then exists w', run (decryptPkmsg C rA dA q) w = (Err EInvalidMessage, w')
  else exists w' s, run (decryptPkmsg C rA dA q) w = (Ok pt, w') /\
    session_at w' rA dA = Ok (SessionRecord false s []) /\
    srel C r0 c0 (kp_pub idB) ida (ks ++ [kp_at C w (w_pos w)]) s (Party 2 0 [(1%nat, i)] true) /\
    ss_pendingPreKey s = None /\ ss_aliceBaseKey s = Some (pub_serialize base) /\
    w_trusted w' !! rA = Some ida /\ w_pos w' = S (w_pos w) /\
    w_prekeys w' = match otpk with
                   | Some (pid, _) => if (pid =? MEDIUM_MAX_VALUE)%N then w_prekeys w else delete pid (w_prekeys w)
                   | None => w_prekeys w
                   end.
Proof using Hok.
  intros Gid Gspk Gotpk Lida Lbase k0 Hr0 Hc0 ks w q i pt Hgen Hnd Hlen Hk0 Hnone Htr Hid Hreg (spr & Hspr & Hspk) Hpre Hm Hqv Hqb Hqi Hqs Hqp Hqr.
  assert (session_at w rA dA = Ok sr_new) as Hrec by (unfold session_at; by rewrite Hnone).
  assert (~ belongs sr_new (pVersion q) (pBaseKey q)) as Hnb.
  { intros (s & [-> | Hin] & _ & Hb); [done|]. by apply elem_of_nil in Hin. }
  pose proof (run_processV3 C sr_new q w rA dA spr spk Hrec Hnb) as Hp3. rewrite Hqs in Hp3.
  specialize (Hp3 Hspr Hspk (snd <$> otpk)). rewrite Hqp in Hp3.
  assert (match fst <$> otpk with
     | Some i0 => ∃ pr kp, step_call (CLoadPreKey i0) w = (Ok pr, w) ∧ prekeyrecord_getKeyPair pr = Ok kp ∧ snd <$> otpk = Some kp
     | None => snd <$> otpk = None
     end) as Hload.
  { destruct otpk as [[pid k]|]; [|done]. destruct (Hpre pid k eq_refl) as (pr & Hp1 & Hp2). cbn. exists pr, k. done. }
  specialize (Hp3 Hload). rewrite Hid, Hqi, Hqb in Hp3.
  specialize (Hp3 ltac:(by destruct Gid) ltac:(by destruct Gspk) ltac:(intros k Hk; by destruct (Gotpk k Hk)) Lida Lbase Hreg Hqr).
  cbv zeta in Hp3. fold k0 in Hp3. rewrite <- Hr0, <- Hc0 in Hp3.
  match type of Hp3 with _ = (Ok (sr_setState ?s _, ?u), _) => set (s0 := s) in *; set (used := u) in * end.
  change (archiveUnlessFresh sr_new) with sr_new in Hp3.
  set (w1 := w_set_trusted (<[rA := ida]> (w_trusted w)) w).
  assert (srel C r0 c0 (kp_pub idB) ida ks s0 (Party 0 0 [] true)) as Hs0.
  { destruct ks as [|k1 [|k2 [|]]]; try done. cbn in Hk0. subst k1. apply start_second; [|done].
    unfold sends. split_and!; try done. eexists. split_and!; done. }
  assert (ss_wf s0) as Hwf.
  { unfold ss_wf, s0. cbn [ss_version ss_previousCounter ss_senderChain ss_receiverChains ss_pendingKeyExchange ss_pendingPreKey ss_remoteRegId ss_localRegId].
    cbn [wfV wfM]. split_and!; try done; try lia. split; [|constructor]. cbn. lia. }
  assert (run (decryptPkmsg C rA dA q) w =
    match run (decryptWithSessionRecord C (sr_setState s0 sr_new) (pMessage q)) w1 with
    | (Ok y, w2) => let w3 := w_set_sessions (<[(rA, dA) := sr_serialize y.2]> (w_sessions w2)) w2 in
        (Ok y.1, match used with None => w3 | Some pid => w_set_prekeys (delete pid (w_prekeys w3)) w3 end)
    | (Err e, w2) => (Err e, w2)
    end) as Hrun.
  { unfold decryptPkmsg.
    rewrite run_bind, run_do, load_session, Hrec, run_bind. unfold builder_process.
    rewrite run_bind, run_do, trusted_true by (by rewrite Hqi). rewrite run_bind, Hp3, run_bind, run_do. cbn [step_call]. rewrite Hqi. fold w1.
    rewrite run_ret, run_bind. cbn [fst snd].
    destruct (run (decryptWithSessionRecord C (sr_setState s0 sr_new) (pMessage q)) w1) as [[y|e] w2]; [|done].
    rewrite run_bind, run_do. cbn [step_call]. destruct used as [pid|]; [|done].
    rewrite run_bind, run_do. done. }
  set (ek := kp_at C w (w_pos w)).
  assert (genuine C ek) as Gek by (apply (kp_at_genuine C Hok)).
  destruct (new_chain C Hok r0 c0 (kp_pub idB) ida ks Hgen Hnd (genuine_pub_len C Hok _ Gid) Lida s0 (Party 0 0 [] true) i pt (pMessage q) ek Hwf Gek Hs0 Hm Hlen)
    as (Hno & Hfar & Hnear).
  destruct (N.ltb_spec 2000 i) as [Hi|Hi].
  - destruct (record_err C Hok (sr_setState s0 sr_new) (pMessage q) w1 EInvalidMessage (Hfar Hi)) as (w2 & Hr2 & _); [by right|].
    rewrite Hr2 in Hrun. by exists w2.
  - destruct (Hnear Hi) as (s' & Hdec & Hpend & Hbase & Hs').
    destruct (record_ok C Hok (sr_setState s0 sr_new) (pMessage q) w1 pt s' Hdec) as (w2 & Hr2 & Hsame & Hpos).
    rewrite Hr2 in Hrun. cbv zeta in Hrun. cbn [fst snd] in Hrun.
    eexists _, s'. split; [exact Hrun|].
    assert (w_pos w2 = S (w_pos w)) as Hpos2 by (by apply Hpos).
    pose proof (decryptPure_wf C _ _ _ _ _ Hwf Hdec) as Hwf'.
    assert (session_at (w_set_sessions (<[(rA, dA) := sr_serialize (sr_setState s' (sr_setState s0 sr_new))]> (w_sessions w2)) w2) rA dA
      = Ok (SessionRecord false s' [])) as Hst.
    { rewrite session_stored; [done|]. split; [done|constructor]. }
    assert (w_trusted w2 !! rA = Some ida) as Ht2.
    { destruct Hsame as (_ & _ & _ & -> & _). cbn. by rewrite lookup_insert. }
    assert (w_prekeys w2 = w_prekeys w) as Hpk2 by (by destruct Hsame as (_ & -> & _)).
    assert (used = match otpk with Some (pid, _) => if (pid =? MEDIUM_MAX_VALUE)%N then None else Some pid | None => None end) as Hu.
    { unfold used. by destruct otpk as [[??]|]. }
    split_and!; try done.
    + by destruct used.
    + by destruct used.
    + by destruct used.
    + rewrite Hu. destruct otpk as [[pid k]|]; [destruct (pid =? MEDIUM_MAX_VALUE)%N|]; cbn; congruence.
Qed.

Lemma first_delivery rA dA ida idB spk otpk sid pid base reg r0 c0 :
  genuine C idB -> genuine C spk -> genuine C otpk -> length ida = 32 -> length base = 32 ->
  details_ok (Details (Some pid) sid base reg) ->
  let k0 := mkdf C (secretB C idB spk (Some otpk) ida base) in
  r0 = k0.1 -> c0 = k0.2 ->
  forall ks w x i pt,
  Forall (genuine C) ks -> NoDup (kp_pub <$> ks) -> length ks = 2 -> kth ks 0 = spk ->
  ready rA dA ida idB spk otpk sid pid w ->
  wrel C r0 c0 ks (Some (Details (Some pid) sid base reg)) ida (kp_pub idB) x (1%nat, i, pt) -> x.1 = true ->
  if (2000 <? i)%N then exists w', run (receive C rA dA x) w = (Err EInvalidMessage, w') /\ ready rA dA ida idB spk otpk sid pid w'
  else exists w', run (receive C rA dA x) w = (Ok pt, w') /\
    drel C r0 c0 None (Some (Details (Some pid) sid base reg)) (kp_pub idB) ida rA dA (ks ++ [kp_at C w (w_pos w)]) w' (Party 2 0 [(1%nat, i)] true) /\
    w_pos w' = S (w_pos w).
Proof using Hok.
  intros Gid Gspk Gotpk Lida Lbase Hdet k0 Hr0 Hc0 ks w x i pt Hgen Hnd Hlen Hk0 Hready (m & Hm & Hx) Hx1.
  rewrite Hx1 in Hx. destruct Hx as (dt & q & Hdt & Hq & <- & Hqv & Hqb & Hqi & Hqs & Hqp & Hqr).
  injection Hdt as <-. cbn [dt_base dt_sid dt_pid dt_reg] in *. rewrite default_Some in Hqp.
  pose proof Hready as (Hnone & Htr & Hid & Hreg & Hspr & (pr & Hpr & Hpk)).
  destruct Hdet as (_ & Hsid & Hpid & Hdreg). cbn [dt_pid dt_sid dt_reg] in *.
  pose proof (first_decrypt rA dA ida idB spk (Some (pid, otpk)) sid base r0 c0 Gid Gspk ltac:(by intros ? [= <-]) Lida Lbase Hr0 Hc0
    ks w q i pt Hgen Hnd Hlen Hk0 Hnone Htr Hid Hreg Hspr ltac:(intros ?? [= <- <-]; by exists pr) Hm Hqv Hqb Hqi Hqs Hqp ltac:(by rewrite Hqr)) as H.
  assert (run (receive C rA dA x) w = run (decryptPkmsg C rA dA q) w) as ->.
  { unfold receive. by rewrite Hx1, run_bind, run_lift, Hq. }
  destruct (2000 <? i)%N.
  - destruct H as (w' & Hrun). exists w'. split; [done|]. apply decryptPkmsg_err in Hrun. rewrite Hqi in Hrun.
    eapply ready_unchanged; [|exact Hready]. naive_solver.
  - destruct H as (w' & s & Hrun & Hst & Hs & Hpend & Hbase & Ht & Hpos & _). exists w'. split; [done|]. split; [|done].
    exists (SessionRecord false s []). split_and!; try done.
    + unfold pending_ok. cbn [sr_state]. by rewrite Hpend.
    + intros dt [= <-]. cbn [sr_state dt_base]. split; [done|]. by right.
Qed.

(** ** C11 *)

Lemma archive_wf rec : rec_wf rec -> rec_wf (archiveUnlessFresh rec).
Proof using. intros H. unfold archiveUnlessFresh. destruct (sr_fresh rec); [done|]. by apply sr_archive_wf. Qed.

(** processPreKeyBundle: the session the first device then has. *)
Lemma bundle_run rB dB b spk otpk wA wB rec :
  able C wA -> bundle_of C wB b spk otpk -> trusts wA rB (kp_pub (w_identity wB)) -> session_at wA rB dB = Ok rec ->
  let base := kp_at C wA (w_pos wA) in
  let ek := kp_at C wA (S (w_pos wA)) in
  let k0 := mkdf C (secretB C (w_identity wB) spk (snd <$> otpk) (kp_pub (w_identity wA)) (kp_pub base)) in
  exists wA1 s, run (processPreKeyBundle C rB dB b) wA = (Ok tt, wA1) /\
    w_pos wA1 = S (S (w_pos wA)) /\
    session_at wA1 rB dB = Ok (SessionRecord false s (sr_previous (archiveUnlessFresh rec))) /\
    srel C k0.1 k0.2 (kp_pub (w_identity wA)) (kp_pub (w_identity wB)) [spk; ek] s (Party 1 0 [] (alone (archiveUnlessFresh rec))) /\
    ss_pendingPreKey s = Some (PpS (fst <$> otpk) (Some (pub_serialize (kp_pub base))) (Some (Z.of_N (bu_signedPreKeyId b)))) /\
    ss_localRegId s = Some (w_regid wA).
Proof using Hok.
  intros [GA RA] (GB & Bid & Gspk & Hspk & Bspk & Hver & Hsid & Hreg & Hotpk) Ht Hrec. cbv zeta.
  assert (bu_preKey b = kp_pub <$> (snd <$> otpk) /\ bu_preKeyId b = fst <$> otpk /\
    (forall k, (snd <$> otpk) = Some k -> genuine C k) /\ (forall i, (fst <$> otpk) = Some i -> (i < 2 ^ 32)%N)) as (Hpk & Hpid & Gpk & Lpid).
  { destruct otpk as [[i k]|]; cbn.
    - destruct Hotpk as (? & ? & ? & ? & ?). split_and!; try done; by intros ? [= <-].
    - destruct Hotpk. done. }
  rewrite <- Bid in Hver, Ht.
  pose proof (run_bundle C Hok rB dB b (kp_pub spk) wA rec Ht Hrec Bspk Hver (genuine_pub_len C Hok _ Gspk)) as Hrun.
  assert (forall k, bu_preKey b = Some k -> length k = 32) as H1.
  { intros k. rewrite Hpk. destruct (snd <$> otpk) as [k'|] eqn:E; [|done]. intros [= <-]. apply (genuine_pub_len C Hok). by apply Gpk. }
  assert (forall i, bu_preKeyId b = Some i -> (i < 2 ^ 32)%N) as H2 by (rewrite Hpid; done).
  specialize (Hrun H1 ltac:(by destruct GA) Hsid H2 RA Hreg). cbv zeta in Hrun.
  assert (match bu_preKey b with Some _ => bu_preKeyId b | None => None end = fst <$> otpk) as Hpid'.
  { rewrite Hpk, Hpid. by destruct otpk. }
  rewrite Hpid', Hpk, Bid in Hrun. rewrite (secrets_agree C Hok) in Hrun; try done; [|by apply kp_at_genuine].
  set (k0 := mkdf C _) in *.
  set (base := kp_at C wA (w_pos wA)) in *. set (ek := kp_at C wA (S (w_pos wA))) in *.
  match type of Hrun with _ = (Ok tt, w_set_trusted _ (w_set_sessions (<[_ := sr_serialize (sr_setState ?t _)]> _) _)) => set (s := t) in * end.
  eexists _, s. split; [exact Hrun|]. split; [done|].
  assert (genuine C ek) as Gek by (apply (kp_at_genuine C Hok)).
  assert (ss_wf s) as Hwf.
  { unfold ss_wf, s. cbn [ss_version ss_previousCounter ss_senderChain ss_receiverChains ss_pendingKeyExchange ss_pendingPreKey ss_remoteRegId ss_localRegId].
    cbn [wfV wfM]. split_and!; try done; try lia.
    - split; [|constructor]. cbn. lia.
    - constructor; [|constructor]. split; [|constructor]. cbn. lia.
    - unfold pp_wf. cbn [pp_preKeyId pp_signedPreKeyId wfV wfI]. split; [|lia].
      destruct (fst <$> otpk) eqn:E; [by apply Lpid|done]. }
  pose proof (archive_wf _ (loaded_wf _ _ _ _ Hrec)) as [_ Hwfp].
  split.
  { unfold session_at. cbn [w_set_trusted w_set_sessions w_set_pos w_sessions]. rewrite lookup_insert.
    rewrite StateFacts.sr_roundtrip; [done|]. by split. }
  split; [|done].
  apply start_first with (newChain (kp_pub spk) (ChainKey hkdf_v3 k0.2 0)); try done.
  pose proof (dh_rkdf C Hok k0.1 (kp_priv spk) (kp_pub ek)) as Hrk.
  unfold sends, s. rewrite (genuine_agree C Hok ek spk) by done. rewrite Hrk. cbn [fst snd].
  split_and!; try done. eexists. split_and!; done.
Qed.

Lemma from_bundle rA dA rB dB b spk i otpk wA wB rec l es n' wA1 :
  able C wA -> able C wB -> bundle_of C wB b spk (Some (i, otpk)) ->
  trusts wA rB (kp_pub (w_identity wB)) -> session_at wA rB dB = Ok rec ->
  trusts wB rA (kp_pub (w_identity wA)) -> w_sessions wB !! (rA, dA) = None ->
  run (processPreKeyBundle C rB dB b) wA = (Ok tt, wA1) ->
  play C rA dA rB dB l (Net wA1 wB [] []) = (es, n') ->
  NoDup ([kp_pub spk] ++ drawn C wA (n_A n') ++ drawn C wB (n_B n')) ->
  (N.of_nat (length l) < 2 ^ 32)%N ->
  exists recA, session_at wA1 rB dB = Ok recA /\ as_expected l es (Conv (Some (first_party recA)) None [] []).
Proof using Hok.
  intros HA HB Hbu HtA HrA HtB HnB Hrun Hplay Hnd Hlen.
  destruct (bundle_run rB dB b spk (Some (i, otpk)) wA wB rec HA Hbu HtA HrA) as (w1 & s & Hrun' & Hpos & Hst & Hs & Hpend & Hreg).
  rewrite Hrun in Hrun'. injection Hrun' as <-.
  cbn [fmap option_fmap option_map fst snd] in *.
  set (base := kp_at C wA (w_pos wA)) in *. set (ek := kp_at C wA (S (w_pos wA))) in *.
  set (k0 := mkdf C _) in *.
  destruct Hbu as (GB & Bid & Gspk & (bs1 & spr & Hs1 & Hs2 & Hs3) & Bspk & Hver & Hsid & Hbreg & Gotpk & (bs2 & pr & Hp1 & Hp2 & Hp3) & Hpid & Hpk & Hi).
  assert (genuine C ek) as Gek by (apply (kp_at_genuine C Hok)).
  assert (genuine C base) as Gbase by (apply (kp_at_genuine C Hok)).
  destruct HA as [GA RA]. destruct HB as [_ RB].
  assert (details_ok (Details (Some i) (bu_signedPreKeyId b) (kp_pub base) (w_regid wA))) as Hdet.
  { split_and!; try done. by apply (genuine_pub_len C Hok). }
  eexists. split; [exact Hst|].
  apply (play_net C Hok rA dA rB dB k0.1 k0.2 (kp_pub (w_identity wA)) (kp_pub (w_identity wB))
    (Some (Details (Some i) (bu_signedPreKeyId b) (kp_pub base) (w_regid wA)))
    ltac:(by apply (genuine_pub_len C Hok)) ltac:(by apply (genuine_pub_len C Hok)) ltac:(by intros ? [= <-])
    (ready rA dA (kp_pub (w_identity wA)) (w_identity wB) spk otpk (bu_signedPreKeyId b) i) spk) with (ks := [spk; ek])
    (n := Net wA1 wB [] []) (n' := n'); try done.
  - intros ks w x j pt Hgen Hnd' Hl Hk0 HF Hw Hx.
    apply (first_delivery rA dA (kp_pub (w_identity wA)) (w_identity wB) spk otpk (bu_signedPreKeyId b) i (kp_pub base) (w_regid wA) k0.1 k0.2); try done.
    all: by apply (genuine_pub_len C Hok).
  - intros w (Hn & _) pt. by apply no_session_encrypt.
  - unfold nrel. cbn [n_A n_B n_fromA n_fromB c_A c_B c_fromA c_fromB turn_of p_turn first_party].
    split_and!; try done.
    + constructor; [done|]. constructor; [done|]. constructor.
    + eexists. split; [done|]. eexists. split; [exact Hst|]. split_and!; try done.
      unfold pending_ok. cbn [sr_state]. rewrite Hpend. eexists. split; [done|]. split; [done|]. by rewrite Hreg.
    + unfold ready. split_and!; try done.
      * exists spr. split; [|done]. cbn [step_call]. by rewrite Hs1, Hs2.
      * exists pr. split; [|done]. cbn [step_call]. by rewrite Hp1, Hp2.
    + eexists. split; [exact Hst|]. cbn [sr_state]. rewrite Hpend. eauto.
    + by exists 0%nat.
    + by exists 0%nat.
    + by left.
  - unfold fresh. cbn [n_A n_B fmap list_fmap].
    destruct (play_later _ _ _ _ _ _ _ _ _ Hplay) as [HlA _]. cbn [n_A] in HlA.
    pose proof (run_stream' _ _ _ _ Hrun) as Hst1.
    rewrite (drawn_split C wA wA1 (n_A n')) in Hnd by done.
    assert (drawn C wA wA1 = [kp_pub base; kp_pub ek]) as E.
    { unfold drawn. rewrite Hpos. by replace (S (S (w_pos wA)) - w_pos wA)%nat with 2%nat by lia. }
    rewrite E in Hnd. cbn [app] in Hnd |- *. apply NoDup_cons in Hnd as [Hn1 Hnd]. apply NoDup_cons in Hnd as [_ Hnd].
    constructor; [|done]. intros Hin. apply Hn1. by right.
Qed.

(** The first message and the reply. *)
Lemma first_message_pos rA dA rB dB b spk i otpk wA wB rec pt reply :
  able C wA -> able C wB -> bundle_of C wB b spk (Some (i, otpk)) ->
  trusts wA rB (kp_pub (w_identity wB)) -> session_at wA rB dB = Ok rec ->
  trusts wB rA (kp_pub (w_identity wA)) -> w_sessions wB !! (rA, dA) = None ->
  NoDup [kp_pub spk; kp_pub (kp_at C wA (w_pos wA)); kp_pub (kp_at C wA (1 + w_pos wA)); kp_pub (kp_at C wA (2 + w_pos wA));
         kp_pub (kp_at C wB (w_pos wB))] ->
  exists wA1 m wA2 m' wB1 ct wB2 wA3,
    run (processPreKeyBundle C rB dB b) wA = (Ok tt, wA1) /\
    run (encrypt C rB dB pt) wA1 = (Ok (CTPreKey m), wA2) /\ prekey_parse (pSerialized m) = Ok m' /\
    run (decryptPkmsg C rA dA m') wB = (Ok pt, wB1) /\
    (exists recB, session_at wB1 rA dA = Ok recB /\ is_Some (ss_senderChain (sr_state recB))) /\
    w_trusted wB1 !! rA = Some (kp_pub (w_identity wA)) /\ (i <> 16777215%N -> w_prekeys wB1 !! i = None) /\
    run (encrypt C rA dA reply) wB1 = (Ok ct, wB2) /\ run (receive C rB dB (ct_wire ct)) wA2 = (Ok reply, wA3) /\
    w_pos wB1 = S (w_pos wB).
Proof using Hok.
  intros HA HB Hbu HtA HrA HtB HnB Hnd.
  destruct (bundle_run rB dB b spk (Some (i, otpk)) wA wB rec HA Hbu HtA HrA) as (wA1 & s & Hrun & Hpos & Hst & Hs & Hpend & Hreg).
  cbn [fmap option_fmap option_map fst snd] in *.
  set (base := kp_at C wA (w_pos wA)) in *. set (ek := kp_at C wA (S (w_pos wA))) in *.
  change (kp_at C wA (1 + w_pos wA)) with ek in Hnd.
  set (k0 := mkdf C _) in *.
  destruct Hbu as (GB & Bid & Gspk & (bs1 & spr & Hs1 & Hs2 & Hs3) & Bspk & Hver & Hsid & Hbreg & Gotpk & (bs2 & pr & Hp1 & Hp2 & Hp3) & Hpid & Hpk & Hi).
  assert (genuine C ek) as Gek by (apply (kp_at_genuine C Hok)).
  assert (genuine C base) as Gbase by (apply (kp_at_genuine C Hok)).
  destruct HA as [GA RA]. destruct HB as [_ RB].
  set (dt := Details (Some i) (bu_signedPreKeyId b) (kp_pub base) (w_regid wA)).
  assert (length (kp_pub base) = 32) as Lbase by (by apply (genuine_pub_len C Hok)).
  assert (details_ok dt) as Hdet by done.
  pose proof (genuine_pub_len C Hok _ GA) as LA. pose proof (genuine_pub_len C Hok _ GB) as LB.
  set (ida := kp_pub (w_identity wA)) in *. set (idb := kp_pub (w_identity wB)) in *.
  assert (Forall (genuine C) [spk; ek]) as Gks by (constructor; [done|]; constructor; [done|]; constructor).
  assert (drel C k0.1 k0.2 (Some dt) None ida idb rB dB [spk; ek] wA1 (Party 1 0 [] (alone (archiveUnlessFresh rec)))) as Hd.
  { eexists. split; [exact Hst|]. split_and!; try done.
    unfold pending_ok. cbn [sr_state]. rewrite Hpend. eexists. split; [done|]. split; [done|]. by rewrite Hreg. }
  destruct (send C Hok k0.1 k0.2 (Some dt) None ida idb rB dB LA LB ltac:(by intros ? [= <-]) [spk; ek] wA1 _ pt Gks Hd ltac:(done))
    as (ct & wA2 & Henc & Hw & Hd2 & Hpos2 & Hpre). cbn [p_turn p_sent p_got p_alone] in Hw, Hd2.
  destruct (Hpre _ Hst) as [Hty _]; [cbn [sr_state]; rewrite Hpend; eauto|].
  destruct ct as [?|m]; [done|].
  assert (NoDup (kp_pub <$> [spk; ek])) as Hnd2.
  { eapply sublist_NoDup; [exact Hnd|]. cbn. apply sublist_skip, sublist_cons, sublist_skip, sublist_nil_l. }
  assert (ready rA dA ida (w_identity wB) spk otpk (bu_signedPreKeyId b) i wB) as Hready.
  { unfold ready. split_and!; try done.
    - exists spr. split; [|done]. cbn [step_call]. by rewrite Hs1, Hs2.
    - exists pr. split; [|done]. cbn [step_call]. by rewrite Hp1, Hp2. }
  pose proof (first_delivery rA dA ida (w_identity wB) spk otpk (bu_signedPreKeyId b) i (kp_pub base) (w_regid wA) k0.1 k0.2
    GB Gspk Gotpk LA Lbase Hdet eq_refl eq_refl [spk; ek] wB (ct_wire (CTPreKey m)) 0%N pt Gks Hnd2 eq_refl eq_refl Hready Hw Hty) as Hdel.
  change (2000 <? 0)%N with false in Hdel. cbn iota in Hdel. destruct Hdel as (wB1 & Hdec & HdB & HposB).
  pose proof Hw as (wm & _ & Hx). rewrite Hty in Hx. destruct Hx as (dt' & q & [= <-] & Hq & Hqm & Hqv & Hqb & Hqi & Hqs & Hqp & Hqr).
  unfold receive in Hdec. rewrite Hty, run_bind, run_lift, Hq in Hdec.
  set (ekB := kp_at C wB (w_pos wB)) in *.
  assert (Forall (genuine C) [spk; ek; ekB]) as Gks3.
  { constructor; [done|]. constructor; [done|]. constructor; [|constructor]. apply (kp_at_genuine C Hok). }
  destruct (send C Hok k0.1 k0.2 None (Some dt) idb ida rA dA LB LA ltac:(done) [spk; ek; ekB] wB1 _ reply Gks3 HdB ltac:(done))
    as (ctB & wB2 & HencB & HwB & _). cbn [p_turn p_sent p_got p_alone] in HwB.
  assert (NoDup (kp_pub <$> [spk; ek; ekB])) as Hnd3.
  { eapply sublist_NoDup; [exact Hnd|]. cbn. apply sublist_skip, sublist_cons, sublist_skip, sublist_cons, sublist_skip, sublist_nil_l. }
  pose proof (recv C Hok k0.1 k0.2 (Some dt) None ida idb rB dB LA LB [spk; ek; ekB] wA2 (Party 1 1 [] (alone (archiveUnlessFresh rec))) 2 0 reply (ct_wire ctB)
    Gks3 Hnd3 (drel_app C _ _ _ _ _ _ _ _ [spk; ek] [ekB] _ _ Hd2) HwB (or_introl (conj eq_refl eq_refl))) as Hr.
  assert (ireceive (2%nat, 0%N, reply) (Party 1 1 [] (alone (archiveUnlessFresh rec)))
    = (SReceived reply, Party 3 0 [(2%nat, 0%N)] (alone (archiveUnlessFresh rec)))) as Eir by reflexivity.
  rewrite Eir in Hr. destruct Hr as (wA3 & HrecvA & _).
  exists wA1, m, wA2, q, wB1, ctB, wB2, wA3.
  split_and!; try done.
  - destruct HdB as (recB & HrB & (_ & _ & _ & _ & _ & (c & Hc & _) & _) & _). exists recB. split; [done|]. rewrite Hc. eauto.
  - apply decryptPkmsg_ok in Hdec as (rc & rc1 & used & w1 & rc2 & w2 & _ & _ & _ & _ & _ & Hsame & ->).
    assert (w_trusted w2 !! rA = Some ida) as Ht2.
    { destruct Hsame as (_ & _ & _ & -> & _). cbn. rewrite lookup_insert. by rewrite Hqi. }
    by destruct used.
  - intros Hne. apply decryptPkmsg_ok in Hdec as (rc & rc1 & used & w1 & rc2 & w2 & Hrc & _ & Hp3' & _ & _ & Hsame & ->).
    assert (used = Some i) as ->; [|cbn; apply lookup_delete].
    assert (session_at wB rA dA = Ok sr_new) as Hrec0 by (unfold session_at; by rewrite HnB).
    rewrite Hrec0 in Hrc. injection Hrc as <-.
    assert (~ belongs sr_new (pVersion q) (pBaseKey q)) as Hnb.
    { intros (x & [-> | Hin] & _ & Hb); [done|]. by apply elem_of_nil in Hin. }
    pose proof (run_processV3 C sr_new q wB rA dA spr spk Hrec0 Hnb) as Hp4. rewrite Hqs in Hp4. change (dt_sid dt) with (bu_signedPreKeyId b) in Hp4.
    specialize (Hp4 ltac:(cbn [step_call]; by rewrite Hs1, Hs2) Hs3 (Some otpk)). rewrite Hqp in Hp4. change (dt_pid dt) with (Some i) in Hp4. rewrite default_Some in Hp4.
    rewrite Hqi, Hqb, Hqr in Hp4. change (dt_base dt) with (kp_pub base) in Hp4. change (dt_reg dt) with (w_regid wA) in Hp4.
    specialize (Hp4 ltac:(exists pr, otpk; split_and!; [cbn [step_call]; by rewrite Hp1, Hp2|done|done]) ltac:(by destruct GB) ltac:(by destruct Gspk)
      ltac:(intros ? [= <-]; by destruct Gotpk) LA Lbase RB RA). rewrite Hp3' in Hp4. cbv zeta in Hp4.
    injection Hp4 as _ -> _. unfold MEDIUM_MAX_VALUE. by rewrite (proj2 (N.eqb_neq _ _)).
Qed.
Lemma first_message rA dA rB dB b spk i otpk wA wB rec pt reply :
  able C wA -> able C wB -> bundle_of C wB b spk (Some (i, otpk)) ->
  trusts wA rB (kp_pub (w_identity wB)) -> session_at wA rB dB = Ok rec ->
  trusts wB rA (kp_pub (w_identity wA)) -> w_sessions wB !! (rA, dA) = None ->
  NoDup [kp_pub spk; kp_pub (kp_at C wA (w_pos wA)); kp_pub (kp_at C wA (1 + w_pos wA)); kp_pub (kp_at C wA (2 + w_pos wA));
         kp_pub (kp_at C wB (w_pos wB))] ->
  exists wA1 m wA2 m' wB1 ct wB2 wA3,
    run (processPreKeyBundle C rB dB b) wA = (Ok tt, wA1) /\
    run (encrypt C rB dB pt) wA1 = (Ok (CTPreKey m), wA2) /\ prekey_parse (pSerialized m) = Ok m' /\
    run (decryptPkmsg C rA dA m') wB = (Ok pt, wB1) /\
    (exists recB, session_at wB1 rA dA = Ok recB /\ is_Some (ss_senderChain (sr_state recB))) /\
    w_trusted wB1 !! rA = Some (kp_pub (w_identity wA)) /\ (i <> 16777215%N -> w_prekeys wB1 !! i = None) /\
    run (encrypt C rA dA reply) wB1 = (Ok ct, wB2) /\ run (receive C rB dB (ct_wire ct)) wA2 = (Ok reply, wA3).
Proof using Hok.
  intros HA HB Hbu HtA HrA HtB HnB Hnd.
  destruct (first_message_pos rA dA rB dB b spk i otpk wA wB rec pt reply HA HB Hbu HtA HrA HtB HnB Hnd)
    as (x1 & x2 & x3 & x4 & x5 & x6 & x7 & x8 & H1 & H2 & H3 & H4 & H5 & H6 & H7 & H8 & H9 & _).
  exists x1, x2, x3, x4, x5, x6, x7, x8. split_and!; done.
Qed.

(** ** C12 *)

Lemma no_prekey_message rA dA rB dB b spk wA wB rec pt :
  able C wA -> able C wB -> bundle_of C wB b spk None ->
  trusts wA rB (kp_pub (w_identity wB)) -> session_at wA rB dB = Ok rec ->
  trusts wB rA (kp_pub (w_identity wA)) -> w_sessions wB !! (rA, dA) = None ->
  kp_pub spk <> kp_pub (kp_at C wA (1 + w_pos wA)) ->
  exists wA1 m wA2 m',
    run (processPreKeyBundle C rB dB b) wA = (Ok tt, wA1) /\
    run (encrypt C rB dB pt) wA1 = (Ok (CTPreKey m), wA2) /\ prekey_parse (pSerialized m) = Ok m' /\
    (exists wB1, run (decryptPkmsg C rA dA m) wB = (Ok pt, wB1)) /\
    (w_prekeys wB !! 0%N = None -> run (decryptPkmsg C rA dA m') wB = (Err EInvalidKeyId, wB)).
Proof using Hok.
  intros HA HB Hbu HtA HrA HtB HnB Hne.
  destruct (bundle_run rB dB b spk None wA wB rec HA Hbu HtA HrA) as (wA1 & s & Hrun & Hpos & Hst & Hs & Hpend & Hreg).
  cbn [fmap option_fmap option_map fst snd] in *.
  set (base := kp_at C wA (w_pos wA)) in *. set (ek := kp_at C wA (S (w_pos wA))) in *.
  change (kp_at C wA (1 + w_pos wA)) with ek in Hne.
  set (k0 := mkdf C _) in *.
  destruct Hbu as (GB & Bid & Gspk & (bs1 & spr & Hs1 & Hs2 & Hs3) & Bspk & Hver & Hsid & Hbreg & Hpid & Hpk).
  assert (genuine C ek) as Gek by (apply (kp_at_genuine C Hok)).
  assert (genuine C base) as Gbase by (apply (kp_at_genuine C Hok)).
  destruct HA as [GA RA]. destruct HB as [_ RB].
  set (dt := Details None (bu_signedPreKeyId b) (kp_pub base) (w_regid wA)).
  assert (length (kp_pub base) = 32) as Lbase by (by apply (genuine_pub_len C Hok)).
  assert (details_ok dt) as Hdet by done.
  pose proof (genuine_pub_len C Hok _ GA) as LA. pose proof (genuine_pub_len C Hok _ GB) as LB.
  set (ida := kp_pub (w_identity wA)) in *. set (idb := kp_pub (w_identity wB)) in *.
  assert (Forall (genuine C) [spk; ek]) as Gks by (constructor; [done|]; constructor; [done|]; constructor).
  assert (drel C k0.1 k0.2 (Some dt) None ida idb rB dB [spk; ek] wA1 (Party 1 0 [] (alone (archiveUnlessFresh rec)))) as Hd.
  { eexists. split; [exact Hst|]. split_and!; try done.
    unfold pending_ok. cbn [sr_state]. rewrite Hpend. eexists. split; [done|]. split; [done|]. by rewrite Hreg. }
  destruct (send C Hok k0.1 k0.2 (Some dt) None ida idb rB dB LA LB ltac:(by intros ? [= <-]) [spk; ek] wA1 _ pt Gks Hd ltac:(done))
    as (ct & wA2 & Henc & Hw & _ & Hpos2 & Hpre). cbn [p_turn p_sent p_got p_alone] in Hw.
  destruct (Hpre _ Hst) as [Hty _]; [cbn [sr_state]; rewrite Hpend; eauto|].
  destruct ct as [?|m]; [done|].
  assert (NoDup (kp_pub <$> [spk; ek])) as Hnd2.
  { cbn. apply NoDup_cons. split; [|apply NoDup_singleton]. intros H%elem_of_list_singleton. by apply Hne. }
  pose proof Hw as (wm & Hm & Hx). rewrite Hty in Hx. destruct Hx as (dt' & q & [= <-] & Hq & Hqm & Hqv & Hqb & Hqi & Hqs & Hqp & Hqr).
  exists wA1, m, wA2, q. split_and!; try done.
  - (* the object itself *)
    pose proof (encrypt_ok C Hok _ _ _ _ _ _ Henc) as (rc & Hrc & Hews & _). rewrite Hst in Hrc. injection Hrc as <-. cbn [sr_state] in Hews.
    pose proof (encryptWithState_inv C Hok _ _ _ _ Hews) as (rk & lo & re & Hv & _ & _ & Hlo & _ & _ & _ & _ & _ & Hparse & _ & Hpp).
    rewrite Hpend in Hpp. destruct Hpp as (bs & sid & Hbs & Hsid' & _ & (q' & [= <-] & Hq'v & Hcr)).
    cbn [pp_baseKey pp_signedPreKeyId pp_preKeyId] in *. rewrite !default_Some in *.
    rewrite decodePoint_serialize in Hbs by lia. injection Hbs as <-.
    unfold z_to_u32 in Hsid'. rewrite (proj2 (Z.ltb_ge _ _)), N2Z.id in Hsid' by lia. injection Hsid' as <-.
    assert (lo = ida) as ->.
    { destruct Hlo as (t & Ht & ->). pose proof Hs as (_ & _ & H3 & _). rewrite H3 in Ht. injection Ht as <-. by rewrite take_ge by lia. }
    unfold st_getLocalRegistrationId in Hcr. rewrite Hreg, default_Some in Hcr.
    destruct (srel_version C _ _ _ _ _ _ _ Hs) as [Hver3 _]. rewrite Hver3 in Hcr.
    match type of Hcr with prekey_create _ _ _ _ ?x _ _ = _ => change x with (kp_pub base) in Hcr end.
    pose proof (prekey_reparse _ _ _ _ _ _ _ (Nat.eq_le_incl _ _ Lbase) (Nat.eq_le_incl _ _ LA) Hparse Hcr) as Hre.
    change (ct_wire (CTPreKey m)).2 with (pSerialized m) in Hq. rewrite Hre in Hq. injection Hq as <-. cbn [pMessage] in Hqm.
    unfold prekey_create in Hcr. repeat (apply bind_ok_inv in Hcr as (? & _ & Hcr)). injection Hcr as Em.
    pose proof (first_decrypt rA dA ida (w_identity wB) spk None (bu_signedPreKeyId b) (kp_pub base) k0.1 k0.2 GB Gspk ltac:(done) LA Lbase eq_refl eq_refl
      [spk; ek] wB m 0%N pt Gks Hnd2 eq_refl eq_refl HnB HtB eq_refl RB) as H.
    change (2000 <? 0)%N with false in H. cbn iota in H. rewrite <- Em in H |- *.
    cbn [pMessage pVersion pBaseKey pIdentityKey pSignedPreKeyId pPreKeyId pRegistrationId fmap option_fmap option_map] in H. cbn [inner] in Hqm. rewrite Hqm in H.
    destruct H as (wB1 & s1 & H & _); try done.
    + exists spr. split; [|done]. cbn [step_call]. by rewrite Hs1, Hs2.
    + cbn [inner]. rewrite Hqm. by exists wB1.
  - intros H0. unfold decryptPkmsg.
    assert (session_at wB rA dA = Ok sr_new) as Hrec0 by (unfold session_at; by rewrite HnB).
    rewrite run_bind, run_do, load_session, Hrec0. unfold builder_process.
    rewrite !run_bind, run_do, trusted_true by (by rewrite Hqi). rewrite run_bind.
    assert (run (processV3 C sr_new q) wB = (Err EInvalidKeyId, wB)) as ->; [|done].
    unfold processV3. change (sr_hasSessionState _ _ sr_new) with (sr_hasSessionState (pVersion q) (pub_serialize (pBaseKey q)) sr_new).
    destruct (sr_hasSessionState _ _ _) eqn:E.
    { apply hasSessionState_spec in E as (x & [-> | Hin] & _ & Hb); [done|]. by apply elem_of_nil in Hin. }
    rewrite run_bind, run_do. cbn [step_call]. rewrite Hqs. change (dt_sid dt) with (bu_signedPreKeyId b). rewrite Hs1, Hs2.
    rewrite run_bind, run_lift, Hs3, run_bind, run_do. cbn [step_call].
    rewrite Hqp. change (default 0%N (dt_pid dt)) with 0%N. rewrite run_bind, run_bind, run_do. cbn [step_call]. by rewrite H0.
Qed.
End start.
