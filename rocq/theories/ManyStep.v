(** Moves of two devices with several sessions (C85). *)
From Verif Require Import PyBase Wire Protos ProtoFacts Crypto Ecc Kdf Messages State Prog Ratchet Builder Cipher Helper.
From Verif Require Import ProgFacts StateFacts UtilFacts HelperFacts MsgFacts CipherFacts DecryptFacts SpecUtil SpecSession SessionProofs HandshakeFacts.
From Verif Require Import InvFacts HistoryProofs SpecKeys KeyProofs SpecEncrypt EncryptProofs Sched SpecConv ConvFacts ConvProofs ConvNet ConvStart SpecMany ManyFacts ManyProofs ManyNet.

Lemma in_grow n k p D : n ∈ D.*1 -> n ∈ ((k, p) :: others_of k D).*1.
Proof.
  intros H. cbn [fmap list_fmap fst]. rewrite elem_of_cons. destruct (decide (n = k)) as [->|Hne]; [by left|]. right.
  apply elem_of_list_fmap in H as (y & -> & Hy). apply elem_of_list_fmap. exists y. split; [done|]. by apply elem_of_list_filter.
Qed.
Lemma room_tail a l D : room (a :: l) D -> room l D.
Proof. unfold room. rewrite !Forall_forall. intros H x Hx. specialize (H x Hx). cbn [length] in H. lia. Qed.
Lemma tn_default n D : p_turn (default (Party 0 0 [] true) (party_of n D)) = tn n D.
Proof. unfold tn. by destruct (party_of n D). Qed.

Lemma iopen_ok l i pt p q p' : iopen (l, i, pt) p = Ok (q, p') ->
  p_turn p' = (if (p_turn p <? l)%nat then S l else p_turn p) /\ (p_sent p' <= p_sent p)%N.
Proof.
  unfold iopen. destruct (l + 9 <? p_turn p)%nat; [done|]. case_bool_decide; [done|].
  destruct (next_of l (p_got p) + 2000 <? i)%N; [done|]. destruct (p_turn p <? l)%nat; intros [= _ <-]; cbn; split; try done; lia.
Qed.

Section step.
Context (C : crypto) (Hok : crypto_ok C) (SP : bytes -> Prop).
Context (idA idB : keypair) (GA : genuine C idA) (GB : genuine C idB) (rA dA rB dB : Z).

Local Notation nrelm := (nrelm C SP idA idB rA dA rB dB).
Local Notation freshm := (freshm C SP).

Lemma domove_later a n : later (n_A n) (n_A (domove C rA dA rB dB a n).2) /\ later (n_B n) (n_B (domove C rA dA rB dB a n).2).
Proof using.
  destruct a as [a|b|b]; cbn [domove].
  - destruct (act C rA dA rB dB a n) as [e n'] eqn:E. cbn [snd]. by eapply act_later.
  - destruct (run _ _) as [o w] eqn:E. cbn. split; [by eapply run_stream'|apply later_refl].
  - destruct (run _ _) as [o w] eqn:E. cbn. split; [apply later_refl|by eapply run_stream'].
Qed.

Lemma fresh_rest' Σ n n1 n' : later (n_A n) (n_A n1) -> later (n_A n1) (n_A n') -> later (n_B n) (n_B n1) -> later (n_B n1) (n_B n') ->
  freshm Σ n n' -> freshm Σ n1 n'.
Proof using.
  intros H1 H2 H3 H4. unfold ManyNet.freshm. rewrite (drawn_split C (n_A n) (n_A n1) (n_A n')), (drawn_split C (n_B n) (n_B n1) (n_B n')) by done.
  apply clean_sub. apply submseteq_app; [done|]. apply submseteq_app; by apply submseteq_inserts_l.
Qed.
Lemma fresh_more Σ Σ' l wA w1 wB fA fB fA' fB' n' :
  later wA w1 -> later w1 (n_A n') -> used Σ' ≡ₚ used Σ ++ l -> l ⊆+ drawn C wA w1 ->
  freshm Σ (Net wA wB fA fB) n' -> freshm Σ' (Net w1 wB fA' fB') n'.
Proof using.
  intros H1 H2 Hu Hl. unfold ManyNet.freshm. cbn [n_A n_B]. rewrite (drawn_split C wA w1 (n_A n')) by done. apply clean_sub.
  rewrite Hu, <- !app_assoc. apply submseteq_app; [done|]. by apply submseteq_app.
Qed.

(** ** A message is accepted by A *)

Lemma recvA a l Σ wA wB w' fA fB DA DB mA mB cnt n S lv i pt q p' k :
  nrelm Σ (a :: l) (Net wA wB fA fB) (Many DA DB mA mB cnt) ->
  renewalsA (a :: l) = renewalsA l -> renewalsB (a :: l) = renewalsB l ->
  Σ !! n = Some S -> 1 <= lv <= tn n DB ->
  iopen (lv, i, pt) (default (Party 0 0 [] true) (party_of n DA)) = Ok (q, p') ->
  let Σ' := stepped_sess Σ n S (tn n DA <? lv)%nat (kp_at C wA k) in
  let D' := (n, p') :: others_of n DA in
  devrel C true (kp_pub idA) (kp_pub idB) rB dB Σ' (fun k => k ∈ DB.*1) w' D' ->
  hrel C SP true idA Σ w' D' (renewalsB l) ->
  nrelm Σ' l (Net w' wB fA fB) (Many D' DB mA mB cnt).
Proof using Hok.
  intros (Hg & HA & HB & HhA & HhB & HmA & HmB & Hc & HrA & HrB & Hb & Hl) EA EB HS Hlv Hopen Σ' D' HA' HhA'.
  cbn [n_A n_B n_fromA n_fromB y_A y_B y_fromA y_fromB y_count] in *.
  apply iopen_ok in Hopen as [Hturn Hsent]. rewrite tn_default in Hturn.
  destruct (Hg _ _ HS) as (G1 & G2 & G3 & G4 & G5 & G6 & G7 & G8).
  assert (grows Σ Σ') as Hgrow by (by apply stepped_grows).
  assert (length Σ' = length Σ) as Hlen. { unfold Σ', stepped_sess. destruct (_ <? _)%nat; [apply insert_length|done]. }
  assert (forall m, m ∈ DA.*1 -> m ∈ D'.*1) as Hin by (intros; by apply in_grow).
  assert (forall m, tn m DA <= tn m D') as Htn.
  { intros m. unfold D'. rewrite tn_moved. case_decide as Hm; [|done]. subst m. rewrite Hturn. destruct (Nat.ltb_spec (tn n DA) lv); lia. }
  unfold ManyNet.nrelm. cbn [n_A n_B n_fromA n_fromB y_A y_B y_fromA y_fromB y_count].
  assert (1 <= length (s_ks S)) as Hks by lia.
  split_and!; try done.
  - intros m T HT. destruct (decide (m = n)) as [->|Hm].
    + unfold D'. rewrite !tn_moved, decide_True by done. unfold Σ', stepped_sess in HT. revert HT Hturn. destruct (Nat.ltb_spec (tn n DA) lv) as [Hlt|Hge]; intros HT Hturn.
      * rewrite list_lookup_insert in HT by (by eapply lookup_lt_Some). injection HT as <-. unfold s_more, sok in *.
        cbn [s_r0 s_c0 s_ks s_first s_det s_otpk] in *.
        assert (lv = tn n DB /\ tn n DB = Datatypes.S (tn n DA)) as [-> HDB] by lia.
        rewrite app_length, kth_app by lia. cbn [length]. destruct G3 as (Gp & Go & Gm).
        split_and!; try done; try lia.
        -- apply Forall_app. split; [done|]. constructor; [|constructor]. by apply kp_at_genuine.
        -- destruct (s_first S); destruct G7 as [k1 Hk1]; destruct G8 as [k2 Hk2]; rewrite ?tn_moved, ?decide_True by done; [exists (Datatypes.S k1)|exists k1]; lia.
        -- destruct (s_first S); destruct G7 as [k1 Hk1]; destruct G8 as [k2 Hk2]; rewrite ?tn_moved, ?decide_True by done; [exists k2|exists (Datatypes.S k2)]; lia.
      * rewrite HS in HT. injection HT as <-. rewrite Hturn. split_and!; try done.
        -- destruct (s_first S); destruct G7 as [k1 Hk1]; rewrite ?tn_moved, ?decide_True by done; exists k1; lia.
        -- destruct (s_first S); destruct G8 as [k1 Hk1]; rewrite ?tn_moved, ?decide_True by done; exists k1; lia.
    + assert (Σ !! m = Some T) as HT'.
      { revert HT. unfold Σ', stepped_sess. destruct (_ <? _)%nat; [by rewrite list_lookup_insert_ne by done|done]. }
      assert (tn m D' = tn m DA) as E. { unfold D'. rewrite tn_moved, decide_False by congruence. done. }
      destruct (Hg _ _ HT') as (I1 & I2 & I3 & I4 & I5 & I6 & I7 & I8). rewrite E. split_and!; try done; destruct (s_first T); rewrite ?E; done.
  - eapply devrel_grows; [done|exact Hin|done].
  - unfold Σ', stepped_sess. destruct (_ <? _)%nat; [|done]. eapply hrel_more; [exact HS|done| |exact HhA']. done.
  - rewrite EA in HhB. unfold Σ', stepped_sess. destruct (_ <? _)%nat; [|done]. eapply hrel_more; [exact HS|done| |exact HhB]. done.
  - eapply msgs_mono; [exact Hgrow|exact Htn| |exact HmA]. done.
  - eapply msgs_mono; [exact Hgrow| |exact Hin|exact HmB]. done.
  - congruence.
  - unfold D'. constructor.
    + cbn [snd]. destruct (party_of n DA) as [p|] eqn:E; cbn [default] in Hsent.
      * apply party_of_lookup in E as [j Hj]. unfold room in HrA. pose proof (Forall_lookup_1 _ _ _ _ HrA Hj) as H. cbn [snd length] in H. unfold id in Hsent. lia.
      * cbn [p_sent] in Hsent. cbn [length] in Hl. lia.
    + apply room_tail in HrA. unfold room, others_of in *. rewrite Forall_forall in HrA |- *. intros z [_ Hz]%elem_of_list_filter. by apply HrA.
  - by eapply room_tail.
  - rewrite EA, EB in Hb. lia.
  - cbn [length] in Hl. lia.
Qed.

(** ** Moves of A *)

Definition partA (a : move) : bool := match a with Talk (SendA _) | Talk (DeliverA _) | RenewA _ => true | _ => false end.

Lemma stepA a l Σ n y n' :
  partA a = true -> nrelm Σ (a :: l) n y -> freshm Σ n n' ->
  later (n_A (domove C rA dA rB dB a n).2) (n_A n') -> later (n_B (domove C rA dA rB dB a n).2) (n_B n') ->
  mixed_up C rA dA rB dB a n y \/
  (sees_as (imove a y).1 (domove C rA dA rB dB a n).1 /\
   exists Σ', nrelm Σ' l (domove C rA dA rB dB a n).2 (imove a y).2 /\ freshm Σ' (domove C rA dA rB dB a n).2 n').
Proof using Hok GA GB.
  intros Ha Hn Hf HlA HlB. pose proof (domove_later a n) as [HlA0 HlB0].
  assert (freshm Σ (domove C rA dA rB dB a n).2 n') as Hf1 by (by eapply fresh_rest').
  pose proof (genuine_pub_len C Hok _ GA) as LA. pose proof (genuine_pub_len C Hok _ GB) as LB.
  pose proof Hn as (Hg & HA & HB & HhA & HhB & HmA & HmB & Hc & HrA & HrB & Hb & Hl).
  assert (apart C Σ) as Hap.
  { eapply grel_apart; [exact Hg|]. eapply clean_sub; [|exact Hf]. by apply submseteq_inserts_r. }
  destruct (devrel_range C _ _ _ _ _ _ _ _ _ HA) as [HrangeA HlenA].
  destruct (devrel_range C _ _ _ _ _ _ _ _ _ HB) as [HrangeB HlenB].
  destruct n as [wA wB fA fB], y as [DA DB mA mB cnt]. cbn [n_A n_B n_fromA n_fromB y_A y_B y_fromA y_fromB y_count] in *.
  destruct a as [[pt|pt|i|i]|b|b]; try done; clear Ha.
  - (* A sends *)
    right. change (renewalsA (Talk (SendA pt) :: l)) with (renewalsA l) in *. change (renewalsB (Talk (SendA pt) :: l)) with (renewalsB l) in *.
    cbn [domove act imove y_A y_B y_fromA y_fromB y_count n_A n_B n_fromA n_fromB] in *. destruct DA as [|[k p] DA].
    + cbn [msend]. pose proof HA as (rec & _ & _ & _ & Hnone).
      rewrite (no_session_encrypt C) in * by done. cbn [fst snd]. split; [done|]. exists Σ. split; [|exact Hf1].
      unfold ManyNet.nrelm. cbn [n_A n_B n_fromA n_fromB y_A y_B y_fromA y_fromB y_count].
      rewrite app_nil_r. split_and!; try done; [by eapply room_tail|by eapply room_tail|]. cbn [length] in Hl. lia.
    + cbn [msend].
      assert (p_sent p + 1 < 2 ^ 32)%N as Hs. { apply Forall_cons in HrA as [H _]. cbn [snd length] in H. lia. }
      destruct (msend_run C Hok true _ _ rB dB LA LB Σ _ wA k p DA pt Hap HA Hs) as (ct & w' & S & Hrun & HS & Hw & HA' & Hpos & Hrest & Hturn & Hpk).
      rewrite Hrun in *. cbn [fst snd]. split; [cbn; eauto|]. exists Σ. split; [|exact Hf1].
      set (D' := (k, Party (p_turn p) (p_sent p + 1) (p_got p) true) :: DA) in *.
      assert (forall m, tn m D' = tn m ((k, p) :: DA)) as Htn. { intros m. unfold D'. rewrite !tn_cons. done. }
      assert (D'.*1 = ((k, p) :: DA).*1) as Hfst by done.
      assert (grel C SP idA idB Σ D' DB) as Hg'.
      { intros m T HT. destruct (Hg _ _ HT) as (I1 & I2 & I3 & I4 & I5 & I6 & I7 & I8). rewrite !Htn.
        split_and!; try done; destruct (s_first T); rewrite ?Htn; done. }
      unfold ManyNet.nrelm. cbn [n_A n_B n_fromA n_fromB y_A y_B y_fromA y_fromB y_count].
      split_and!; try done.
      * eapply hrel_rest; [exact Hrest|]. eapply hrel_mono; [|exact HhA]. by rewrite Hfst.
      * apply Forall2_app.
        { eapply msgs_mono; [apply grows_refl| | |exact HmA]; [intros m; by rewrite Htn|done]. }
        constructor; [|constructor]. exists S. cbn [fst snd]. split_and!; try done.
        -- unfold D'. rewrite tn_cons, decide_True by done. done.
        -- destruct (Hg _ _ HS) as (_ & _ & _ & _ & _ & _ & [k1 Hk1] & [k2 Hk2]). unfold ours.
           assert (tn k ((k, p) :: DA) = p_turn p) as Etn by (by rewrite tn_cons, decide_True).
           destruct (s_first S); [exists k1; by rewrite <- Etn|exists k2; by rewrite <- Etn].
        -- intros Hw1. destruct (ours true S) eqn:Eo; [by apply Hpk|]. unfold ours in Eo.
           apply tn_pos. destruct (Hg _ _ HS) as (_ & _ & _ & _ & _ & _ & [k1 Hk1] & _). destruct (s_first S); [done|]. lia.
      * apply room_tail in HrA as HrA'. apply Forall_cons in HrA as [H1 _]. apply Forall_cons in HrA' as [_ H2]. cbn [snd length] in H1.
        constructor; [cbn [snd p_sent]; lia|done].
      * by eapply room_tail.
      * cbn [length] in Hl. lia.
  - (* a message arrives at A *)
    change (renewalsA (Talk (DeliverA i) :: l)) with (renewalsA l) in Hb, HhB. change (renewalsB (Talk (DeliverA i) :: l)) with (renewalsB l) in Hb, HhA.
    assert (forall w, nrelm Σ (Talk (DeliverA i) :: l) (Net w wB fA fB) (Many DA DB mA mB cnt) -> nrelm Σ l (Net w wB fA fB) (Many DA DB mA mB cnt)) as Hskip.
    { intros w (? & ? & ? & ? & ? & ? & ? & ? & J1 & J2 & J3 & J4). split_and!; try done; [by eapply room_tail|by eapply room_tail|]. cbn [length] in J4. lia. }
    cbn [domove act imove y_A y_B y_fromA y_fromB y_count n_A n_B n_fromA n_fromB mixed_up] in *.
    destruct (mB !! i) as [[k [[lv j] pt]]|] eqn:Em.
    2: { right. assert (fB !! i = None) as En.
         { apply lookup_ge_None. apply lookup_ge_None in Em. by rewrite (Forall2_length _ _ _ HmB). }
         rewrite En in *. cbn [fst snd]. split; [done|]. exists Σ. split; [by apply Hskip|exact Hf1]. }
    destruct (Forall2_lookup_r _ _ _ _ _ HmB Em) as (x & Ex & (S & HS & Hw & Hlv & [k0 Hpar] & Hx)). rewrite Ex in *. cbn [fst snd] in *.
    destruct (Hg _ _ HS) as (G1 & G2 & (G3 & G3b & G3c) & G4 & G5 & G6 & [k1 G7] & [k2 G8]).
    assert (out_of false S = in_of true S) as Edet. { unfold out_of, in_of, ours. by destruct (s_first S). }
    assert (accident C wA rB dB DA x (k, (lv, j, pt)) \/
      match iopen (lv, j, pt) (default (Party 0 0 [] true) (party_of k DA)) with
      | Ok (q, p') => exists z w', run (receive C rB dB x) wA = (Ok q, w') /\ w_pos wA <= z <= w_pos w' /\
          (tn k DA < lv -> w_pos w' = Datatypes.S z) /\
          devrel C true (kp_pub idA) (kp_pub idB) rB dB (stepped_sess Σ k S (tn k DA <? lv)%nat (kp_at C wA z)) (fun k => k ∈ DB.*1) w' ((k, p') :: others_of k DA) /\
          hrel C SP true idA Σ w' ((k, p') :: others_of k DA) (renewalsB l)
      | Err e => exists w', run (receive C rB dB x) wA = (Err e, w') /\ rest wA w' /\ devrel C true (kp_pub idA) (kp_pub idB) rB dB Σ (fun k => k ∈ DB.*1) w' DA
      end) as Hcase.
    { destruct (party_of k DA) as [p|] eqn:Ep.
      - rewrite default_Some. assert (tn k DA = p_turn p) as Etn by (unfold tn; by rewrite Ep).
        assert (arrives (s_ks S) (p_turn p) lv) as Harr.
        { rewrite <- Etn. unfold ours in Hpar. destruct (decide (lv < tn k DA)) as [Hlt|Hge].
          - right. destruct (s_first S); cbn in Hpar; [exists (k1 - k0)%nat|exists (k2 - k0 - 1)%nat]; lia.
          - left. destruct (s_first S); cbn in Hpar; lia. }
        destruct (mrecv_known C Hok true _ _ rB dB LA LB Σ (fun k => k ∈ DB.*1) wA DA k p S lv j pt x Hap HA ltac:(lia) Ep HS ltac:(lia)) as [Hacc|Hr];
          [by rewrite <- Edet|done|apply tn_pos; lia|by left|right].
        destruct (iopen (lv, j, pt) p) as [[q p']|e]; [|done].
        destruct Hr as (z & w' & Hrun & Hrest & Hz & Hz' & Hd). exists z, w'. rewrite Etn. refine (conj Hrun (conj Hz (conj Hz' (conj Hd _)))).
        eapply hrel_mono; [|by eapply hrel_rest]. intros. by apply in_grow.
      - cbn [default]. assert (k ∉ DA.*1) as Hk by (by apply party_of_none).
        assert (tn k DA = 0) as Etn by (unfold tn; by rewrite Ep).
        assert (s_first S = false) as Ef. { destruct (s_first S); [lia|done]. }
        rewrite Ef in *. assert (lv = 1) as -> by lia.
        destruct G3 as [pid Hpid]. assert (ours true S = false) as Ho by (unfold ours; by rewrite Ef).
        pose proof HhA as (I1 & I2 & I3 & I4 & I5). destruct (I3 _ _ _ HS Ho Hk Hpid) as [I6 I7].
        assert (x.1 = true) as Hx1. { destruct x as [[] bs]; [done|]. destruct Hk. by apply Hx. }
        assert (length DA <= 40) as Hlen40.
        { pose proof (NoDup_cons_2 k DA.*1 Hk) as Hnd. destruct HA as (rec & _ & HndA & _). specialize (Hnd HndA).
          assert (k :: DA.*1 ⊆+ seq 0 (length Σ)) as Hsub.
          { apply NoDup_submseteq; [done|]. intros z [->|Hz]%elem_of_cons.
            - apply lookup_lt_Some in HS. apply elem_of_seq. lia.
            - apply elem_of_list_fmap in Hz as (z' & -> & Hz). rewrite Forall_forall in HrangeA. apply HrangeA in Hz. apply elem_of_seq. lia. }
          apply submseteq_length in Hsub. cbn [length] in Hsub. rewrite fmap_length, seq_length in Hsub. lia. }
        destruct (mrecv_first C Hok true _ _ rB dB LA LB Σ (fun k => k ∈ DB.*1) wA DA k S j pt x idA pid Hap HA Hlen40 Hk HS Ho ltac:(lia) GA I1 eq_refl I2 I6 Hpid I7 G3b G3c)
          as [Hacc|Hr]; [by rewrite <- Edet|done|by left|right].
        destruct (iopen (1, j, pt) (Party 0 0 [] true)) as [[q p']|e]; [|done].
        destruct Hr as (z & w' & Hrun & Hz & Hz' & R2 & R3 & R4 & R1 & Hd). exists z, w'. rewrite Etn, others_not_in by done. refine (conj Hrun (conj _ (conj _ (conj Hd _)))); [lia|done|].
        eapply (hrel_used C SP true idA Σ k S pid wA w'); try done; [by left|].
        eapply hrel_mono; [|exact HhA]. intros m Hm. by right. }
    destruct Hcase as [Hacc|Hcase]; [left; eauto|right].
    unfold mreceive. cbn [fst snd] in *. destruct (iopen (lv, j, pt) _) as [[q p']|e] eqn:Eo.
    + destruct Hcase as (z & w' & Hrun & Hz & Hz' & Hd & Hh). rewrite Hrun in *. cbn [fst snd] in *. split; [done|].
      exists (stepped_sess Σ k S (tn k DA <? lv)%nat (kp_at C wA z)). split.
      * by eapply recvA.
      * unfold stepped_sess. destruct (Nat.ltb_spec (tn k DA) lv) as [Hlt|Hge]; [|exact Hf1].
        eapply (fresh_more Σ); [exact HlA0|exact HlA|apply used_step; [done|lia]| |exact Hf].
        apply singleton_submseteq_l, drawn_in. specialize (Hz' Hlt). cbn [n_A]. lia.
    + destruct Hcase as (w' & Hrun & Hrest & Hd). rewrite Hrun in *. cbn [fst snd] in *. split; [done|].
      exists Σ. split; [|exact Hf1]. apply Hskip. split_and!; try done. by eapply hrel_rest.
  - (* A starts a session *)
    right. subst cnt. change (renewalsA (RenewA b :: l)) with (b :: renewalsA l) in *. change (renewalsB (RenewA b :: l)) with (renewalsB l) in *.
    cbn [domove imove y_A y_B y_fromA y_fromB y_count n_A n_B n_fromA n_fromB] in *.
    pose proof HhA as (I1 & I2 & I3 & I4 & I5). pose proof HhB as (J1 & J2 & J3 & J4 & J5).
    apply Forall_cons in J4 as [(spk & pid & otpk & Hbu & Hsp) J4]. cbn [length] in Hb.
    pose proof Hbu as (_ & _ & Gspk & Hspk & _ & _ & Hsid & _ & (Gk & Hk1 & Hpid & _ & Hi)).
    destruct (renew_run C Hok true (kp_pub idA) (kp_pub idB) rB dB LA LB Σ (fun k => k ∈ DB.*1) wA wB b spk pid otpk DA) as (w' & Hrun & Hrest & Hpos & HA');
      try done; [by rewrite <- I1 in GA|by rewrite I1|by rewrite J1|lia|].
    set (base := kp_at C wA (w_pos wA)) in *. set (ek := kp_at C wA (S (w_pos wA))) in *.
    set (T := Sess _ _ _ _ _ _) in HA'. rewrite Hrun in *. cbn [fst snd]. split; [done|]. exists (Σ ++ [T]).
    assert (grows Σ (Σ ++ [T])) as Hgrow.
    { intros m U HU. exists []. unfold s_more. rewrite app_nil_r, lookup_app_l by (by eapply lookup_lt_Some). rewrite HU. by destruct U. }
    assert (length Σ ∉ DA.*1 /\ length Σ ∉ DB.*1) as [NA NB].
    { split; intros (z & Hz & Hin)%elem_of_list_fmap; [rewrite Forall_forall in HrangeA; apply HrangeA in Hin|rewrite Forall_forall in HrangeB; apply HrangeB in Hin]; lia. }
    set (D' := (length Σ, Party 1 0 [] true) :: DA).
    assert (tn (length Σ) D' = 1) as Tn1. { unfold D'. by rewrite tn_cons, decide_True by done. }
    assert (tn (length Σ) DB = 0) as Tn0. { unfold tn. by rewrite (proj2 (party_of_none _ _) NB). }
    assert (forall m, m <> length Σ -> tn m D' = tn m DA) as Tnm. { intros m Hm. unfold D'. by rewrite tn_cons, decide_False by congruence. }
    split.
    + unfold ManyNet.nrelm. cbn [n_A n_B n_fromA n_fromB y_A y_B y_fromA y_fromB y_count].
      rewrite app_length. cbn [length].
      split_and!; try done; try lia.
      * intros m U HU. apply lookup_snoc in HU as [[Hm HU]|[-> ->]].
        -- destruct (Hg _ _ HU) as (K1 & K2 & K3 & K4 & K5 & K6 & K7 & K8). rewrite Tnm by lia. split_and!; try done; destruct (s_first U); rewrite ?Tnm by lia; done.
        -- rewrite Tn1, Tn0. unfold T at 1 2 3 4 5. cbn [s_ks s_det s_first].
           split_and!; try done; try lia.
           ++ constructor; [done|]. constructor; [|constructor]. by apply kp_at_genuine.
           ++ unfold details_ok. cbn. split_and!; try done. apply (kp_at_pub_len C Hok).
           ++ unfold sok, T. cbn. split_and!; [eauto|done|]. rewrite I1 || idtac. rewrite J1. by destruct (mkdf _ _).
           ++ unfold T. cbn [s_first]. rewrite Tn1. by exists 0.
           ++ unfold T. cbn [s_first]. rewrite Tn0. by exists 0.
      * eapply devrel_grows; [done| |exact HB]. intros m Hm. by right.
      * apply hrel_ours; [done|]. eapply hrel_rest; [exact Hrest|]. eapply hrel_mono; [|exact HhA]. intros m Hm. by right.
      * by eapply (hrel_theirs C SP false idB Σ T wB DB b _ pid).
      * eapply msgs_mono; [exact Hgrow| | |exact HmA]; [|done]. intros m. destruct (decide (m = length Σ)) as [->|Hm]; [|by rewrite Tnm].
        unfold tn at 1. rewrite (proj2 (party_of_none _ _) NA). lia.
      * eapply msgs_mono; [exact Hgrow| | |exact HmB]; [done|]. intros m Hm. by right.
      * constructor; [cbn [snd p_sent]; cbn [length] in Hl; lia|]. by eapply room_tail.
      * by eapply room_tail.
      * cbn [length] in Hl. lia.
    + eapply (fresh_more Σ _ [kp_pub base; kp_pub ek]); [exact HlA0|exact HlA| | |exact Hf].
      * unfold used. rewrite bind_app. done.
      * unfold drawn. cbn [n_A]. rewrite Hpos. replace (S (S (w_pos wA)) - w_pos wA)%nat with 2 by lia. done.
Qed.
End step.
