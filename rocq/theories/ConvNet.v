(** Two devices and a network against the conversation as it should be. *)
From Verif Require Import PyBase Wire Protos ProtoFacts Crypto Ecc Kdf Messages State Prog Ratchet Builder Cipher Helper.
From Verif Require Import ProgFacts StateFacts UtilFacts HelperFacts MsgFacts CipherFacts DecryptFacts SpecUtil SpecSession SessionProofs HandshakeFacts.
From Verif Require Import InvFacts HistoryProofs SpecKeys KeyProofs SpecEncrypt EncryptProofs Sched SpecConv ConvFacts ConvProofs.

(** ** Draws of a schedule *)

Section draws.
Context (C : crypto).

Definition later (w w' : world) : Prop := w_tape w' = w_tape w /\ w_pos w <= w_pos w'.
Lemma later_refl w : later w w.
Proof. by split. Qed.
Lemma later_trans w w1 w2 : later w w1 -> later w1 w2 -> later w w2.
Proof. intros [H1 H2] [H3 H4]. split; [congruence|lia]. Qed.

Lemma drawn_split w w1 w' : later w w1 -> later w1 w' -> drawn C w w' = drawn C w w1 ++ drawn C w1 w'.
Proof.
  intros [H1 H2] [H3 H4]. unfold drawn. rewrite H1, <- fmap_app. f_equal.
  replace (w_pos w' - w_pos w)%nat with ((w_pos w1 - w_pos w) + (w_pos w' - w_pos w1))%nat by lia.
  rewrite seq_app. do 2 f_equal. lia.
Qed.
Lemma drawn_one w w1 : w_pos w1 = S (w_pos w) -> drawn C w w1 = [kp_pub (kp_at C w (w_pos w))].
Proof. intros H. unfold drawn. rewrite H. by replace (S (w_pos w) - w_pos w)%nat with 1%nat by lia. Qed.

Context (rA dA rB dB : Z).
Lemma act_later a n e n' : act C rA dA rB dB a n = (e, n') -> later (n_A n) (n_A n') /\ later (n_B n) (n_B n').
Proof.
  destruct a as [pt|pt|i|i]; cbn [act]; repeat case_match; intros [= _ <-]; cbn [n_A n_B];
    split; try apply later_refl; by eapply run_stream'.
Qed.
Lemma play_later l n es n' : play C rA dA rB dB l n = (es, n') -> later (n_A n) (n_A n') /\ later (n_B n) (n_B n').
Proof.
  revert n es. induction l as [|a l IH]; intros n es; cbn [play].
  { intros [= _ <-]. split; apply later_refl. }
  destruct (act C rA dA rB dB a n) as [e n1] eqn:E. destruct (play C rA dA rB dB l n1) as [es1 n2] eqn:E2.
  intros [= _ <-]. apply act_later in E as [H1 H2]. apply IH in E2 as [H3 H4].
  split; by eapply later_trans.
Qed.

(** What is left to be drawn stays fresh. *)
Lemma fresh_rest X wA wA1 wA' wB wB1 wB' :
  later wA wA1 -> later wA1 wA' -> later wB wB1 -> later wB1 wB' ->
  NoDup (X ++ drawn C wA wA' ++ drawn C wB wB') -> NoDup (X ++ drawn C wA1 wA' ++ drawn C wB1 wB').
Proof.
  intros H1 H2 H3 H4. rewrite (drawn_split wA wA1 wA'), (drawn_split wB wB1 wB') by done.
  rewrite !NoDup_app. set_solver.
Qed.
Lemma fresh_A X wA wA1 wA' Y :
  later wA wA1 -> later wA1 wA' -> w_pos wA1 = S (w_pos wA) ->
  NoDup (X ++ drawn C wA wA' ++ Y) -> NoDup ((X ++ [kp_pub (kp_at C wA (w_pos wA))]) ++ drawn C wA1 wA' ++ Y).
Proof.
  intros H1 H2 H3. rewrite (drawn_split wA wA1 wA'), (drawn_one wA wA1) by done. by rewrite <- !app_assoc.
Qed.
Lemma fresh_B X wB wB1 wB' Y :
  later wB wB1 -> later wB1 wB' -> w_pos wB1 = S (w_pos wB) ->
  NoDup (X ++ Y ++ drawn C wB wB') -> NoDup ((X ++ [kp_pub (kp_at C wB (w_pos wB))]) ++ Y ++ drawn C wB1 wB').
Proof.
  intros H1 H2 H3. rewrite (drawn_split wB wB1 wB'), (drawn_one wB wB1) by done.
  intros H. eapply NoDup_Permutation_proper; [|exact H]. rewrite <- !app_assoc. apply Permutation_app_head.
  by rewrite Permutation_app_swap_app.
Qed.
End draws.

(** ** The network *)

Section net.
Context (C : crypto) (Hok : crypto_ok C) (rA dA rB dB : Z).
Context (r0 c0 ida idb : bytes) (det : option details).
Context (Ha : length ida = 32) (Hb : length idb = 32).
Context (Hdet : forall x, det = Some x -> details_ok x).

(** The device B before it has a session: what the first message does. *)
Context (F : world -> Prop) (k0 : keypair).
Context (Hfirst : forall ks w x i pt,
  Forall (genuine C) ks -> NoDup (kp_pub <$> ks) -> length ks = 2 -> kth ks 0 = k0 -> F w ->
  wrel C r0 c0 ks det ida idb x (1%nat, i, pt) -> x.1 = true ->
  if (2000 <? i)%N then exists w', run (receive C rA dA x) w = (Err EInvalidMessage, w') /\ F w'
  else exists w', run (receive C rA dA x) w = (Ok pt, w') /\
    drel C r0 c0 None det idb ida rA dA (ks ++ [kp_at C w (w_pos w)]) w' (Party 2 0 [(1%nat, i)] true) /\
    w_pos w' = S (w_pos w)).
Context (Hsilent : forall w, F w -> forall pt, run (encrypt C rA dA pt) w = (Err EIndexError, w)).

Definition turn_of (o : option party) : nat := match o with Some p => p_turn p | None => 0%nat end.
Definition sent_of (o : option party) : N := match o with Some p => p_sent p | None => 0%N end.

Definition nrel (ks : list keypair) (n : net) (c : conv) : Prop :=
  Forall (genuine C) ks /\
  (exists pa, c_A c = Some pa /\ drel C r0 c0 det None ida idb rB dB ks (n_A n) pa) /\
  match c_B c with
  | Some pb => drel C r0 c0 None det idb ida rA dA ks (n_B n) pb
  | None => F (n_B n) /\ kth ks 0 = k0 /\ c_fromB c = [] /\ Forall (fun x : wire => x.1 = true) (n_fromA n) /\
      exists rec, session_at (n_A n) rB dB = Ok rec /\ is_Some (ss_pendingPreKey (sr_state rec))
  end /\
  Forall2 (wrel C r0 c0 ks det ida idb) (n_fromA n) (c_fromA c) /\
  Forall2 (wrel C r0 c0 ks None idb ida) (n_fromB n) (c_fromB c) /\
  (exists k, turn_of (c_A c) = S (2 * k)) /\ (exists k, turn_of (c_B c) = (2 * k)%nat) /\
  (turn_of (c_A c) = S (turn_of (c_B c)) \/ turn_of (c_B c) = S (turn_of (c_A c))) /\
  length ks = S (turn_of (c_A c) `max` turn_of (c_B c)) /\
  Forall (fun m : msg => (exists k, m.1.1 = S (2 * k)) /\ m.1.1 <= turn_of (c_A c)) (c_fromA c) /\
  Forall (fun m : msg => (exists k, m.1.1 = (2 * k)%nat) /\ m.1.1 <= turn_of (c_B c)) (c_fromB c).

(** The freshness hypothesis for the rest of a schedule that ends in [n']. *)
Definition fresh (ks : list keypair) (n n' : net) : Prop :=
  NoDup ((kp_pub <$> ks) ++ drawn C (n_A n) (n_A n') ++ drawn C (n_B n) (n_B n')).

(** One action. *)
Definition matches (x : seen) (e : event) : Prop :=
  match x with
  | SNothing => e = Nothing
  | SSent => exists ct, e = Sent ct
  | SReceived pt => e = Received pt
  | SRaised ex => e = Raised ex
  | SUnknown => exists ex, e = Raised ex
  end.

Lemma step_net a ks n c e n1 n' x c1 :
  nrel ks n c -> act C rA dA rB dB a n = (e, n1) -> iact a c = (x, c1) ->
  later (n_A n1) (n_A n') -> later (n_B n1) (n_B n') -> fresh ks n n' ->
  (sent_of (c_A c) + 1 < 2 ^ 32)%N -> (sent_of (c_B c) + 1 < 2 ^ 32)%N ->
  (x = SUnknown /\ exists pt, e = Received pt) \/
  (matches x e /\ exists ks1, nrel ks1 n1 c1 /\ fresh ks1 n1 n' /\
     (sent_of (c_A c1) <= sent_of (c_A c) + 1)%N /\ (sent_of (c_B c1) <= sent_of (c_B c) + 1)%N).
Proof using Hok Ha Hb Hdet Hfirst Hsilent.
  intros (Hgen & (pa & Epa & HA) & HB & HfA & HfB & Hodd & Heven & Hdiff & Hlen & HmA & HmB) Hact Hiact HlA HlB Hfr HsA HsB.
  pose proof (act_later _ _ _ _ _ _ _ _ _ Hact) as [HlA0 HlB0].
  assert (fresh ks n1 n') as Hfr1 by (by eapply fresh_rest).
  assert (NoDup (kp_pub <$> ks)) as Hnd by (by apply NoDup_app in Hfr as [? _]).
  rewrite Epa in Hodd, Hdiff, Hlen, HmA, HsA. cbn [turn_of sent_of] in Hodd, Hdiff, Hlen, HmA, HsA.
  destruct a as [pt|pt|i|i]; cbn [act iact] in Hact, Hiact.
  - (* A sends *)
    right. rewrite Epa in Hiact. cbn [isend] in Hiact. injection Hiact as <- <-.
    destruct (send C Hok r0 c0 det None ida idb rB dB Ha Hb Hdet ks (n_A n) pa pt Hgen HA HsA) as (ct & w' & Hrun & Hw & Hd & Hpos & Hpend).
    rewrite Hrun in Hact. injection Hact as <- <-. split; [cbn; eauto|].
    exists ks. split; [|split; [done|]].
    2: { cbn [c_A c_B sent_of p_sent]. rewrite Epa. cbn [sent_of]. lia. }
    unfold nrel. cbn [n_A n_B n_fromA n_fromB c_A c_B c_fromA c_fromB turn_of p_turn].
    split_and!; try done.
    + eauto.
    + destruct (c_B c) as [pb|]; [done|]. destruct HB as (H1 & H0 & H2 & H3 & rec & H4 & H5).
      destruct (Hpend rec H4 H5) as (H6 & H7). split_and!; try done. apply Forall_app. split; [done|]. by constructor.
    + apply Forall2_app; [done|]. constructor; [|constructor]. done.
    + apply Forall_app. split; [done|]. constructor; [|constructor]. cbn [fst]. split; [done|lia].
  - (* B sends *)
    right. destruct (c_B c) as [pb|] eqn:Epb.
    + cbn [isend] in Hiact. injection Hiact as <- <-. cbn [turn_of sent_of] in *.
      destruct (send C Hok r0 c0 None det idb ida rA dA Hb Ha ltac:(done) ks (n_B n) pb pt Hgen HB HsB) as (ct & w' & Hrun & Hw & Hd & Hpos & Hpend).
      rewrite Hrun in Hact. injection Hact as <- <-. split; [cbn; eauto|].
      exists ks. split; [|split; [done|]].
      2: { cbn [c_A c_B sent_of p_sent]. rewrite Epa. cbn [sent_of]. lia. }
      unfold nrel. cbn [n_A n_B n_fromA n_fromB c_A c_B c_fromA c_fromB]. rewrite Epa. cbn [turn_of p_turn].
      split_and!; try done.
      * eauto.
      * apply Forall2_app; [done|]. constructor; [|constructor]. done.
      * apply Forall_app. split; [done|]. constructor; [|constructor]. cbn [fst]. split; [done|lia].
    + cbn [isend] in Hiact. injection Hiact as <- <-.
      destruct HB as (H1 & H0 & H2 & H3). rewrite (Hsilent _ H1) in Hact. injection Hact as <- <-. split; [done|].
      exists ks. split; [|split; [done|]].
      2: { cbn [c_A c_B sent_of]. lia. }
      unfold nrel. cbn [n_A n_B n_fromA n_fromB c_A c_B c_fromA c_fromB]. rewrite Epa, app_nil_r. cbn [turn_of].
      split_and!; try done; try (by destruct H3); eauto.
  - (* a message arrives at A *)
    destruct (c_fromB c !! i) as [[[l j] q]|] eqn:Em.
    2: { right. assert (n_fromB n !! i = None) as En.
         { apply lookup_ge_None. apply lookup_ge_None in Em. by rewrite (Forall2_length _ _ _ HfB). }
         rewrite En in Hact. injection Hact as <- <-. injection Hiact as <- <-. split; [done|].
         exists ks. split; [|split; [done|lia]].
         unfold nrel. rewrite Epa. cbn [turn_of]. split_and!; try done. eauto. }
    destruct (Forall2_lookup_r _ _ _ _ _ HfB Em) as (y & Ey & Hy). rewrite Ey in Hact.
    destruct (c_B c) as [pb|] eqn:Epb. 2: { destruct HB as (_ & _ & H & _). by rewrite H in Em. }
    cbn [turn_of sent_of] in *. rewrite Epa in Hiact. cbn [ideliver] in Hiact.
    pose proof (Forall_lookup_1 _ _ _ _ HmB Em) as [[k Hk] Hl]. cbn [fst] in Hk, Hl.
    assert (arrives ks (p_turn pa) l) as Harr.
    { destruct Hodd as [k1 Hk1]. destruct (decide (l < p_turn pa)).
      - right. exists (k1 - k)%nat. lia.
      - left. lia. }
    pose proof (recv C Hok r0 c0 det None ida idb rB dB Ha Hb ks (n_A n) pa l j q y Hgen Hnd HA Hy Harr) as Hr.
    destruct (ireceive (l, j, q) pa) as [x' p'] eqn:Ei. injection Hiact as <- <-.
    assert (forall w', drel C r0 c0 det None ida idb rB dB ks w' pa ->
      nrel ks (Net w' (n_B n) (n_fromA n) (n_fromB n)) (Conv (Some pa) (Some pb) (c_fromA c) (c_fromB c))) as Hsame.
    { intros w' Hd. unfold nrel. cbn [n_A n_B n_fromA n_fromB c_A c_B c_fromA c_fromB turn_of].
      split_and!; try done. eauto. }
    destruct x' as [| |q'|ex|]; try done.
    + right. destruct Hr as (w' & Hrun & Hd & Hpos). rewrite Hrun in Hact. injection Hact as <- <-. split; [done|].
      pose proof (run_stream' _ _ _ _ Hrun) as Hst.
      unfold ireceive in Ei. destruct (_ <? _)%nat; [done|]. destruct (bool_decide _); [done|].
      destruct (_ <? j)%N; [by destruct (p_alone pa)|]. injection Ei as -> <-.
      destruct (Nat.ltb_spec (p_turn pa) l) as [Hnew|Hold].
      * exists (ks ++ [kp_at C (n_A n) (w_pos (n_A n))]). split; [|split].
        -- destruct Harr as [[-> Hl2]|[k' ?]]; [|lia].
           unfold nrel. cbn [n_A n_B n_fromA n_fromB c_A c_B c_fromA c_fromB turn_of p_turn].
           split_and!; try done.
           ++ apply Forall_app. split; [done|]. constructor; [|constructor]. by apply kp_at_genuine.
           ++ eauto.
           ++ by apply drel_app.
           ++ eapply Forall2_impl; [exact HfA|]. intros. by apply wrel_app.
           ++ eapply Forall2_impl; [exact HfB|]. intros. by apply wrel_app.
           ++ destruct Hodd as [k1 ->]. exists (S k1). lia.
           ++ lia.
           ++ rewrite app_length. cbn [length]. lia.
           ++ eapply Forall_impl; [exact HmA|]. intros ? [? ?]. split; [done|lia].
        -- unfold fresh. cbn [n_A n_B]. rewrite fmap_app. apply fresh_A; try done. by apply Hpos.
        -- cbn [sent_of c_A c_B p_sent]. rewrite Epa. cbn [sent_of]. lia.
      * exists ks. split; [|split; [done|]].
        -- unfold nrel. cbn [n_A n_B n_fromA n_fromB c_A c_B c_fromA c_fromB turn_of p_turn]. split_and!; try done. eauto.
        -- cbn [sent_of c_A c_B p_sent]. rewrite Epa. cbn [sent_of]. lia.
    + right. destruct Hr as (-> & w' & Hrun & Hd). rewrite Hrun in Hact. injection Hact as <- <-. split; [done|].
      exists ks. split; [by apply Hsame|split; [done|]]. cbn [sent_of c_A c_B]. rewrite Epa. cbn [sent_of]. lia.
    + destruct Hr as (-> & Hr). destruct (run (receive C rB dB y) (n_A n)) as [[q'|ex] w'] eqn:Hrun; injection Hact as <- <-.
      * left. eauto.
      * right. split; [cbn; eauto|]. exists ks. split; [by apply Hsame, (Hr ex)|split; [done|]].
        cbn [sent_of c_A c_B]. rewrite Epa. cbn [sent_of]. lia.
  - (* a message arrives at B *)
    destruct (c_fromA c !! i) as [[[l j] q]|] eqn:Em.
    2: { right. assert (n_fromA n !! i = None) as En.
         { apply lookup_ge_None. apply lookup_ge_None in Em. by rewrite (Forall2_length _ _ _ HfA). }
         rewrite En in Hact. injection Hact as <- <-. injection Hiact as <- <-. split; [done|].
         exists ks. split; [|split; [done|lia]].
         unfold nrel. rewrite Epa. cbn [turn_of]. split_and!; try done. eauto. }
    destruct (Forall2_lookup_r _ _ _ _ _ HfA Em) as (y & Ey & Hy). rewrite Ey in Hact.
    pose proof (Forall_lookup_1 _ _ _ _ HmA Em) as [[k Hk] Hl]. cbn [fst] in Hk, Hl.
    destruct (c_B c) as [pb|] eqn:Epb.
    + cbn [turn_of sent_of] in *. cbn [ideliver] in Hiact.
      assert (arrives ks (p_turn pb) l) as Harr.
      { destruct Heven as [k1 Hk1]. destruct (decide (l < p_turn pb)).
        - right. exists (k1 - k - 1)%nat. lia.
        - left. lia. }
      pose proof (recv C Hok r0 c0 None det idb ida rA dA Hb Ha ks (n_B n) pb l j q y Hgen Hnd HB Hy Harr) as Hr.
      destruct (ireceive (l, j, q) pb) as [x' p'] eqn:Ei. injection Hiact as <- <-.
      assert (forall w', drel C r0 c0 None det idb ida rA dA ks w' pb ->
        nrel ks (Net (n_A n) w' (n_fromA n) (n_fromB n)) (Conv (c_A c) (Some pb) (c_fromA c) (c_fromB c))) as Hsame.
      { intros w' Hd. unfold nrel. cbn [n_A n_B n_fromA n_fromB c_A c_B c_fromA c_fromB]. rewrite Epa. cbn [turn_of].
        split_and!; try done. eauto. }
      destruct x' as [| |q'|ex|]; try done.
      * right. destruct Hr as (w' & Hrun & Hd & Hpos). rewrite Hrun in Hact. injection Hact as <- <-. split; [done|].
        pose proof (run_stream' _ _ _ _ Hrun) as Hst.
        unfold ireceive in Ei. destruct (_ <? _)%nat; [done|]. destruct (bool_decide _); [done|].
        destruct (_ <? j)%N; [by destruct (p_alone pb)|]. injection Ei as -> <-.
        destruct (Nat.ltb_spec (p_turn pb) l) as [Hnew|Hold].
        -- exists (ks ++ [kp_at C (n_B n) (w_pos (n_B n))]). split; [|split].
           ++ destruct Harr as [[-> Hl2]|[k' ?]]; [|lia].
              unfold nrel. cbn [n_A n_B n_fromA n_fromB c_A c_B c_fromA c_fromB]. rewrite Epa. cbn [turn_of p_turn].
              split_and!; try done.
              ** apply Forall_app. split; [done|]. constructor; [|constructor]. by apply kp_at_genuine.
              ** eexists. split; [done|]. by apply drel_app.
              ** eapply Forall2_impl; [exact HfA|]. intros. by apply wrel_app.
              ** eapply Forall2_impl; [exact HfB|]. intros. by apply wrel_app.
              ** destruct Heven as [k1 ->]. exists (S k1). lia.
              ** lia.
              ** rewrite app_length. cbn [length]. lia.
              ** eapply Forall_impl; [exact HmB|]. intros ? [? ?]. split; [done|lia].
           ++ unfold fresh. cbn [n_A n_B]. rewrite fmap_app. apply fresh_B; try done. by apply Hpos.
           ++ cbn [sent_of c_A c_B p_sent]. lia.
        -- exists ks. split; [|split; [done|]].
           ++ unfold nrel. cbn [n_A n_B n_fromA n_fromB c_A c_B c_fromA c_fromB]. rewrite Epa. cbn [turn_of p_turn]. split_and!; try done. eauto.
           ++ cbn [sent_of c_A c_B p_sent]. lia.
      * right. destruct Hr as (-> & w' & Hrun & Hd). rewrite Hrun in Hact. injection Hact as <- <-. split; [done|].
        exists ks. split; [by apply Hsame|split; [done|]]. cbn [sent_of c_A c_B]. lia.
      * destruct Hr as (-> & Hr). destruct (run (receive C rA dA y) (n_B n)) as [[q'|ex] w'] eqn:Hrun; injection Hact as <- <-.
        -- left. eauto.
        -- right. split; [cbn; eauto|]. exists ks. split; [by apply Hsame, (Hr ex)|split; [done|]].
           cbn [sent_of c_A c_B]. lia.
    + (* the first message *)
      right. cbn [turn_of sent_of] in *. destruct HB as (HF & HF0 & HfB0 & Hpre & Hpend).
      assert (l = 1%nat) as -> by lia. assert (p_turn pa = 1%nat) as Ht by lia.
      assert (length ks = 2) as Hl2 by lia.
      pose proof (Forall_lookup_1 _ _ _ _ Hpre Ey) as Hy1. cbn beta in Hy1.
      pose proof (Hfirst ks (n_B n) y j q Hgen Hnd Hl2 HF0 HF Hy Hy1) as Hr.
      unfold ideliver, ireceive in Hiact. cbn [p_turn p_got p_alone p_sent] in Hiact.
      change (1 + 9 <? 0)%nat with false in Hiact. cbn iota in Hiact.
      rewrite bool_decide_eq_false_2 in Hiact by (by intros ?%elem_of_nil).
      change (next_of 1 [] + 2000)%N with 2000%N in Hiact.
      destruct (2000 <? j)%N.
      * destruct Hr as (w' & Hrun & HF'). rewrite Hrun in Hact. injection Hact as <- <-. injection Hiact as <- <-.
        split; [done|]. exists ks. split; [|split; [done|]].
        -- unfold nrel. cbn [n_A n_B n_fromA n_fromB c_A c_B c_fromA c_fromB]. rewrite Epa. cbn [turn_of]. split_and!; try done. eauto.
        -- cbn [sent_of c_A c_B]. lia.
      * change (0 <? 1)%nat with true in Hiact. cbn iota in Hiact.
        destruct Hr as (w' & Hrun & Hd & Hpos). rewrite Hrun in Hact. injection Hact as <- <-. injection Hiact as <- <-.
        pose proof (run_stream' _ _ _ _ Hrun) as Hst.
        split; [done|]. exists (ks ++ [kp_at C (n_B n) (w_pos (n_B n))]). split; [|split].
        -- unfold nrel. cbn [n_A n_B n_fromA n_fromB c_A c_B c_fromA c_fromB]. rewrite Epa. cbn [turn_of p_turn].
           split_and!; try done.
           ++ apply Forall_app. split; [done|]. constructor; [|constructor]. by apply kp_at_genuine.
           ++ eexists. split; [done|]. by apply drel_app.
           ++ eapply Forall2_impl; [exact HfA|]. intros. by apply wrel_app.
           ++ eapply Forall2_impl; [exact HfB|]. intros. by apply wrel_app.
           ++ exists 1%nat. lia.
           ++ lia.
           ++ rewrite app_length. cbn [length]. lia.
           ++ rewrite HfB0. constructor.
        -- unfold fresh. cbn [n_A n_B]. rewrite fmap_app. apply fresh_B; try done.
        -- cbn [sent_of c_A c_B p_sent]. lia.
Qed.

(** Any schedule. *)
Lemma play_net l : forall ks n c es n',
  nrel ks n c -> play C rA dA rB dB l n = (es, n') -> fresh ks n n' ->
  (sent_of (c_A c) + N.of_nat (length l) < 2 ^ 32)%N -> (sent_of (c_B c) + N.of_nat (length l) < 2 ^ 32)%N ->
  as_expected l es c.
Proof using Hok Ha Hb Hdet Hfirst Hsilent.
  induction l as [|a l IH]; intros ks n c es n' Hn Hplay Hfr HsA HsB; cbn [play] in Hplay.
  { by injection Hplay as <- _. }
  destruct (act C rA dA rB dB a n) as [e n1] eqn:Ea. destruct (play C rA dA rB dB l n1) as [es1 n2] eqn:Ep.
  injection Hplay as <- <-. cbn [as_expected]. destruct (iact a c) as [x c1] eqn:Ei.
  destruct (play_later _ _ _ _ _ _ _ _ _ Ep) as [HlA HlB]. cbn [length] in HsA, HsB.
  destruct (step_net a ks n c e n1 n2 x c1 Hn Ea Ei HlA HlB Hfr) as [(-> & pt & ->)|(Hm & ks1 & Hn1 & Hfr1 & H1 & H2)]; [lia|lia| |].
  { right. eauto. }
  assert (as_expected l es1 c1) as Hrest by (apply (IH ks1 n1 c1 es1 n2 Hn1 Ep Hfr1); lia).
  destruct x; cbn [matches] in Hm; try done.
  destruct Hm as [ex ->]. left. eauto.
Qed.
End net.
