(** Group histories with calls elsewhere in flight are like histories of calls made one after
    the other: C79. *)
From Verif Require Import PyBase Protos Crypto Ecc Messages State Prog Ratchet Builder Cipher Groups Helper ProgFacts SpecApi PoolFacts SpecIso IsoProofs FreshProofs.
From Verif Require Import SpecSession SpecCrash CrashProofs SpecGroup SpecGroupHist GroupFacts GroupHistProofs GroupPool GroupHistProofs2 SpecBeside BesideProofs ServedProofs.

Section served.
Context (C : crypto) (n : senderKeyName).
Definition same_key (w w0 : world) : Prop := w_senderkeys w !! n = w_senderkeys w0 !! n.

Lemma group_alone {A} (p : prog A) ps w o ps' w' : confined (of_group n) p -> Forall (confined (spares_group n)) ps ->
  beside C (elsewhere_group n) p ps w o ps' w' ->
  Forall (confined (spares_group n)) ps' /\ exists l k, picks l (w_pos w) (w_pos w') /\
  forall w0, same_key w w0 -> given l (w_tape w) w0 ->
    leaves p w0 o (run_crash k p w0).2 /\ same_key w' (run_crash k p w0).2 /\
    w_pos (run_crash k p w0).2 = w_pos w0 + length l /\ w_tape (run_crash k p w0).2 = w_tape w0.
Proof using.
  intros Hp Hps H. destruct (beside_alone C (elsewhere_group n) (of_group n) (spares_group n) same_key
    ltac:(unfold same_key; intros R c v v0 Hc Hv Ht; destruct c; cbn in *; try done; subst; rewrite ?lookup_insert; split; try done; by rewrite ?Hv, ?Ht)
    ltac:(unfold same_key; intros R c v v0 Hc Hv; destruct c; cbn in *; try done; by rewrite lookup_insert_ne)
    (elsewhere_spares_group C n) p ps w o ps' w' H Hp Hps) as (Hps' & l & k & Hl & Hrun).
  split; [done|]. exists l, k. split; [done|]. intros w0 Hs Hg. destruct (Hrun w0 Hs Hg) as (F1 & F2 & F3).
  split_and!; [rewrite <- F1; apply run_crash_leaves|done|done|]. apply crash_tape.
Qed.

Lemma name_api c : ~ elsewhere_group n c -> confined (of_group n) (api C c).
Proof using.
  intros Hc. apply api_confined. destruct c; cbn [elsewhere_group] in Hc; try (by destruct Hc).
  all: match goal with m : (string * string * Z)%type |- _ => assert (m = n) as -> by (destruct (decide (m = n)); [done|by destruct Hc]) end; done.
Qed.

Lemma turns_alone x y : group_turns C n x y -> Forall (confined (spares_group n)) x.2 ->
  Forall (confined (spares_group n)) y.2 /\ w_tape y.1 = w_tape x.1 /\ w_pos x.1 <= w_pos y.1 /\
  exists l, picks l (w_pos x.1) (w_pos y.1) /\ forall w0, same_key x.1 w0 -> given l (w_tape x.1) w0 ->
    exists w1, later C w0 w1 /\ same_key y.1 w1 /\ w_pos w1 = w_pos w0 + length l /\ w_tape w1 = w_tape w0.
Proof using.
  induction 1 as [x|x y z Ht _ IH]; intros Hps.
  - split_and!; [done..|]. exists []. split; [apply picks_nil|]. intros w0 Hs _. exists w0. split_and!; [apply rtc_refl|done|cbn; lia|done].
  - assert (Forall (confined (spares_group n)) y.2 /\ w_tape y.1 = w_tape x.1 /\ w_pos x.1 <= w_pos y.1 /\
      exists l, picks l (w_pos x.1) (w_pos y.1) /\ forall w0, same_key x.1 w0 -> given l (w_tape x.1) w0 ->
        exists w1, later C w0 w1 /\ same_key y.1 w1 /\ w_pos w1 = w_pos w0 + length l /\ w_tape w1 = w_tape w0) as (A1 & A2 & A3 & l1 & A4 & A5).
    { destruct Ht as [w ps c o w' ps' Hc Hb|w ps o w' ps' Hb|w ps m|w ps m|w ps m]; cbn [fst snd] in *.
      - pose proof (beside_tape _ _ _ _ _ _ _ _ Hb) as [T1 T2].
        destruct (group_alone _ _ _ _ _ _ (name_api c Hc) Hps Hb) as (Hps' & l & k & Hl & Hrun). split_and!; [done..|].
        exists l. split; [done|]. intros w0 Hs Hg. destruct (Hrun w0 Hs Hg) as (_ & F2 & F3 & F4).
        exists (run_crash k (api C c) w0).2. split_and!; [|done..]. apply rtc_once. apply step_call_dies.
      - pose proof (beside_tape _ _ _ _ _ _ _ _ Hb) as [T1 T2].
        destruct (group_alone (Ret tt) _ _ _ _ _ I Hps Hb) as (Hps' & l & k & Hl & Hrun). split_and!; [done..|].
        exists l. split; [done|]. intros w0 Hs Hg. destruct (Hrun w0 Hs Hg) as (_ & F2 & F3 & F4).
        assert ((run_crash k (Ret tt) w0).2 = w0) as E by by destruct k. rewrite E in *. exists w0. split_and!; [apply rtc_refl|done..].
      - split_and!; [done..|]. exists []. split; [apply picks_nil|]. intros w0 Hs _. exists w0. split_and!; [apply rtc_refl|done|cbn; lia|done].
      - split_and!; [done..|]. exists []. split; [apply picks_nil|]. intros w0 Hs _. exists w0. split_and!; [apply rtc_refl|done|cbn; lia|done].
      - split_and!; [done..|]. exists []. split; [apply picks_nil|]. intros w0 Hs _. exists w0. split_and!; [apply rtc_refl|done|cbn; lia|done]. }
    destruct (IH A1) as (B1 & B2 & B3 & l2 & B4 & B5). split_and!; [done|congruence|lia|]. exists (l1 ++ l2). split; [by eapply picks_app|].
    intros w0 Hs [Hg1 Hg2]%given_app. destruct (A5 w0 Hs Hg1) as (w1 & C1 & C2 & C3 & C4).
    destruct (B5 w1 C2) as (w2 & D1 & D2 & D3 & D4). { rewrite A2. by apply Hg2. }
    exists w2. split_and!; [by eapply rtc_transitive|done|rewrite app_length; lia|congruence].
Qed.
End served.

Section one.
Context (C : crypto) (n : senderKeyName).

(** A call, turns, a call: the same on a device alone. *)
Lemma turns_between {A B} (p : prog A) (q : prog B) ps w o1 ps1 w1 ps2 w2 o2 ps3 w3 :
  groupCall C n A p -> groupCall C n B q -> in_flight C (elsewhere_group n) ps ->
  beside C (elsewhere_group n) p ps w o1 ps1 w1 -> group_turns C n (w1, ps1) (w2, ps2) ->
  beside C (elsewhere_group n) q ps2 w2 o2 ps3 w3 ->
  exists t v1 v2 v3, let v := alone t (w_prekeys w) w in
    leaves p v o1 v1 /\ later C v1 v2 /\ leaves q v2 o2 v3 /\
    same_key n w1 v1 /\ same_key n w2 v2 /\ same_key n w3 v3 /\ (forall i, i < w_pos w -> t i = w_tape w i).
Proof using.
  intros Hp Hq Hps H1 Ht H2.
  destruct (group_alone C n _ _ _ _ _ _ (group_confined C n _ _ Hp) ltac:(eapply in_flight_confined; [apply elsewhere_spares_group|done]) H1)
    as (P1 & l1 & k1 & L1 & R1).
  destruct (turns_alone C n _ _ Ht P1) as (P2 & T2 & O2 & l2 & L2 & R2).
  destruct (group_alone C n _ _ _ _ _ _ (group_confined C n _ _ Hq) P2 H2) as (P3 & l3 & k3 & L3 & R3).
  pose proof (beside_tape _ _ _ _ _ _ _ _ H1) as [E1 G1]. pose proof (beside_tape _ _ _ _ _ _ _ _ H2) as [E2 G2]. cbn [fst snd] in *.
  assert (picks ((l1 ++ l2) ++ l3) (w_pos w) (w_pos w3)) as L.
  { eapply picks_app; [eapply picks_app; [exact L1|exact L2|done|done]|exact L3|lia|done]. }
  destruct (picks_outcomes _ (w_tape w) _ _ L) as (t & Hbefore & _ & Hg). exists t.
  assert (given ((l1 ++ l2) ++ l3) (w_tape w) (alone t (w_prekeys w) w)) as [[Ha Hb]%given_app Hc]%given_app by exact Hg.
  destruct (R1 (alone t (w_prekeys w) w)) as (F1 & F2 & F3 & F4); [done|done|].
  destruct (R2 _ F2) as (v2 & S1 & S2 & S3 & S4). { rewrite E1. by apply Hb. }
  destruct (R3 _ S2) as (U1 & U2 & U3 & U4). { rewrite T2, E1. apply Hc; [congruence|]. rewrite app_length, S3, F3. lia. }
  do 3 eexists. cbv zeta. split_and!; [exact F1|exact S1|exact U1|done..].
Qed.

Lemma turns_iterations : crypto_ok C -> forall ps w p1 b1 ps1 w1 ps2 w2 p2 b2 ps3 w3,
  in_flight C (elsewhere_group n) ps -> beside C (elsewhere_group n) (group_encrypt C n p1) ps w (Some (Ok b1)) ps1 w1 ->
  group_turns C n (w1, ps1) (w2, ps2) -> beside C (elsewhere_group n) (group_encrypt C n p2) ps2 w2 (Some (Ok b2)) ps3 w3 ->
  exists m1 m2, sk_msg_parse b1 = Ok m1 /\ sk_msg_parse b2 = Ok m2 /\ gKeyId m1 = gKeyId m2 /\ (gIteration m1 < gIteration m2)%N.
Proof using.
  intros Hok ps w p1 b1 ps1 w1 ps2 w2 p2 b2 ps3 w3 Hps H1 Ht H2.
  destruct (turns_between _ _ _ _ _ _ _ _ _ _ _ _ (group_call_encrypt C n p1) (group_call_encrypt C n p2) Hps H1 Ht H2)
    as (t & v1 & v2 & v3 & F1 & F2 & F3 & _). by eapply (group_iterations_increase C Hok).
Qed.
Lemma turns_once : forall ps w b pt ps1 w1 ps2 w2 o ps3 w3,
  group_reachable C w -> in_flight C (elsewhere_group n) ps -> beside C (elsewhere_group n) (group_decrypt C n b) ps w (Some (Ok pt)) ps1 w1 ->
  group_turns C n (w1, ps1) (w2, ps2) -> beside C (elsewhere_group n) (group_decrypt C n b) ps2 w2 o ps3 w3 ->
  (o = None \/ o = Some (Err EDuplicateMessage)) /\ w_senderkeys w3 !! n = w_senderkeys w2 !! n.
Proof using.
  intros ps w b pt ps1 w1 ps2 w2 o ps3 w3 Hr Hps H1 Ht H2.
  destruct (turns_between _ _ _ _ _ _ _ _ _ _ _ _ (group_call_decrypt C n b) (group_call_decrypt C n b) Hps H1 Ht H2)
    as (t & v1 & v2 & v3 & F1 & F2 & F3 & F4 & F5 & F6 & Hbefore). cbv zeta in *. cbn [leaves] in F1.
  assert (run (group_decrypt C n b) v2 = (Err EDuplicateMessage, v2)) as Hd.
  { eapply group_decrypted_once; [|exact F1|exact F2]. destruct Hr as (w0 & qs & H0 & Hr).
    apply reaches_tape in Hr as [_ Hr]. by exists (w_set_tape t w0), qs; split; [|apply (Hr t)]. }
  unfold same_key in *. destruct o as [x|]; cbn [leaves] in F3.
  - rewrite Hd in F3. injection F3 as <- <-. split; [by right|congruence].
  - split; [by left|]. destruct F3 as [k Hk].
    pose proof (single_atomic C _ _ (single_group_decrypt C n b) k v2) as Hs. rewrite Hk, Hd in Hs. cbn [snd] in Hs.
    assert (w_senderkeys v3 = w_senderkeys v2) as E by (destruct Hs as [Hs|Hs]; apply Hs). by rewrite F6, F5, E.
Qed.
End one.
