(** Histories with calls elsewhere in flight are like histories of calls made one after the
    other: C78. *)
From Verif Require Import PyBase Protos Crypto Ecc Messages State Prog Ratchet Builder Cipher Groups Helper ProgFacts SpecSession SpecApi SpecIso IsoProofs InvFacts SpecEncrypt SpecFresh FreshProofs SpecBeside BesideProofs.

Lemma picks_app l1 l2 i j k : picks l1 i j -> picks l2 j k -> i <= j -> j <= k -> picks (l1 ++ l2) i k.
Proof.
  intros [A1 A2] [B1 B2] Hij Hjk. split.
  - intros a x. rewrite lookup_app_Some. intros [H|[_ H]]; [apply A1 in H|apply B1 in H]; lia.
  - intros a b x y Hab. rewrite !lookup_app_Some. intros [H|[Ha H]] [H'|[Hb H']].
    + by apply (A2 a b).
    + apply A1 in H. apply B1 in H'. lia.
    + apply lookup_lt_Some in H'. lia.
    + apply (B2 (a - length l1) (b - length l1)); [lia|done..].
Qed.
Lemma given_app l1 l2 t w0 : given (l1 ++ l2) t w0 ->
  given l1 t w0 /\ forall w1, w_tape w1 = w_tape w0 -> w_pos w1 = w_pos w0 + length l1 -> given l2 t w1.
Proof.
  intros H. split.
  - intros a x Ha. apply H. rewrite lookup_app_Some. by left.
  - intros w1 Ht Hp a x Ha. rewrite Ht, Hp, <- Nat.add_assoc. apply H. rewrite lookup_app_Some. right. split; [lia|].
    by replace (length l1 + a - length l1) with a by lia.
Qed.

Section served.
Context (C : crypto) (r d : Z).

Lemma beside_device {A} (p : prog A) ps w o ps' w' d' :
  beside C (elsewhere r d) p ps w o ps' w' -> confined (of_peer r d') p -> d' <> d -> Forall (confined (spares r d)) ps ->
  Forall (confined (spares r d)) ps' /\ w_sessions w' !! (r, d) = w_sessions w !! (r, d) /\
  w_signed w' = w_signed w /\ w_identity w' = w_identity w /\ w_regid w' = w_regid w.
Proof using.
  intros H Hp Hd. revert Hp.
  induction H as [a ps w|e ps w|R c k ps w|R c k ps w o ps' w' H IH|c p ps w o ps' w' Hc H IH|p l1 R c k l2 w o ps' w' H IH|p l1 q l2 w o ps' w' H IH];
    intros Hp Hps; try (split_and!; done).
  - destruct Hp as [Hc Hk]. destruct (IH (Hk _) Hps) as (? & -> & -> & -> & ->). split; [done|].
    destruct c; cbn in *; try done. injection Hc as -> ->. split_and!; try done. rewrite lookup_insert_ne; [done|congruence].
  - apply IH; [done|]. constructor; [by apply elsewhere_spares|done].
  - apply (others_other _ _ _ _ _ (step_call c w).1) in Hps as [Hc Hps]. destruct (IH Hp Hps) as (? & -> & -> & -> & ->). split; [done|].
    destruct c; cbn in *; try done. split_and!; try done. by rewrite lookup_insert_ne.
  - apply IH; [done|]. by eapply others_dropped.
Qed.

Lemma once_api c : ~ elsewhere r d c ->
  exists d', confined (of_peer r d') (api C c) /\ once (api C c).
Proof using.
  intros Hc. destruct c as [r' d' b|r' d'|r' d' m|r' d' pt|r' d' m|r' d' m|n|n m|n pt|n b]; cbn [elsewhere] in Hc; try done.
  all: assert (r' = r) as -> by (destruct (decide (r' = r)); [done|destruct Hc; congruence]); exists d'.
  all: split; [apply api_confined; done|]; cbn [api].
  all: try (apply once_then; [|done]); apply (once_peer C r d'); constructor.
Qed.
Lemma call_device c : ~ elsewhere r d c -> confined (of_peer r d) (api C c) \/ exists d', d' <> d /\ confined (of_peer r d') (api C c).
Proof using. intros Hc. destruct (once_api c Hc) as (d' & H & _). destruct (decide (d' = d)) as [->|]; [by left|right; by exists d']. Qed.

Lemma kx_once m : once (api C (AKx r d m)).
Proof using. cbn [api]. apply once_then; [|done]. apply (once_peer C r d). constructor. Qed.
Lemma exchanges_set_prekeys w l P w1 m : exchanges C r d w l P w1 -> exchanges C r d w l P (w_set_prekeys m w1).
Proof using. intros H. eapply ex_other; [exact H|constructor]. Qed.
Lemma pending_sees w v m : sees r d w v -> pending_at (w_set_prekeys m v) r d = pending_at w r d.
Proof using. intros (H & _). unfold pending_at, session_at. cbn. by rewrite H. Qed.

Lemma served_alone w l P ps w' : served C r d w l P ps w' ->
  Forall (confined (spares r d)) ps /\ w_tape w' = w_tape w /\ w_pos w <= w_pos w' /\
  exists q, picks q (w_pos w) (w_pos w') /\ forall w0, sees r d w w0 -> given q (w_tape w) w0 ->
    exists w1, exchanges C r d w0 l P w1 /\ sees r d w' w1 /\ w_pos w1 = w_pos w0 + length q /\ w_tape w1 = w_tape w0.
Proof using.
  induction 1 as [ps Hps|l P ps w1 pt c ps' w2 _ (Hps & Ht & Hpos & q & Hq & IH) Hb|l P ps w1 c o ps' w2 _ (Hps & Ht & Hpos & q & Hq & IH) Hc Hk Hb
    |l P ps w1 m o ps' w2 _ (Hps & Ht & Hpos & q & Hq & IH) Hb Hsame|l P ps w1 m o ps' w2 _ (Hps & Ht & Hpos & q & Hq & IH) Hb HP
    |l P ps w1 o ps' w2 _ (Hps & Ht & Hpos & q & Hq & IH) Hb|l P ps w1 m _ IH|l P ps w1 m _ IH|l P ps w1 m _ IH].
  - split_and!; [|done|done|]. { eapply in_flight_confined; [apply elsewhere_spares|done]. }
    exists []. split; [apply picks_nil|]. intros w0 Hs _. exists w0. split_and!; [constructor|done|cbn; lia|done].
  - pose proof (beside_tape _ _ _ _ _ _ _ _ Hb) as [Ht2 Hpos2].
    destruct (peer_beside_once C r d _ _ _ _ _ _ Hb) as (Hps' & m & q2 & n & _ & _ & Hq2 & Hrun).
    { apply (peer_confined C). constructor. } { apply (once_peer C r d). constructor. } { done. }
    split_and!; [done|congruence|lia|]. exists (q ++ q2). split; [by eapply picks_app|].
    intros w0 Hs [Hg1 Hg2]%given_app. destruct (IH w0 Hs Hg1) as (v & S1 & S2 & S3 & S4).
    destruct (Hrun (w_set_prekeys m v)) as (F1 & [F2 _] & F3); [done|done|rewrite Ht; apply Hg2; done|].
    pose proof (crash_tape n (encrypt C r d pt) (w_set_prekeys m v)) as [F4 _].
    pose proof (run_crash_leaves n (encrypt C r d pt) (w_set_prekeys m v)) as F5. rewrite F1 in F5. cbn [leaves] in F5.
    exists (run_crash n (encrypt C r d pt) (w_set_prekeys m v)).2. split_and!.
    + eapply ex_sent; [|exact F5]. by apply exchanges_set_prekeys.
    + done.
    + rewrite F3, app_length. cbn. lia.
    + rewrite F4. done.
  - pose proof (beside_tape _ _ _ _ _ _ _ _ Hb) as [Ht2 Hpos2]. destruct (call_device c Hc) as [Hp|(d' & Hd & Hp)].
    + destruct (once_api c Hc) as (_ & _ & Hone).
      destruct (peer_beside_once C r d _ _ _ _ _ _ Hb Hp Hone Hps) as (Hps' & m & q2 & n & _ & _ & Hq2 & Hrun).
      split_and!; [done|congruence|lia|]. exists (q ++ q2). split; [by eapply picks_app|].
      intros w0 Hs [Hg1 Hg2]%given_app. destruct (IH w0 Hs Hg1) as (v & S1 & S2 & S3 & S4).
      destruct (Hrun (w_set_prekeys m v)) as (F1 & [F2 _] & F3); [done|done|rewrite Ht; apply Hg2; done|].
      pose proof (crash_tape n (api C c) (w_set_prekeys m v)) as [F4 _].
      exists (run_crash n (api C c) (w_set_prekeys m v)).2. split_and!.
      * eapply ex_other; [by apply exchanges_set_prekeys|]. by apply quiet_dies.
      * done.
      * rewrite F3, app_length. cbn. lia.
      * rewrite F4. done.
    + destruct (beside_device _ _ _ _ _ _ d' Hb Hp Hd Hps) as (Hps' & E1 & E2 & E3 & E4).
      split_and!; [done|congruence|lia|]. exists q. split; [by apply (picks_le q (w_pos w) (w_pos w) (w_pos w1))|].
      intros w0 Hs Hg. destruct (IH w0 Hs Hg) as (v & S1 & (V1 & V2 & V3 & V4 & V5) & S3 & S4).
      exists (w_set_trusted (w_trusted w2) v). split_and!; [eapply ex_other; [done|constructor]| |done|done].
      unfold sees. cbn. split_and!; congruence.
  - pose proof (beside_tape _ _ _ _ _ _ _ _ Hb) as [Ht2 Hpos2].
    destruct (peer_beside_once C r d _ _ _ _ _ _ Hb) as (Hps' & pk & q2 & n & _ & _ & Hq2 & Hrun).
    { by apply api_confined. } { apply kx_once. } { done. }
    split_and!; [done|congruence|lia|]. exists (q ++ q2). split; [by eapply picks_app|].
    intros w0 Hs [Hg1 Hg2]%given_app. destruct (IH w0 Hs Hg1) as (v & S1 & S2 & S3 & S4).
    destruct (Hrun (w_set_prekeys pk v)) as (F1 & [F2 _] & F3); [done|done|rewrite Ht; apply Hg2; done|].
    pose proof (crash_tape n (api C (AKx r d m)) (w_set_prekeys pk v)) as [F4 _].
    exists (run_crash n (api C (AKx r d m)) (w_set_prekeys pk v)).2. split_and!.
    + eapply ex_refused; [by apply exchanges_set_prekeys|apply kx_dies|]. destruct F2 as [<- _]. cbn. destruct S2 as [<- _]. done.
    + done.
    + rewrite F3, app_length. cbn. lia.
    + rewrite F4. done.
  - pose proof (beside_tape _ _ _ _ _ _ _ _ Hb) as [Ht2 Hpos2].
    destruct (peer_beside_once C r d _ _ _ _ _ _ Hb) as (Hps' & pk & q2 & n & _ & _ & Hq2 & Hrun).
    { by apply api_confined. } { apply kx_once. } { done. }
    split_and!; [done|congruence|lia|]. exists (q ++ q2). split; [by eapply picks_app|].
    intros w0 Hs [Hg1 Hg2]%given_app. destruct (IH w0 Hs Hg1) as (v & S1 & S2 & S3 & S4).
    destruct (Hrun (w_set_prekeys pk v)) as (F1 & [F2 _] & F3); [done|done|rewrite Ht; apply Hg2; done|].
    pose proof (crash_tape n (api C (AKx r d m)) (w_set_prekeys pk v)) as [F4 _].
    exists (run_crash n (api C (AKx r d m)) (w_set_prekeys pk v)).2. split_and!.
    + rewrite <- (pending_sees w1 v pk S2). eapply ex_taken; [by apply exchanges_set_prekeys|apply kx_dies|].
      by rewrite (pending_sees w1 v pk S2).
    + done.
    + rewrite F3, app_length. cbn. lia.
    + rewrite F4. done.
  - pose proof (beside_tape _ _ _ _ _ _ _ _ Hb) as [Ht2 Hpos2].
    destruct (peer_beside_once C r d _ _ _ _ _ _ Hb) as (Hps' & m & q2 & n & _ & _ & Hq2 & Hrun); [done|done|done|].
    split_and!; [done|congruence|lia|]. exists (q ++ q2). split; [by eapply picks_app|].
    intros w0 Hs [Hg1 Hg2]%given_app. destruct (IH w0 Hs Hg1) as (v & S1 & S2 & S3 & S4).
    destruct (Hrun (w_set_prekeys m v)) as (F1 & [F2 _] & F3); [done|done|rewrite Ht; apply Hg2; done|].
    exists v. split_and!; [done| | |done].
    + destruct n; exact F2.
    + rewrite app_length. destruct n; cbn in F3; lia.
  - exact IH.
  - destruct IH as (Hps & Ht & Hpos & q & Hq & IH). split_and!; [done..|]. exists q. split; [done|]. intros w0 Hs Hg.
    destruct (IH w0 Hs Hg) as (v & S1 & (V1 & V2 & V3 & V4 & V5) & S3 & S4).
    exists (w_set_signed m v). split_and!; [eapply ex_other; [done|constructor]|by unfold sees|done|done].
  - destruct IH as (Hps & Ht & Hpos & q & Hq & IH). split_and!; [done..|]. exists q. split; [done|]. intros w0 Hs Hg.
    destruct (IH w0 Hs Hg) as (v & S1 & (V1 & V2 & V3 & V4 & V5) & S3 & S4).
    exists (w_set_trusted m v). split_and!; [eapply ex_other; [done|constructor]|by unfold sees|done|done].
Qed.
End served.

Lemma served_nodup C : crypto_ok C -> forall r d w l P ps w',
  reachable C w -> w_sessions w !! (r, d) = None -> served C r d w l P ps w' -> fresh_between C w w' ->
  NoDup ((fun c => (wRatchetKey (inner c), wCounter (inner c))) <$> l).
Proof.
  intros Hok r d w l P ps w' Hw Hn Hs Hf. destruct (served_alone C r d w l P ps w' Hs) as (_ & _ & _ & q & Hq & H).
  destruct (picks_outcomes q (w_tape w) _ _ Hq) as (t & _ & (f & Hf1 & Hf2) & Hg).
  destruct (H (alone t (w_prekeys w) w)) as (w1 & S1 & _ & S3 & _); [done|exact Hg|]. cbn in S3.
  eapply (exchanges_keeps C Hok r d (alone t (w_prekeys w) w) (w_pos w1) l P); [apply reachable_inv in Hw; exact Hw|exact Hn| |exact S1|done].
  intros i j Hi Hij Hj. cbn in *. rewrite S3 in Hj. unfold pub_of.
  destruct (Hf2 i Hi ltac:(lia)) as (A1 & A2 & ->). destruct (Hf2 j ltac:(lia) Hj) as (B1 & B2 & ->).
  apply (Hf (f i) (f j)); [done|by apply Hf1; [..|lia]|done].
Qed.
