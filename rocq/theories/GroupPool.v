(** What holds of all stored sender keys in every history with any number of calls in
    flight. *)
From stdpp Require Import sorting.
From Verif Require Import PyBase Wire Protos ProtoFacts Crypto Ecc Kdf Messages State Prog Builder Cipher Groups.
From Verif Require Import ProgFacts StateFacts UtilFacts MsgFacts SpecSession SpecGroup SpecApi PoolFacts SpecIso IsoProofs GroupFacts SpecGroupHist GroupHistProofs.

Section logic.
Context (C : crypto) (Q : st_s -> Prop).
Context (Qadv : forall s s', adv s s' -> Q s -> Q s').
Context (Qnew : forall id it ck pub s, sks_create id it ck pub None = Ok s -> Q s).
Context (Qown : forall id it ck r kp s, length r = 32 -> keypair_of_rand C r = Ok kp ->
  sks_create id it ck (kp_pub kp) (Some (kp_priv kp)) = Ok s -> Q s).

Definition good (rec : list st_s) : Prop := Forall (fun s => st_wf s /\ Q s) rec.
Definition good_store {R} (c : call R) : Prop := match c with CStoreSenderKey _ rec => good rec | _ => True end.
Definition good_answer {R} (c : call R) : res R -> Prop :=
  match c in call R return res R -> Prop with
  | CLoadSenderKey _ => fun x => exists rec, x = Ok rec /\ good rec
  | CUrandom n => fun x => exists b, x = Ok b /\ length b = n
  | _ => fun _ => True
  end.
(** What the program stores is good if what it loads is; the result satisfies [P]. *)
Fixpoint gspec {A} (p : prog A) (P : A -> Prop) : Prop :=
  match p with
  | Ret a => P a
  | Raise _ => True
  | Call c k => good_store c /\ forall x, good_answer c x -> gspec (k x) P
  end.

Lemma gspec_bind {A B} (p : prog A) (f : A -> prog B) P P' :
  gspec p P -> (forall a, P a -> gspec (f a) P') -> gspec (p ≫= f) P'.
Proof using.
  intros Hp Hf. induction p as [a|e|R c k IH]; [by apply Hf|done|]. destruct Hp as [Hc Hk]. split; [done|]. intros x Hx. by apply IH, Hk.
Qed.
Lemma gspec_rethrow {A} sel e (p : prog A) P : gspec p P -> gspec (rethrow sel e p) P.
Proof using.
  unfold rethrow. intros Hp. induction p as [a|e'|R c k IH]; [done|cbn; by destruct (sel e')|].
  destruct Hp as [Hc Hk]. split; [done|]. intros x Hx. by apply IH, Hk.
Qed.
Lemma gspec_lift {A} (x : res A) (P : A -> Prop) : (forall a, x = Ok a -> P a) -> gspec (lift x) P.
Proof using. destruct x; cbn; auto. Qed.
Lemma gspec_mono {A} (p : prog A) (P P' : A -> Prop) : gspec p P -> (forall a, P a -> P' a) -> gspec p P'.
Proof using. intros Hp H. induction p as [a|e|R c k IH]; [by apply H|done|]. destruct Hp as [Hc Hk]. split; [done|]. intros x Hx. by apply IH, Hk. Qed.
Lemma gspec_peer {A} r d (p : prog A) : confined (of_peer r d) p -> gspec p (fun _ => True).
Proof using. induction p as [a|e|R c k IH]; [done..|]. intros [Hc Hk]. split; [by destruct c|]. intros x _. by apply IH. Qed.

Lemma good_moves rec rec' : good rec -> moves rec rec' -> (forall s, s ∈ rec' -> s ∈ rec \/ Q s) -> good rec'.
Proof using.
  unfold good. rewrite !Forall_forall. intros H Hm Hq s Hs.
  assert (Forall st_wf rec') as Hw. { eapply moves_wf; [done|]. apply Forall_forall. intros x Hx. by apply H. }
  rewrite Forall_forall in Hw. split; [by apply Hw|]. destruct (Hq s Hs) as [Hi|Hi]; [by apply H|done].
Qed.
Lemma good_put rec i s s' : good rec -> rec !! i = Some s -> adv s s' -> good (<[i := s']> rec).
Proof using Qadv.
  intros H Hi Ha. assert (st_wf s /\ Q s) as [Hw Hq] by (by eapply (Forall_lookup_1 _ _ _ _ H)).
  apply Forall_insert; [done|]. split; [by eapply adv_wf|by eapply Qadv].
Qed.

Lemma gspec_create n : gspec (group_create C n) (fun _ => True).
Proof using Qown.
  unfold group_create. apply gspec_rethrow. eapply (gspec_bind _ _ good).
  { split; [done|]. intros x (rec & -> & Hr). done. }
  intros rec Hr. eapply (gspec_bind _ _ (fun _ => True)); [|intros; by apply gspec_lift].
  destruct rec as [|s rec]; [|done]. eapply (gspec_bind _ _ (fun _ => True)).
  { split; [done|]. intros x _. by apply gspec_lift. }
  intros id _. eapply (gspec_bind _ _ (fun _ => True)).
  { split; [done|]. intros x _. by apply gspec_lift. }
  intros ck _. eapply (gspec_bind _ _ (fun kp => exists r, length r = 32 /\ keypair_of_rand C r = Ok kp)).
  { split; [done|]. intros x (b & -> & Hb). cbn [lift]. apply gspec_lift. eauto. }
  intros kp (r & Hl & Hkp). eapply (gspec_bind _ _ (fun s => st_wf s /\ Q s)).
  { apply gspec_lift. intros s Hs. split; [by eapply sks_create_wf|by eapply Qown]. }
  intros s Hs. eapply (gspec_bind _ _ (fun _ => True)).
  { split; [by apply Forall_singleton|]. intros x _. by apply gspec_lift. }
  done.
Qed.
Lemma gspec_process n m : gspec (group_process n m) (fun _ => True).
Proof using Qnew.
  unfold group_process. eapply (gspec_bind _ _ good).
  { split; [done|]. intros x (rec & -> & Hr). done. }
  intros rec Hr. eapply (gspec_bind _ _ (fun s => st_wf s /\ Q s)).
  { apply gspec_lift. intros s Hs. split; [by eapply sks_create_wf|by eapply Qnew]. }
  intros s Hs. split; [|intros x _; by apply gspec_lift]. apply Forall_app. split; [done|by apply Forall_singleton].
Qed.
Lemma gspec_encrypt n pt : gspec (group_encrypt C n pt) (fun _ => True).
Proof using Qadv.
  unfold group_encrypt. apply gspec_rethrow. eapply (gspec_bind _ _ good).
  { split; [done|]. intros x (rec & -> & Hr). done. }
  intros rec Hr. eapply (gspec_bind _ _ (fun s => rec !! 0 = Some s)).
  { apply gspec_lift. intros s Hs. destruct rec; [done|]. by injection Hs as ->. }
  intros s Hs. cbv zeta. eapply (gspec_bind _ _ (fun _ => True)); [by apply gspec_lift|]. intros ct _.
  eapply (gspec_bind _ _ (fun _ => True)); [by apply gspec_lift|]. intros b _.
  eapply (gspec_bind _ _ (fun _ => True)).
  { unfold calculateSignature. split; [done|]. intros x (y & -> & _). cbn [lift]. by apply gspec_lift. }
  intros sig _. eapply (gspec_bind _ _ (fun s' => adv s s')).
  { apply gspec_lift. intros s' Hs'. eapply adv_set_chain; [|done]. rewrite <- chain_at_iter. cbn [sck_next scIteration]. lia. }
  intros s' Ha. eapply (gspec_bind _ _ (fun _ => True)); [|done].
  split; [|intros x _; by apply gspec_lift]. by eapply good_put.
Qed.
Lemma gspec_decrypt n bs : gspec (group_decrypt C n bs) (fun _ => True).
Proof using Qadv.
  unfold group_decrypt. apply gspec_rethrow. eapply (gspec_bind _ _ good).
  { split; [done|]. intros x (rec & -> & Hr). done. }
  intros rec Hr. destruct rec as [|s0 rec]; [done|]. eapply (gspec_bind _ _ (fun x => good x.2)).
  - apply gspec_lift. intros x Hx. change (groupOpen C (s0 :: rec) bs = Ok x) in Hx.
    apply groupOpen_inv in Hx as (m & i & s & k & s' & Hm & Hi & Hk & ->).
    apply find_state_some in Hi as (j & -> & Hj & _). rewrite Nat.add_0_l. eapply good_put; [done|done|]. by eapply getSenderKey_adv.
  - intros x Hx. eapply (gspec_bind _ _ (fun _ => True)); [|done]. split; [done|]. intros y _. by apply gspec_lift.
Qed.
Lemma gspec_api c : gspec (api C c) (fun _ => True).
Proof using Qadv Qnew Qown.
  destruct c as [r d b|r d|r d m|r d pt|r d m|r d m|n|n m|n pt|n b]; cbn [api];
    try (eapply (gspec_bind _ _ (fun _ => True)); [|done]); try (eapply gspec_peer, (peer_confined C r d); constructor).
  - apply gspec_create.
  - apply gspec_process.
  - apply gspec_encrypt.
  - apply gspec_decrypt.
Qed.

Definition all_good (w : world) : Prop := forall n, exists rec, senderkey_at w n = Ok rec /\ good rec.
Lemma step_good {R} (c : call R) w : all_good w -> good_store c -> good_answer c (step_call c w).1 /\ all_good (step_call c w).2.
Proof using.
  intros Hw Hc. destruct c as [| | | | | | | | | |n|n rec|n| |]; try (by split); cbn [step_call fst snd].
  - split; [|done]. destruct (Hw n) as (rec & Hr & Hg). exists rec. by rewrite <- Hr.
  - split; [done|]. intros n'. destruct (decide (n = n')) as [->|Hne].
    + exists rec. split; [|done]. apply senderkey_stored. eapply Forall_impl; [exact Hc|]. by intros s [? _].
    + destruct (Hw n') as (rec' & Hr & Hg). exists rec'. split; [|done]. revert Hr. unfold senderkey_at. cbn. by rewrite lookup_insert_ne.
  - split; [|done]. eexists. split; [done|apply resize_length].
Qed.
Lemma reaches_good w0 w ps : w_senderkeys w0 = ∅ -> reaches C w0 w ps -> all_good w /\ Forall (fun p => gspec p (fun _ => True)) ps.
Proof using Qadv Qnew Qown.
  intros H0. induction 1 as [|w ps c _ [IH1 IH2]|w l1 R c k l2 _ [IH1 IH2]|w l1 p l2 _ [IH1 IH2]|w ps m _ IH|w ps m _ IH|w ps m _ IH].
  - split; [|constructor]. intros n. exists []. unfold senderkey_at. rewrite H0, lookup_empty. split; [done|constructor].
  - split; [done|]. constructor; [apply gspec_api|done].
  - apply Forall_app in IH2 as [F1 [[Hc Hk] F2]%Forall_cons]. destruct (step_good c w IH1 Hc) as [Hr Hw]. split; [done|].
    apply Forall_app. split; [done|]. constructor; [by apply Hk|done].
  - split; [done|]. apply Forall_app in IH2 as [F1 [_ F2]%Forall_cons]. by apply Forall_app.
  - exact IH.
  - exact IH.
  - exact IH.
Qed.
Lemma group_reachable_good w n : group_reachable C w -> exists rec, senderkey_at w n = Ok rec /\ Forall Q rec.
Proof using Qadv Qnew Qown.
  intros (w0 & ps & H0 & H). apply reaches_good in H as [H _]; [|done]. destruct (H n) as (rec & Hr & Hg). exists rec. split; [done|].
  eapply Forall_impl; [exact Hg|]. by intros s [_ ?].
Qed.
End logic.

Section hist.
Context (C : crypto).
Lemma group_reachable_ok w n : group_reachable C w -> exists rec, senderkey_at w n = Ok rec /\ Forall st_ok rec.
Proof using.
  apply group_reachable_good.
  - intros s s' Ha. by apply adv_ok.
  - intros id it ck pub s [_ Hk]%sks_create_wf. split; rewrite Hk; constructor.
  - intros id it ck r kp s _ _ [_ Hk]%sks_create_wf. split; rewrite Hk; constructor.
Qed.
Lemma group_reachable_ascending w n : group_reachable C w ->
  exists rec, senderkey_at w n = Ok rec /\ Forall (fun s => st_ok s /\ ascending s) rec.
Proof using.
  apply group_reachable_good.
  - intros s s' Ha [H1 H2]. split; [by apply (adv_ok _ _ Ha)|by apply (adv_ascending _ _ Ha)].
  - intros id it ck pub s [_ Hk]%sks_create_wf. unfold st_ok, ascending. rewrite Hk. repeat split; constructor.
  - intros id it ck r kp s _ _ [_ Hk]%sks_create_wf. unfold st_ok, ascending. rewrite Hk. repeat split; constructor.
Qed.
Lemma later_reachable w w' : group_reachable C w -> later C w w' -> group_reachable C w'.
Proof using.
  intros H Hl. induction Hl as [|w1 w2 w3 Hs _ IH]; [done|]. apply IH. destruct H as (w0 & ps & H0 & H).
  exists w0, ps. split; [done|]. by eapply reaches_step.
Qed.
Lemma group_reachable_start w : w_senderkeys w = ∅ -> group_reachable C w.
Proof using. intros H. exists w, []. split; [done|constructor]. Qed.
End hist.
