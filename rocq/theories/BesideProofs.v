(** A call for one peer device or sender key name, beside calls for others, does what it
    does alone: C77. *)
From Verif Require Import PyBase Protos Crypto Ecc Messages State Prog Ratchet Builder Cipher Groups Helper ProgFacts SpecApi SpecIso IsoProofs FreshProofs SpecBeside.

Lemma confined_weaken (P Q : forall R, call R -> Prop) {A} (p : prog A) :
  (forall R (c : call R), P R c -> Q R c) -> confined P p -> confined Q p.
Proof. intros H. induction p as [a|e|R c k IH]; [done..|]. intros [Hc Hk]. split; [by apply H|]. intros x. apply IH, Hk. Qed.
Lemma confined_and (P Q : forall R, call R -> Prop) {A} (p : prog A) :
  confined P p -> confined Q p -> confined (fun R c => P R c /\ Q R c) p.
Proof. induction p as [a|e|R c k IH]; [done..|]. intros [Hc Hk] [Hc' Hk']. split; [done|]. intros x. by apply IH. Qed.

(** ** Any kind of call *)

(** [l]: positions on the tape, in order, between [i] and [j]. *)
Definition picks (l : list nat) (i j : nat) : Prop :=
  (forall a x, l !! a = Some x -> i <= x /\ x < j) /\
  forall a b x y, a < b -> l !! a = Some x -> l !! b = Some y -> x < y.
(** The tape of [w0] has the outcomes at these positions of the tape [t], from where it stands. *)
Definition given (l : list nat) (t : nat -> bytes) (w0 : world) : Prop :=
  forall a x, l !! a = Some x -> w_tape w0 (w_pos w0 + a) = t x.

Lemma picks_nil i j : picks [] i j.
Proof. split; intros; by rewrite lookup_nil in *. Qed.
Lemma picks_le l i i' j j' : i' <= i -> j <= j' -> picks l i j -> picks l i' j'.
Proof. intros Hi Hj [H1 H2]. split; [|done]. intros a x Ha. apply H1 in Ha. lia. Qed.
Lemma picks_cons l i j : picks l (S i) j -> S i <= j -> picks (i :: l) i j.
Proof.
  intros [H1 H2] Hj. split.
  - intros [|a] x; cbn; [intros [= <-]; lia|]. intros Ha. apply H1 in Ha. lia.
  - intros [|a] [|b] x y Hab; cbn; try lia; [intros [= <-] Hb; apply H1 in Hb; lia|]. intros Ha Hb. apply (H2 a b); [lia|done..].
Qed.

Section beside.
Context (C : crypto) (others : apiCall -> Prop).
Context (P I : forall R, call R -> Prop) (V : world -> world -> Prop).
Context (HP : forall R (c : call R) w w0, P R c -> V w w0 ->
  (draws c = true -> w_tape w (w_pos w) = w_tape w0 (w_pos w0)) ->
  (step_call c w).1 = (step_call c w0).1 /\ V (step_call c w).2 (step_call c w0).2).
Context (HI : forall R (c : call R) w w0, I R c -> V w w0 -> V (step_call c w).2 w0).
Context (Hothers : forall c, others c -> confined I (api C c)).

Lemma others_other l1 R (c : call R) (k : res R -> prog unit) x l2 :
  Forall (confined I) (l1 ++ Call c k :: l2) -> I R c /\ Forall (confined I) (l1 ++ k x :: l2).
Proof using.
  rewrite !Forall_app, !Forall_cons. cbn [confined]. intros (H1 & (H2 & H3) & H4). split_and!; [done|done|apply H3|done].
Qed.
Lemma others_dropped l1 (q : prog unit) l2 : Forall (confined I) (l1 ++ q :: l2) -> Forall (confined I) (l1 ++ l2).
Proof using. rewrite !Forall_app, !Forall_cons. tauto. Qed.

Lemma beside_tape {A} (p : prog A) ps w o ps' w' : beside C others p ps w o ps' w' -> w_tape w' = w_tape w /\ w_pos w <= w_pos w'.
Proof using.
  induction 1 as [| | |R c k ps w o ps' w' _ [IH1 IH2]| |p l1 R c k l2 w o ps' w' _ [IH1 IH2]|]; try done.
  all: pose proof (step_tape c w) as [H1 H2]; pose proof (next_pos_le c (w_pos w)); split; [congruence|lia].
Qed.

Lemma beside_alone {A} (p : prog A) ps w o ps' w' :
  beside C others p ps w o ps' w' -> confined P p -> Forall (confined I) ps ->
  Forall (confined I) ps' /\ exists l n, picks l (w_pos w) (w_pos w') /\
  forall w0, V w w0 -> given l (w_tape w) w0 ->
    (run_crash n p w0).1 = o /\ V w' (run_crash n p w0).2 /\ w_pos (run_crash n p w0).2 = w_pos w0 + length l.
Proof using HP HI Hothers.
  induction 1 as [a ps w|e ps w|R c k ps w|R c k ps w o ps' w' H IH|c p ps w o ps' w' Hc H IH|p l1 R c k l2 w o ps' w' H IH|p l1 q l2 w o ps' w' H IH];
    intros Hp Hps.
  - split; [done|]. exists [], 0. split; [apply picks_nil|]. intros w0 Hv _. cbn. split_and!; [done..|lia].
  - split; [done|]. exists [], 0. split; [apply picks_nil|]. intros w0 Hv _. cbn. split_and!; [done..|lia].
  - split; [done|]. exists [], 0. split; [apply picks_nil|]. intros w0 Hv _. cbn. split_and!; [done..|lia].
  - destruct Hp as [Hc Hk]. destruct (IH (Hk _) Hps) as (Hps' & l & n & Hl & Hrun). split; [done|].
    pose proof (step_tape c w) as [Ht Hpos]. pose proof (beside_tape _ _ _ _ _ _ H) as [_ Hle].
    exists (if draws c then w_pos w :: l else l), (S n). unfold next_pos in Hpos. split.
    { rewrite Hpos in Hl, Hle. destruct (draws c); [by apply picks_cons|done]. }
    intros w0 Hv Hg. pose proof (step_tape c w0) as [Ht0 Hpos0]. unfold next_pos in Hpos0. cbn [run_crash].
    destruct (HP _ c w w0 Hc Hv) as [E1 E2].
    { intros Hd. rewrite Hd in Hg. specialize (Hg 0 (w_pos w) eq_refl). rewrite Nat.add_0_r in Hg. done. }
    rewrite E1 in *. destruct (step_call c w0) as [x0 w0']. cbn [fst snd] in *.
    destruct (Hrun w0' E2) as (F1 & F2 & F3).
    { intros a y Ha. rewrite Ht, Ht0, Hpos0. destruct (draws c).
      - rewrite <- (Hg (S a) y Ha). f_equal. lia.
      - by apply Hg. }
    split_and!; [done|done|]. rewrite F3, Hpos0. destruct (draws c); cbn [length]; lia.
  - apply IH; [done|]. constructor; [by apply Hothers|done].
  - apply (others_other _ _ _ _ (step_call c w).1) in Hps as [Hc Hps]. destruct (IH Hp Hps) as (Hps' & l & n & Hl & Hrun). split; [done|].
    pose proof (step_tape c w) as [Ht Hpos]. exists l, n. split.
    { eapply picks_le; [|done|exact Hl]. rewrite Hpos. apply next_pos_le. }
    intros w0 Hv Hg. apply Hrun; [by apply HI|]. by rewrite Ht.
  - apply IH; [done|]. by eapply others_dropped.
Qed.
End beside.

Lemma run_crash_leaves {A} n (p : prog A) w : leaves p w (run_crash n p w).1 (run_crash n p w).2.
Proof. destruct (run_crash n p w) as [[x|] w'] eqn:E; cbn; [by eapply run_crash_some|by exists n]. Qed.
Lemma picks_outcomes l t0 i j : picks l i j -> exists t, (forall a, a < i -> t a = t0 a) /\ outcomes_of t t0 i (length l) j /\
  forall a x, l !! a = Some x -> t (i + a) = t0 x.
Proof.
  intros [H1 H2]. set (f a := if decide (a < i) then a else default 0 (l !! (a - i))).
  exists (fun a => t0 (f a)).
  assert (forall a, i <= a -> a < i + length l -> l !! (a - i) = Some (f a)) as Hf.
  { intros a Ha Hb. unfold f. rewrite decide_False by lia. destruct (lookup_lt_is_Some_2 l (a - i)) as [x Hx]; [lia|]. by rewrite Hx. }
  split_and!.
  - intros a Ha. unfold f. by rewrite decide_True.
  - exists f. split.
    + intros a b Ha Hab Hb. eapply (H2 (a - i) (b - i)); [lia|apply Hf; lia..].
    + intros a Ha Hb. specialize (Hf a Ha Hb). apply H1 in Hf as [??]. by split_and!.
  - intros a x Hx. f_equal. apply lookup_lt_Some in Hx as Hlt. specialize (Hf (i + a)). replace (i + a - i) with a in Hf by lia.
    rewrite Hx in Hf. specialize (Hf ltac:(lia) ltac:(lia)). congruence.
Qed.

(** ** Peers *)

Definition spares (r d : Z) (R : Type) (c : call R) : Prop :=
  match c with
  | CStoreSession r' d' _ => (r', d') <> (r, d)
  | CSaveIdentity r' _ => r' <> r
  | _ => True
  end.
Definition of_prekeys {R} (c : call R) : bool := match c with CLoadPreKey _ | CRemovePreKey _ => true | _ => false end.
Definition not_load (R : Type) (c : call R) : Prop := match c with CLoadPreKey _ => False | _ => True end.
(** Prekeys are loaded at most once, before any is removed. *)
Fixpoint once {A} (p : prog A) : Prop :=
  match p with
  | Ret _ | Raise _ => True
  | Call c k => if of_prekeys c then forall x, confined not_load (k x) else forall x, once (k x)
  end.
Definition sees (r d : Z) (w w0 : world) : Prop :=
  w_sessions w !! (r, d) = w_sessions w0 !! (r, d) /\ w_trusted w !! r = w_trusted w0 !! r /\
  w_signed w = w_signed w0 /\ w_identity w = w_identity w0 /\ w_regid w = w_regid w0.
Definition covers (r d : Z) (w w0 : world) : Prop := sees r d w w0 /\ w_prekeys w ⊆ w_prekeys w0.

Lemma once_of {A} (p : prog A) : confined not_load p -> once p.
Proof. induction p as [a|e|R c k IH]; [done..|]. intros [Hc Hk]. cbn. destruct (of_prekeys c); [done|]. intros x. apply IH, Hk. Qed.
Lemma once_then {A B} (p : prog A) (f : A -> prog B) : once p -> (forall a, confined not_load (f a)) -> once (p ≫= f).
Proof.
  intros Hp Hf. induction p as [a|e|R c k IH]; [by apply once_of, Hf|done|]. cbn in Hp |- *. destruct (of_prekeys c).
  - intros x. apply confined_bind; [apply Hp|done].
  - intros x. apply IH, Hp.
Qed.
Lemma then_once {A B} (p : prog A) (f : A -> prog B) : confined (fun R c => of_prekeys c = false) p -> (forall a, once (f a)) -> once (p ≫= f).
Proof.
  intros Hp Hf. induction p as [a|e|R c k IH]; [apply Hf|done|]. destruct Hp as [Hc Hk]. cbn. rewrite Hc. intros x. apply IH, Hk.
Qed.

Section peers.
Context (C : crypto) (r d : Z).

Lemma step_covers R (c : call R) w w0 : (of_peer r d R c /\ not_load R c) -> covers r d w w0 ->
  (draws c = true -> w_tape w (w_pos w) = w_tape w0 (w_pos w0)) ->
  (step_call c w).1 = (step_call c w0).1 /\ covers r d (step_call c w).2 (step_call c w0).2.
Proof using.
  intros [Hc Hn] H Ht. pose proof H as ((H1 & H2 & H3 & H4 & H5) & H6).
  destruct c; cbn [of_peer not_load draws] in *; try done; cbn [step_call fst snd]; try injection Hc as -> ->; subst; split; try done.
  all: try (by rewrite ?H1, ?H2, ?H3, ?H4, ?H5, ?Ht).
  all: unfold covers, sees; cbn; rewrite ?lookup_insert; split_and!; try done.
  by apply delete_mono.
Qed.
Lemma spares_sees R (c : call R) w w0 : spares r d R c -> sees r d w w0 -> sees r d (step_call c w).2 w0.
Proof using.
  intros Hc (H1 & H2 & H3 & H4 & H5). destruct c; cbn [spares] in *; try done; unfold sees; cbn; split_and!; try done; by rewrite lookup_insert_ne.
Qed.
Lemma spares_covers R (c : call R) w w0 : spares r d R c -> covers r d w w0 -> covers r d (step_call c w).2 w0.
Proof using.
  intros Hc [H1 H2]. split; [by apply spares_sees|]. etrans; [|exact H2].
  destruct c; cbn; try done. apply delete_subseteq.
Qed.
Lemma step_sees R (c : call R) w w0 : of_peer r d R c -> of_prekeys c = false -> sees r d w w0 ->
  (draws c = true -> w_tape w (w_pos w) = w_tape w0 (w_pos w0)) ->
  (step_call c w).1 = (step_call c w0).1 /\ sees r d (step_call c w).2 (step_call c w0).2 /\
  w_prekeys (step_call c w).2 = w_prekeys w /\ w_prekeys (step_call c w0).2 = w_prekeys w0.
Proof using.
  intros Hc Hn H Ht. pose proof H as (H1 & H2 & H3 & H4 & H5).
  destruct c; cbn [of_peer of_prekeys draws] in *; try done; cbn [step_call fst snd]; try injection Hc as -> ->; subst; split_and!; try done.
  all: try (by rewrite ?H1, ?H2, ?H3, ?H4, ?H5, ?Ht).
  all: unfold sees; cbn; rewrite ?lookup_insert; split_and!; done.
Qed.
Lemma step_prekey R (c : call R) w w0 : of_prekeys c = true -> sees r d w w0 -> w_prekeys w0 = w_prekeys w ->
  (step_call c w).1 = (step_call c w0).1 /\ covers r d (step_call c w).2 (step_call c w0).2.
Proof using.
  intros Hc (H1 & H2 & H3 & H4 & H5) H6. destruct c; try done; cbn; unfold covers, sees; cbn; rewrite ?H6; split_and!; done.
Qed.

(** What the calls do to prekeys and to the identities of peers. *)
Ltac cfy extra := repeat first
  [ extra | lazymatch goal with
  | |- confined _ (match ?x with _ => _ end) => destruct x
  | |- confined _ _ => first [ apply confined_lift | by apply confined_do | exact I
      | apply confined_bind; [|intros ?] | apply confined_catch; [|intros ?] ]
  end ].

Section ratchet.
Context (P : forall R, call R -> Prop) (Hrand : forall n, P _ (CUrandom n)).
Lemma any_state s m : confined P (decryptWithSessionState C s m).
Proof using Hrand. unfold decryptWithSessionState, getOrCreateChainKey, generateKeyPair. cfy fail. Qed.
Lemma any_record rec m : confined P (decryptWithSessionRecord C rec m).
Proof using Hrand.
  unfold decryptWithSessionRecord. apply confined_catch; [apply confined_bind; [apply any_state|done]|intros ?]. apply confined_if; [|done].
  generalize 0 as i. induction (sr_previous rec) as [|s l IH]; intros i; [done|]. cbn [decryptWithPrevious].
  apply confined_catch; [apply confined_bind; [apply any_state|done]|intros ?]. apply confined_if; [apply IH|done].
Qed.
Lemma any_alice s a b c e f g : confined P (initializeSessionAsAlice C s a b c e f g).
Proof using Hrand. unfold initializeSessionAsAlice, generateKeyPair. cfy fail. Qed.
Lemma any_init s a b c e f g : confined P (initializeSession C s a b c e f g).
Proof using Hrand. unfold initializeSession. cfy ltac:(apply any_alice). Qed.
End ratchet.
Ltac cfz := cfy ltac:(first [ by apply any_record | by apply any_alice | by apply any_init ]).

Definition no_identity (R : Type) (c : call R) : Prop := match c with CSaveIdentity _ _ => False | _ => True end.
Lemma keeps_identity c : match c with AEncrypt _ _ _ | AMsg _ _ _ | AInitKx _ _ => True | _ => False end -> confined no_identity (api C c).
Proof using.
  destruct c; try done; intros _; cbn [api].
  - unfold processInitKeyExchangeMessage, rethrow, getRandomSequence, generateKeyPair, calculateSignature. cfz.
  - unfold encrypt. cfz.
  - unfold decryptMsg. cfz.
Qed.

Lemma once_peer A (p : prog A) : peerCall C r d A p -> once p.
Proof using.
  intros [b|m| |pt|m|m].
  - apply once_of. unfold processPreKeyBundle, generateKeyPair. cfz.
  - apply once_of. unfold processKeyExchangeMessage, processInitiate, processResponse, generateKeyPair, calculateSignature. cfz.
  - apply once_of. unfold processInitKeyExchangeMessage, rethrow, getRandomSequence, generateKeyPair, calculateSignature. cfz.
  - apply once_of. unfold encrypt. cfz.
  - apply once_of. unfold decryptMsg. cfz.
  - unfold decryptPkmsg. apply then_once; [by apply confined_do|]. intros rec. apply once_then.
    2:{ intros x. cfz. }
    unfold builder_process. apply then_once; [by apply confined_do|]. intros [|]; [|done]. apply once_then; [|intros x; cfz].
    unfold processV3. destruct (sr_hasSessionState _ _ _); [done|].
    apply then_once; [by apply confined_do|]. intros spr. apply then_once; [apply confined_lift|]. intros kp.
    apply then_once; [by apply confined_do|]. intros id. apply once_then.
    + destruct (pPreKeyId m); [|done]. cbn. intros x. destruct x; cbn; [|done]. cfz.
    + intros x. cfz.
Qed.
End peers.

Lemma api_confined C (P : forall R, call R -> Prop) c :
  match c with
  | ABundle r d _ | AInitKx r d | AKx r d _ | AEncrypt r d _ | AMsg r d _ | APkmsg r d _ => forall R (x : call R), of_peer r d R x -> P R x
  | AGroupCreate n | AGroupProcess n _ | AGroupEncrypt n _ | AGroupDecrypt n _ => forall R (x : call R), of_group n R x -> P R x
  end -> confined P (api C c).
Proof.
  intros H. destruct c; cbn [api]; try (apply confined_bind; [|done]); (eapply confined_weaken; [exact H|]).
  all: first [ apply (peer_confined C); constructor | apply (group_confined C); constructor ].
Qed.

Lemma step_prekeys_le {R} (c : call R) w : w_prekeys (step_call c w).2 ⊆ w_prekeys w.
Proof. destruct c; cbn; try done. apply delete_subseteq. Qed.
Lemma beside_prekeys C others {A} (p : prog A) ps w o ps' w' : beside C others p ps w o ps' w' -> w_prekeys w' ⊆ w_prekeys w.
Proof. induction 1 as [| | |R c k ps w o ps' w' _ IH| |p l1 R c k l2 w o ps' w' _ IH|]; try done; (etrans; [exact IH|apply step_prekeys_le]). Qed.

Section elsewhere.
Context (C : crypto) (r d : Z).
Lemma elsewhere_spares c : elsewhere r d c -> confined (spares r d) (api C c).
Proof using.
  intros Hc. 
  assert (match c with AEncrypt _ _ _ | AMsg _ _ _ | AInitKx _ _ => True | _ => False end \/ ~ match c with AEncrypt _ _ _ | AMsg _ _ _ | AInitKx _ _ => True | _ => False end) as [H|H].
  { destruct c; tauto. }
  - apply (keeps_identity C) in H as H1.
    assert (exists r' d', (r', d') <> (r, d) /\ confined (of_peer r' d') (api C c)) as (r' & d' & Hne & H2).
    { destruct c; try done; do 2 eexists; (split; [exact Hc|]); by apply api_confined. }
    eapply confined_weaken; [|exact (confined_and _ _ _ H1 H2)]. intros R x [A1 A2]. destruct x; try done. cbn in *. congruence.
  - apply api_confined. destruct c; cbn in Hc, H; try tauto; intros R [] Hx; cbn in *; try done; congruence.
Qed.

Lemma peer_beside_once {A} (p : prog A) ps w o ps' w' :
  beside C (elsewhere r d) p ps w o ps' w' -> confined (of_peer r d) p -> once p -> Forall (confined (spares r d)) ps ->
  Forall (confined (spares r d)) ps' /\ exists m l n, m ⊆ w_prekeys w /\ w_prekeys w' ⊆ m /\ picks l (w_pos w) (w_pos w') /\
  forall w0, sees r d w w0 -> w_prekeys w0 = m -> given l (w_tape w) w0 ->
    (run_crash n p w0).1 = o /\ covers r d w' (run_crash n p w0).2 /\ w_pos (run_crash n p w0).2 = w_pos w0 + length l.
Proof using.
  induction 1 as [a ps w|e ps w|R c k ps w|R c k ps w o ps' w' H IH|c p ps w o ps' w' Hc H IH|p l1 R c k l2 w o ps' w' H IH|p l1 q l2 w o ps' w' H IH];
    intros Hp Ho Hps.
  - split; [done|]. exists (w_prekeys w), [], 0. split_and!; [done|done|apply picks_nil|]. intros w0 Hv Hm _. cbn.
    split_and!; [done|split; [done|by rewrite Hm]|lia].
  - split; [done|]. exists (w_prekeys w), [], 0. split_and!; [done|done|apply picks_nil|]. intros w0 Hv Hm _. cbn.
    split_and!; [done|split; [done|by rewrite Hm]|lia].
  - split; [done|]. exists (w_prekeys w), [], 0. split_and!; [done|done|apply picks_nil|]. intros w0 Hv Hm _. cbn.
    split_and!; [done|split; [done|by rewrite Hm]|lia].
  - destruct Hp as [Hc Hk]. cbn in Ho. destruct (of_prekeys c) eqn:Hpk.
    + assert (draws c = false) as Hd by by destruct c.
      pose proof (step_tape c w) as [Ht Hpos]. unfold next_pos in Hpos. rewrite Hd in Hpos.
      destruct (beside_alone C (elsewhere r d) (fun R c => of_peer r d R c /\ not_load R c) (spares r d) (covers r d)
        (step_covers r d) (spares_covers r d) elsewhere_spares _ _ _ _ _ _ H) as (Hps' & l & n & Hl & Hrun).
      { apply confined_and; [apply Hk|apply Ho]. } { done. }
      split; [done|]. exists (w_prekeys w), l, (S n). rewrite Hpos in Hl. split_and!; [done| |done|].
      { etrans; [by eapply beside_prekeys|apply step_prekeys_le]. }
      intros w0 Hv Hm Hg. pose proof (step_tape c w0) as [Ht0 Hpos0]. unfold next_pos in Hpos0. rewrite Hd in Hpos0. cbn [run_crash].
      destruct (step_prekey r d R c w w0 Hpk Hv Hm) as [E1 E2].
      rewrite E1 in *. destruct (step_call c w0) as [x0 w0']. cbn [fst snd] in *.
      destruct (Hrun w0' E2) as (F1 & F2 & F3).
      { intros a y Ha. rewrite Ht, Ht0, Hpos0. by apply Hg. }
      split_and!; [done|done|]. by rewrite F3, Hpos0.
    + destruct (IH (Hk _) (Ho _) Hps) as (Hps' & m & l & n & Hm1 & Hm2 & Hl & Hrun). split; [done|].
      pose proof (step_tape c w) as [Ht Hpos]. pose proof (beside_tape _ _ _ _ _ _ _ _ H) as [_ Hle].
      exists m, (if draws c then w_pos w :: l else l), (S n). unfold next_pos in Hpos. split_and!; [|done| |].
      { etrans; [exact Hm1|]. by destruct c. }
      { rewrite Hpos in Hl, Hle. destruct (draws c); [by apply picks_cons|done]. }
      intros w0 Hv Hm Hg. pose proof (step_tape c w0) as [Ht0 Hpos0]. unfold next_pos in Hpos0. cbn [run_crash].
      destruct (step_sees r d _ c w w0 Hc Hpk Hv) as (E1 & E2 & E3 & E4).
      { intros Hd. rewrite Hd in Hg. specialize (Hg 0 (w_pos w) eq_refl). rewrite Nat.add_0_r in Hg. done. }
      rewrite E1 in *. destruct (step_call c w0) as [x0 w0']. cbn [fst snd] in *.
      destruct (Hrun w0' E2) as (F1 & F2 & F3).
      { congruence. }
      { intros a y Ha. rewrite Ht, Ht0, Hpos0. destruct (draws c).
        - rewrite <- (Hg (S a) y Ha). f_equal. lia.
        - by apply Hg. }
      split_and!; [done|done|]. rewrite F3, Hpos0. destruct (draws c); cbn [length]; lia.
  - apply IH; [done|done|]. constructor; [by apply elsewhere_spares|done].
  - apply (others_other _ _ _ _ _ (step_call c w).1) in Hps as [Hc Hps]. destruct (IH Hp Ho Hps) as (Hps' & m & l & n & Hm1 & Hm2 & Hl & Hrun). split; [done|].
    pose proof (step_tape c w) as [Ht Hpos]. exists m, l, n. split_and!; [|done| |].
    { etrans; [exact Hm1|]. destruct c; cbn; try done. apply delete_subseteq. }
    { eapply picks_le; [|done|exact Hl]. rewrite Hpos. apply next_pos_le. }
    intros w0 Hv Hm Hg. apply Hrun; [by apply spares_sees|done|]. by rewrite Ht.
  - apply IH; [done|done|]. by eapply others_dropped.
Qed.
End elsewhere.

(** ** Calls in flight *)

Lemma remains_confined C (P : forall R, call R -> Prop) c q : confined P (api C c) -> remains C c q -> confined P q.
Proof. intros Hc. induction 1 as [|R x k y _ [_ IH]]; [done|apply IH]. Qed.
Lemma in_flight_confined C (others : apiCall -> Prop) (P : forall R, call R -> Prop) ps :
  (forall c, others c -> confined P (api C c)) -> in_flight C others ps -> Forall (confined P) ps.
Proof. intros Ho Hps. apply Forall_forall. intros q Hq. destruct (Hps q Hq) as (c & Hc & Hr). eapply remains_confined; [by apply Ho|done]. Qed.

Lemma peer_beside C r d A (p : prog A) ps w o ps' w' :
  peerCall C r d A p -> in_flight C (elsewhere r d) ps -> beside C (elsewhere r d) p ps w o ps' w' ->
  exists t m w1, m ⊆ w_prekeys w /\ leaves p (alone t m w) o w1 /\
    w_sessions w' !! (r, d) = w_sessions w1 !! (r, d) /\ w_trusted w' !! r = w_trusted w1 !! r /\ w_prekeys w' ⊆ w_prekeys w1 /\
    outcomes_of t (w_tape w) (w_pos w) (w_pos w1 - w_pos w) (w_pos w').
Proof.
  intros Hp Hps H.
  destruct (peer_beside_once C r d p ps w o ps' w' H) as (_ & m & l & n & Hm1 & Hm2 & Hl & Hrun).
  { by apply (peer_confined C). } { by apply (once_peer C r d). } { eapply in_flight_confined; [apply elsewhere_spares|done]. }
  destruct (picks_outcomes l (w_tape w) _ _ Hl) as (t & _ & Ht & Hg).
  destruct (Hrun (alone t m w)) as (F1 & ((F2 & F3 & _) & F4) & F5); [done|done|exact Hg|].
  exists t, m, (run_crash n p (alone t m w)).2. split_and!; [done| |done|done|done|].
  - rewrite <- F1. apply run_crash_leaves.
  - rewrite F5. replace (w_pos (alone t m w) + length l - w_pos w) with (length l); [done|cbn; lia].
Qed.

(** ** Sender keys *)

Definition spares_group (n : senderKeyName) (R : Type) (c : call R) : Prop :=
  match c with CStoreSenderKey n' _ => n' <> n | _ => True end.
Lemma elsewhere_spares_group C n c : elsewhere_group n c -> confined (spares_group n) (api C c).
Proof.
  intros Hc. apply api_confined. destruct c; cbn in Hc; intros R [] Hx; cbn in *; try done; congruence.
Qed.
Lemma group_beside C n A (p : prog A) ps w o ps' w' :
  groupCall C n A p -> in_flight C (elsewhere_group n) ps -> beside C (elsewhere_group n) p ps w o ps' w' ->
  exists t w1, leaves p (alone t (w_prekeys w) w) o w1 /\ w_senderkeys w' !! n = w_senderkeys w1 !! n /\
    outcomes_of t (w_tape w) (w_pos w) (w_pos w1 - w_pos w) (w_pos w').
Proof.
  intros Hp Hps H.
  edestruct (beside_alone C (elsewhere_group n) (of_group n) (spares_group n) (fun w w0 => w_senderkeys w !! n = w_senderkeys w0 !! n))
    as (_ & l & k & Hl & Hrun); [| |apply elsewhere_spares_group|exact H|..].
  { intros R c v v0 Hc Hv Ht. destruct c; cbn in *; try done; subst; rewrite ?lookup_insert; split; try done; by rewrite ?Hv, ?Ht. }
  { intros R c v v0 Hc Hv. destruct c; cbn in *; try done. by rewrite lookup_insert_ne. }
  { by apply (group_confined C). } { eapply in_flight_confined; [apply elsewhere_spares_group|done]. }
  destruct (picks_outcomes l (w_tape w) _ _ Hl) as (t & _ & Ht & Hg).
  destruct (Hrun (alone t (w_prekeys w) w)) as (F1 & F2 & F5); [done|exact Hg|].
  exists t, (run_crash k p (alone t (w_prekeys w) w)).2. split_and!; [|done|].
  - rewrite <- F1. apply run_crash_leaves.
  - rewrite F5. replace (w_pos (alone t (w_prekeys w) w) + length l - w_pos w) with (length l); [done|cbn; lia].
Qed.

(** ** Two calls under a schedule *)

Section pair.
Context (C : crypto) (others : apiCall -> Prop).
Lemma rest_beside {A} (p : prog A) (q : prog unit) w o w' :
  beside C others p [] (run q w).2 o [] w' -> beside C others p [q] w o [] w'.
Proof using.
  revert w. induction q as [a|e|R c k IH]; intros w H; cbn [run] in H.
  - exact (beside_dropped C others p [] _ [] w o [] w' H).
  - exact (beside_dropped C others p [] _ [] w o [] w' H).
  - apply (beside_other C others p [] R c k [] w o [] w'). destruct (step_call c w) as [x w1]. by apply IH.
Qed.
Lemma run_beside {A} (p : prog A) (q : prog unit) w :
  beside C others p [q] w (Some (run p w).1) [] (run q (run p w).2).2.
Proof using.
  revert w. induction p as [a|e|R c k IH]; intros w; cbn [run].
  - apply rest_beside. constructor.
  - apply rest_beside. constructor.
  - apply beside_access. destruct (step_call c w) as [x w1]. cbn [fst snd]. apply IH.
Qed.
Lemma pair_beside {A} sched (p : prog A) (q : prog unit) w :
  beside C others p [q] w (Some (run_pair sched p q w).1.1) [] (run_pair sched p q w).2.
Proof using.
  revert p q w. induction sched as [|[] s IH]; intros p q w; cbn [run_pair].
  - pose proof (run_beside p q w) as H. destruct (run p w) as [a w1]. cbn [fst snd] in H. by destruct (run q w1).
  - destruct p as [a|e|R c k]; [apply IH..|]. apply beside_access. destruct (step_call c w). apply IH.
  - destruct q as [a|e|R c k]; [apply IH..|]. apply (beside_other C others p [] R c k [] w). destruct (step_call c w). apply IH.
Qed.
End pair.
