(** Handshake parameters: C99. *)
From Verif Require Import PyBase Protos Crypto Ecc Kdf Messages State Prog Ratchet Builder Params SpecParams.

(** ** The builders *)
Lemma chosen_snoc {X V} (pick : X -> option (option V)) l x :
  chosen pick (l ++ [x]) = match pick x with Some o => o | None => chosen pick l end.
Proof.
  unfold chosen. rewrite omap_app. cbn [omap list_omap].
  destruct (pick x); [by rewrite last_snoc|]. by rewrite app_nil_r.
Qed.
Lemma alice_built l : foldl alice_set alice_newBuilder l =
  AliceBuilder (chosen a_ourIdentity l) (chosen a_ourBase l) (chosen a_theirIdentity l) (chosen a_theirSigned l)
    (chosen a_theirRatchet l) (chosen a_theirOneTime l).
Proof. induction l as [|x l IH] using rev_ind; [done|]. rewrite foldl_app, IH, !chosen_snoc. by destruct x. Qed.
Lemma bob_built l : foldl bob_set bob_newBuilder l =
  BobBuilder (chosen b_ourIdentity l) (chosen b_ourSigned l) (chosen b_ourOneTime l) (chosen b_ourRatchet l)
    (chosen b_theirIdentity l) (chosen b_theirBase l).
Proof. induction l as [|x l IH] using rev_ind; [done|]. rewrite foldl_app, IH, !chosen_snoc. by destruct x. Qed.
Lemma sym_built l : foldl sym_set sym_newBuilder l =
  SymBuilder (chosen s_ourIdentity l) (chosen s_ourBase l) (chosen s_ourRatchet l) (chosen s_theirRatchet l)
    (chosen s_theirIdentity l) (chosen s_theirBase l).
Proof. induction l as [|x l IH] using rev_ind; [done|]. rewrite foldl_app, IH, !chosen_snoc. by destruct x. Qed.

Lemma alice_parameters l :
  (forall p, alice_create (foldl alice_set alice_newBuilder l) = Ok p <->
    chosen a_ourIdentity l = Some (ap_ourIdentity p) /\ chosen a_ourBase l = Some (ap_ourBase p) /\
    chosen a_theirIdentity l = Some (ap_theirIdentity p) /\ chosen a_theirSigned l = Some (ap_theirSigned p) /\
    chosen a_theirRatchet l = Some (ap_theirRatchet p) /\ chosen a_theirOneTime l = ap_theirOneTime p) /\
  (forall e, alice_create (foldl alice_set alice_newBuilder l) = Err e <->
    e = EValueError /\ (chosen a_ourIdentity l = None \/ chosen a_ourBase l = None \/ chosen a_theirIdentity l = None \/
      chosen a_theirSigned l = None \/ chosen a_theirRatchet l = None)).
Proof.
  rewrite alice_built. unfold alice_create. cbn [ab_ourIdentity ab_ourBase ab_theirIdentity ab_theirSigned ab_theirRatchet ab_theirOneTime].
  generalize (chosen a_ourIdentity l), (chosen a_ourBase l), (chosen a_theirIdentity l), (chosen a_theirSigned l),
    (chosen a_theirRatchet l), (chosen a_theirOneTime l). clear l. intros oi ob ti ts tr t1. split.
  - intros [oi' ob' ti' ts' tr' t1']. destruct oi, ob, ti, ts, tr; cbn; (split; [by intros [=]; subst|]);
      intros (? & ? & ? & ? & ? & ?); congruence.
  - intros e. destruct oi, ob, ti, ts, tr; (split; [|by intros [-> H]; naive_solver]); intros [=]; subst; tauto.
Qed.
Lemma bob_parameters l :
  (forall p, bob_create (foldl bob_set bob_newBuilder l) = Ok p <->
    chosen b_ourIdentity l = Some (bp_ourIdentity p) /\ chosen b_ourSigned l = Some (bp_ourSigned p) /\
    chosen b_ourRatchet l = Some (bp_ourRatchet p) /\ chosen b_theirIdentity l = Some (bp_theirIdentity p) /\
    chosen b_theirBase l = Some (bp_theirBase p) /\ chosen b_ourOneTime l = bp_ourOneTime p) /\
  (forall e, bob_create (foldl bob_set bob_newBuilder l) = Err e <->
    e = EValueError /\ (chosen b_ourIdentity l = None \/ chosen b_ourSigned l = None \/ chosen b_ourRatchet l = None \/
      chosen b_theirIdentity l = None \/ chosen b_theirBase l = None)).
Proof.
  rewrite bob_built. unfold bob_create. cbn [bb_ourIdentity bb_ourSigned bb_ourOneTime bb_ourRatchet bb_theirIdentity bb_theirBase].
  generalize (chosen b_ourIdentity l), (chosen b_ourSigned l), (chosen b_ourRatchet l), (chosen b_theirIdentity l),
    (chosen b_theirBase l), (chosen b_ourOneTime l). clear l. intros oi os or_ ti tb o1. split.
  - intros [oi' os' or' o1' ti' tb']. destruct oi, os, or_, ti, tb; cbn; (split; [by intros [=]; subst|]);
      intros (? & ? & ? & ? & ? & ?); congruence.
  - intros e. destruct oi, os, or_, ti, tb; (split; [|by intros [-> H]; naive_solver]); intros [=]; subst; tauto.
Qed.
Lemma sym_parameters l :
  (forall p, sym_create (foldl sym_set sym_newBuilder l) = Ok p <->
    chosen s_ourIdentity l = Some (sp_ourIdentity p) /\ chosen s_ourBase l = Some (sp_ourBase p) /\
    chosen s_ourRatchet l = Some (sp_ourRatchet p) /\ chosen s_theirIdentity l = Some (sp_theirIdentity p) /\
    chosen s_theirBase l = Some (sp_theirBase p) /\ chosen s_theirRatchet l = Some (sp_theirRatchet p)) /\
  (forall e, sym_create (foldl sym_set sym_newBuilder l) = Err e <->
    e = EValueError /\ (chosen s_ourIdentity l = None \/ chosen s_ourBase l = None \/ chosen s_ourRatchet l = None \/
      chosen s_theirIdentity l = None \/ chosen s_theirBase l = None \/ chosen s_theirRatchet l = None)).
Proof.
  rewrite sym_built. unfold sym_create. cbn [sb_ourIdentity sb_ourBase sb_ourRatchet sb_theirRatchet sb_theirIdentity sb_theirBase].
  generalize (chosen s_ourIdentity l), (chosen s_ourBase l), (chosen s_ourRatchet l), (chosen s_theirIdentity l),
    (chosen s_theirBase l), (chosen s_theirRatchet l). clear l. intros oi ob or_ ti tb tr. split.
  - intros [ob' or' oi' tb' tr' ti']. destruct oi, ob, or_, ti, tb, tr; cbn; (split; [by intros [=]; subst|]);
      intros (? & ? & ? & ? & ? & ?); congruence.
  - intros e. destruct oi, ob, or_, ti, tb, tr; (split; [|by intros [-> H]; naive_solver]); intros [=]; subst; tauto.
Qed.

(** ** Programs with the same accesses *)
Inductive matched {A B} (Q : A -> B -> Prop) : prog A -> prog B -> Prop :=
| matched_ret a b : Q a b -> matched Q (Ret a) (Ret b)
| matched_raise e : matched Q (Raise e) (Raise e)
| matched_call R (c : call R) k k' : (forall x, matched Q (k x) (k' x)) -> matched Q (Call c k) (Call c k').

Lemma matched_same {A} (p q : prog A) : matched eq p q -> same p q.
Proof. induction 1 as [a b ->|e|R c k k' _ IH]; by constructor. Qed.
Lemma matched_refl {A} (p : prog A) : matched eq p p.
Proof. induction p; by constructor. Qed.
Lemma matched_bind {A B A' B'} (Q : A -> A' -> Prop) (Q' : B -> B' -> Prop) (p : prog A) (q : prog A') f g :
  matched Q p q -> (forall a b, Q a b -> matched Q' (f a) (g b)) -> matched Q' (p ≫= f) (q ≫= g).
Proof. intros H Hf. induction H as [a b Hab|e|R c k k' _ IH]; [by apply Hf|constructor|by constructor]. Qed.
Lemma matched_next {A B} (p : prog A) (f g : A -> prog B) :
  (forall a, matched eq (f a) (g a)) -> matched eq (p ≫= f) (p ≫= g).
Proof. intros H. eapply matched_bind; [apply matched_refl|]. by intros a ? <-. Qed.
Lemma matched_lift {A B} (Q : A -> B -> Prop) (x : res A) (y : res B) :
  match x, y with Ok a, Ok b => Q a b | Err e, Err e' => e = e' | _, _ => False end -> matched Q (lift x) (lift y).
Proof. destruct x, y; [|done|done|]; [by constructor|]. intros ->. constructor. Qed.
Lemma matched_ok {A B B'} (Q : B -> B' -> Prop) (a : A) (f : A -> prog B) q : matched Q (f a) q -> matched Q (lift (Ok a) ≫= f) q.
Proof. done. Qed.

Lemma same_runs {A} (p q : prog A) : same p q -> forall w, run p w = run q w /\ forall n, run_crash n p w = run_crash n q w.
Proof.
  induction 1 as [a|e|R c k k' _ IH]; intros w; [done..|]. cbn [run]. split.
  - destruct (step_call c w) as [x w']. apply IH.
  - intros [|n]; [done|]. cbn [run_crash]. destruct (step_call c w) as [x w']. apply IH.
Qed.
Lemma same_pairs {A B} s : forall (p p' : prog A) (q q' : prog B) w,
  same p p' -> same q q' -> run_pair s p q w = run_pair s p' q' w.
Proof.
  induction s as [|[] s IH]; intros p p' q q' w Hp Hq; cbn [run_pair].
  - rewrite (proj1 (same_runs _ _ Hp w)). destruct (run p' w) as [a w1]. by rewrite (proj1 (same_runs _ _ Hq w1)).
  - destruct Hp as [a|e|R c k k' Hk]; [apply IH; [constructor|done]..|]. destruct (step_call c w). by apply IH.
  - destruct Hq as [a|e|R c k k' Hk]; [apply IH; [done|constructor]..|]. destruct (step_call c w). by apply IH.
Qed.

(** ** The calls *)
Section calls.
Context (C : crypto) (r d : Z).

Lemma matched_initialize s p :
  matched eq (initializeSession_params C s p)
    (initializeSession C s (sp_ourIdentity p) (sp_ourBase p) (sp_ourRatchet p) (sp_theirBase p) (sp_theirRatchet p) (sp_theirIdentity p)).
Proof. unfold initializeSession_params, initializeSession. apply matched_next. intros []; apply matched_refl. Qed.

Lemma matched_V3 rec m : matched eq (processV3_params C rec m) (processV3 C rec m).
Proof.
  unfold processV3_params, processV3. destruct (sr_hasSessionState _ _ _); [apply matched_refl|].
  apply matched_next. intros spr. apply matched_next. intros spk. apply matched_next. intros id.
  apply (matched_bind (fun b o => b = bob_set (BobBuilder (Some id) (Some spk) None (Some spk) (Some (pIdentityKey m)) (Some (pBaseKey m))) (BOurOneTime o))).
  - destruct (pPreKeyId m); [|by constructor].
    apply (matched_bind eq); [apply matched_refl|]. intros pr ? <-. apply (matched_bind eq); [apply matched_refl|]. intros kp ? <-. by constructor.
  - intros b o ->. apply matched_refl.
Qed.
Lemma matched_bundle b : matched eq (processPreKeyBundle_params C r d b) (processPreKeyBundle C r d b).
Proof.
  unfold processPreKeyBundle_params, processPreKeyBundle. apply matched_next. intros []; [|apply matched_refl].
  destruct (bu_signedPreKey b); [|apply matched_refl]. apply matched_next. intros []; [|apply matched_refl].
  do 3 (apply matched_next; intros ?). apply matched_refl.
Qed.
Lemma matched_initiate m : matched eq (processInitiate_params C r d m) (processInitiate C r d m).
Proof.
  unfold processInitiate_params, processInitiate. apply matched_next. intros rec. apply matched_next. intros []; [|apply matched_refl].
  apply (matched_bind (fun x y => let '(i, k, t, f) := y in x = (SymBuilder (Some i) (Some k) (Some t) None None None, f))).
  - destruct (st_hasPendingKeyExchange (sr_state rec)); cbn [negb].
    + apply matched_lift. destruct (st_getPendingKeyExchangeIdentityKey _); [|done].
      destruct (st_getPendingKeyExchangeBaseKey _); [|done]. by destruct (st_getPendingKeyExchangeRatchetKey _).
    + do 3 (apply (matched_bind eq); [apply matched_refl|]; intros ? ? <-). by constructor.
  - intros x [[[i k] t] f] ->. cbn [fst snd].
    apply (matched_ok _ (SymParams k t i (xBaseKey m) (xRatchetKey m) (xIdentityKey m))).
    eapply (matched_bind eq); [apply (matched_initialize _ (SymParams k t i (xBaseKey m) (xRatchetKey m) (xIdentityKey m)))|].
    intros s ? <-. apply matched_refl.
Qed.
Lemma matched_response m : matched eq (processResponse_params C r d m) (processResponse C r d m).
Proof.
  unfold processResponse_params, processResponse. apply matched_next. intros rec. cbv zeta. destruct (_ || _); [apply matched_refl|].
  apply matched_next. intros k. apply matched_next. intros t. apply matched_next. intros i.
  apply (matched_ok _ (SymParams k t i (xBaseKey m) (xRatchetKey m) (xIdentityKey m))).
  eapply (matched_bind eq); [apply (matched_initialize _ (SymParams k t i (xBaseKey m) (xRatchetKey m) (xIdentityKey m)))|].
  intros s ? <-. apply matched_refl.
Qed.

Lemma through_parameters :
  (forall s p, same (initializeSession_params C s p)
    (initializeSession C s (sp_ourIdentity p) (sp_ourBase p) (sp_ourRatchet p) (sp_theirBase p) (sp_theirRatchet p) (sp_theirIdentity p))) /\
  (forall rec m, same (processV3_params C rec m) (processV3 C rec m)) /\
  (forall b, same (processPreKeyBundle_params C r d b) (processPreKeyBundle C r d b)) /\
  (forall m, same (processInitiate_params C r d m) (processInitiate C r d m)) /\
  (forall m, same (processResponse_params C r d m) (processResponse C r d m)).
Proof.
  split_and!; intros; apply matched_same; [apply matched_initialize|apply matched_V3|apply matched_bundle|apply matched_initiate|apply matched_response].
Qed.
End calls.
Lemma same_everywhere A B (p p' : prog A) (q q' : prog B) :
  same p p' -> same q q' ->
  (forall w, run p w = run p' w) /\ (forall n w, run_crash n p w = run_crash n p' w) /\
  (forall s w, run_pair s p q w = run_pair s p' q' w).
Proof.
  intros Hp Hq. split_and!; [intros w; apply (same_runs _ _ Hp)|intros n w; apply (same_runs _ _ Hp)|]. intros s w. by apply same_pairs.
Qed.
