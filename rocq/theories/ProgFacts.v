(** Facts about programs and their executions. *)
From Verif Require Import PyBase Protos ProtoFacts Crypto Ecc State Prog.

(** ** Equations of [run] *)

Lemma run_ret {A} (a : A) w : run (Ret a) w = (Ok a, w).
Proof. done. Qed.
Lemma run_mret {A} (a : A) w : run (mret a) w = (Ok a, w).
Proof. done. Qed.
Lemma run_raise {A} e w : run (@Raise A e) w = (Err e, w).
Proof. done. Qed.

Lemma run_bind {A B} (p : prog A) (f : A -> prog B) w :
  run (p ≫= f) w = match run p w with (Ok a, w') => run (f a) w' | (Err e, w') => (Err e, w') end.
Proof.
  revert w. induction p as [a|e|R c k IH]; intros w; [done..|].
  change (run (Call c k ≫= f) w) with (let '(r, w') := step_call c w in run (k r ≫= f) w').
  cbn [run]. destruct (step_call c w) as [r w']. apply IH.
Qed.

Lemma run_lift {A} (r : res A) w : run (lift r) w = (r, w).
Proof. by destruct r. Qed.

Lemma run_do {R} (c : call R) w : run (do c) w = step_call c w.
Proof. unfold do. cbn [run]. destruct (step_call c w) as [r w']. apply run_lift. Qed.

Lemma run_catch {A} (p : prog A) h w :
  run (catch p h) w = match run p w with (Ok a, w') => (Ok a, w') | (Err e, w') => run (h e) w' end.
Proof.
  revert w. induction p as [a|e|R c k IH]; intros w; [done..|].
  cbn [catch run]. destruct (step_call c w) as [r w']. apply IH.
Qed.

Lemma run_rethrow {A} sel e' (p : prog A) w :
  run (rethrow sel e' p) w =
  match run p w with
  | (Ok a, w') => (Ok a, w')
  | (Err e, w') => (Err (if sel e then e' else e), w')
  end.
Proof. unfold rethrow. rewrite run_catch. destruct (run p w) as [[a|e] w']; [done|]. by destruct (sel e). Qed.

Lemma run_bind_ok {A B} (p : prog A) (f : A -> prog B) w b w' :
  run (p ≫= f) w = (Ok b, w') -> exists a w1, run p w = (Ok a, w1) /\ run (f a) w1 = (Ok b, w').
Proof. rewrite run_bind. destruct (run p w) as [[a|e] w1]; [eauto|done]. Qed.

Lemma run_bind_err {A B} (p : prog A) (f : A -> prog B) w e w' :
  run (p ≫= f) w = (Err e, w') ->
  run p w = (Err e, w') \/ exists a w1, run p w = (Ok a, w1) /\ run (f a) w1 = (Err e, w').
Proof.
  rewrite run_bind. destruct (run p w) as [[a|e'] w1]; [eauto|].
  intros H. left. by injection H as -> ->.
Qed.

(** ** Read-only programs *)

(** Does the outside call write to a durable store? *)
Definition is_write {R} (c : call R) : bool :=
  match c with
  | CStoreSession _ _ _ | CSaveIdentity _ _ | CRemovePreKey _ | CStoreSenderKey _ _ => true
  | _ => false
  end.

(** All durable stores are equal; only the position in the stream of random outcomes may
    differ. *)
Definition same_stores (w w' : world) : Prop :=
  w_sessions w' = w_sessions w /\ w_prekeys w' = w_prekeys w /\ w_signed w' = w_signed w /\
  w_trusted w' = w_trusted w /\ w_identity w' = w_identity w /\ w_regid w' = w_regid w /\
  w_senderkeys w' = w_senderkeys w /\ w_tape w' = w_tape w.

Lemma same_stores_refl w : same_stores w w.
Proof. done. Qed.
Lemma same_stores_trans w1 w2 w3 : same_stores w1 w2 -> same_stores w2 w3 -> same_stores w1 w3.
Proof. unfold same_stores. intuition congruence. Qed.
Lemma same_stores_pos w n : same_stores w (w_set_pos n w).
Proof. done. Qed.
Lemma same_stores_eq w w' : same_stores w w' -> w' = w_set_pos (w_pos w') w.
Proof. destruct w, w'. unfold same_stores, w_set_pos. simpl. intros. destruct_and!. by subst. Qed.

(** The program performs no writing call, whatever the outside answers. *)
Fixpoint readonly {A} (p : prog A) : Prop :=
  match p with
  | Ret _ | Raise _ => True
  | Call c k => is_write c = false /\ forall r, readonly (k r)
  end.

Lemma step_readonly {R} (c : call R) w : is_write c = false -> same_stores w (step_call c w).2.
Proof. destruct c; try done. Qed.

Lemma run_readonly {A} (p : prog A) w : readonly p -> same_stores w (run p w).2.
Proof.
  revert w. induction p as [a|e|R c k IH]; intros w; [done..|]. intros [Hc Hk].
  cbn [run]. pose proof (step_readonly c w Hc) as H. destruct (step_call c w) as [r w'].
  eapply same_stores_trans; [exact H|]. by apply IH.
Qed.

Lemma run_readonly_eq {A} (p : prog A) w r w' : readonly p -> run p w = (r, w') -> same_stores w w'.
Proof. intros H Hr. pose proof (run_readonly p w H) as Hs. by rewrite Hr in Hs. Qed.

Lemma readonly_lift {A} (r : res A) : readonly (lift r).
Proof. by destruct r. Qed.
Lemma readonly_bind {A B} (p : prog A) (f : A -> prog B) :
  readonly p -> (forall a, readonly (f a)) -> readonly (p ≫= f).
Proof.
  intros Hp Hf. induction p as [a|e|R c k IH]; [apply Hf|done|].
  destruct Hp as [Hc Hk]. split; [done|]. intros r. by apply IH.
Qed.
Lemma readonly_do {R} (c : call R) : is_write c = false -> readonly (do c).
Proof. intros H. split; [done|]. intros r. apply readonly_lift. Qed.
Lemma readonly_catch {A} (p : prog A) h : readonly p -> (forall e, readonly (h e)) -> readonly (catch p h).
Proof.
  intros Hp Hh. induction p as [a|e|R c k IH]; [done|apply Hh|].
  destruct Hp as [Hc Hk]. split; [done|]. intros r. by apply IH.
Qed.
Lemma readonly_rethrow {A} sel e' (p : prog A) : readonly p -> readonly (rethrow sel e' p).
Proof. intros H. apply readonly_catch; [done|]. intros e. by destruct (sel e). Qed.
Lemma readonly_if {A} (b : bool) (p q : prog A) : readonly p -> readonly q -> readonly (if b then p else q).
Proof. by destruct b. Qed.
Lemma readonly_generateKeyPair C : readonly (generateKeyPair C).
Proof. apply readonly_bind; [by apply readonly_do|]. intros. apply readonly_lift. Qed.
Lemma readonly_calculateSignature C k m : readonly (calculateSignature C k m).
Proof. apply readonly_bind; [by apply readonly_do|]. intros. apply readonly_lift. Qed.

(** ** Crashes *)

(** A crash-free outcome is the outcome of the complete run. *)
Lemma run_crash_some {A} n (p : prog A) w r w' : run_crash n p w = (Some r, w') -> run p w = (r, w').
Proof.
  revert n w. induction p as [a|e|R c k IH]; intros n w; cbn [run_crash run].
  - by intros [= <- <-].
  - by intros [= <- <-].
  - destruct n as [|n]; [done|]. destruct (step_call c w) as [x w1]. apply IH.
Qed.

(** Enough fuel completes. *)
Lemma run_crash_complete {A} (p : prog A) w : exists n, run_crash n p w = (Some (run p w).1, (run p w).2).
Proof.
  revert w. induction p as [a|e|R c k IH]; intros w; [by exists 0..|].
  destruct (step_call c w) as [x w1] eqn:E. destruct (IH x w1) as [n Hn].
  exists (S n). cbn [run_crash run]. rewrite E. exact Hn.
Qed.

Lemma run_crash_readonly {A} n (p : prog A) w : readonly p -> same_stores w (run_crash n p w).2.
Proof.
  revert n w. induction p as [a|e|R c k IH]; intros n w; [done..|]. intros [Hc Hk].
  cbn [run_crash]. destruct n as [|n]; [done|].
  pose proof (step_readonly c w Hc) as H. destruct (step_call c w) as [r w'].
  eapply same_stores_trans; [exact H|]. by apply IH.
Qed.

(** Crash during a sequence: either during the first part, or the first part completed. *)
Lemma run_crash_bind {A B} n (p : prog A) (f : A -> prog B) w :
  (exists w', run_crash n p w = (None, w') /\ run_crash n (p ≫= f) w = (None, w')) \/
  (exists e w', run p w = (Err e, w') /\ run_crash n (p ≫= f) w = (Some (Err e), w')) \/
  (exists a w' n', run p w = (Ok a, w') /\ run_crash n (p ≫= f) w = run_crash n' (f a) w').
Proof.
  revert n w. induction p as [a|e|R c k IH]; intros n w.
  - right. right. by exists a, w, n.
  - right. left. by exists e, w.
  - destruct n as [|n]; [left; by exists w|].
    change (run_crash (S n) (Call c k ≫= f) w) with
      (let '(r, w') := step_call c w in run_crash n (k r ≫= f) w').
    cbn [run_crash run]. destruct (step_call c w) as [r w']. apply IH.
Qed.
