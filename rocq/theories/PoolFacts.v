(** Histories of finished and killed calls are histories of concurrent calls. *)
From Verif Require Import PyBase Protos Crypto Prog SpecApi.

Section pool.
Context (C : crypto) (w0 : world).

Lemma reaches_run (p : prog unit) w ps : reaches C w0 w (p :: ps) -> reaches C w0 (run p w).2 ps.
Proof.
  revert w. induction p as [a|e|R c k IH]; intros w H; cbn [run].
  - exact (reaches_dropped C w0 w [] _ ps H).
  - exact (reaches_dropped C w0 w [] _ ps H).
  - apply (reaches_access C w0 w [] R c k ps) in H. destruct (step_call c w) as [x w']. by apply IH.
Qed.
Lemma reaches_crash n (p : prog unit) w ps : reaches C w0 w (p :: ps) -> reaches C w0 (run_crash n p w).2 ps.
Proof.
  revert n w. induction p as [a|e|R c k IH]; intros n w H.
  - destruct n; exact (reaches_dropped C w0 w [] _ ps H).
  - destruct n; exact (reaches_dropped C w0 w [] _ ps H).
  - destruct n as [|n]; [exact (reaches_dropped C w0 w [] _ ps H)|]. cbn [run_crash].
    apply (reaches_access C w0 w [] R c k ps) in H. destruct (step_call c w) as [x w']. by apply IH.
Qed.

Lemma reaches_step w ps w' : reaches C w0 w ps -> step C w w' -> reaches C w0 w' ps.
Proof.
  intros H [c|c n|m|m|m].
  - by apply reaches_run, reaches_begin.
  - by apply reaches_crash, reaches_begin.
  - by constructor.
  - by constructor.
  - by constructor.
Qed.
End pool.

Lemma reachable_start C w : w_sessions w = ∅ -> reachable C w.
Proof. intros H. exists w, []. split; [done|constructor]. Qed.
Lemma reachable_step C w w' : reachable C w -> step C w w' -> reachable C w'.
Proof. intros (w0 & ps & H0 & H) Hs. exists w0, ps. split; [done|]. by eapply reaches_step. Qed.

(** What comes later on the tape plays no part in how a world was reached. *)
Definition w_set_tape (t : nat -> bytes) (w : world) : world :=
  World (w_sessions w) (w_prekeys w) (w_signed w) (w_trusted w) (w_identity w) (w_regid w) (w_senderkeys w) t (w_pos w).
Lemma step_set_tape {R} (c : call R) t w : (forall i, i < w_pos (step_call c w).2 -> t i = w_tape w i) ->
  (step_call c (w_set_tape t w)).1 = (step_call c w).1 /\ (step_call c (w_set_tape t w)).2 = w_set_tape t (step_call c w).2 /\
  w_tape (step_call c w).2 = w_tape w /\ w_pos w <= w_pos (step_call c w).2.
Proof. intros H. destruct c; cbn in *; try done; rewrite (H (w_pos w)) by lia; split_and!; try done; lia. Qed.
Lemma reaches_tape C w0 w ps : reaches C w0 w ps -> w_tape w = w_tape w0 /\ forall t,
  (forall i, i < w_pos w -> t i = w_tape w i) -> reaches C (w_set_tape t w0) (w_set_tape t w) ps.
Proof.
  induction 1 as [|w ps c _ [IH1 IH2]|w l1 R c k l2 _ [IH1 IH2]|w l1 p l2 _ [IH1 IH2]|w ps m _ [IH1 IH2]|w ps m _ [IH1 IH2]|w ps m _ [IH1 IH2]].
  - split; [done|]. intros t _. constructor.
  - split; [done|]. intros t Ht. apply reaches_begin, IH2, Ht.
  - destruct (step_set_tape c (w_tape w) w ltac:(done)) as (_ & _ & E & Hle). split; [congruence|]. intros t Ht. rewrite E in Ht.
    destruct (step_set_tape c t w Ht) as (E1 & E2 & _). rewrite <- E1, <- E2. apply reaches_access, IH2.
    intros i Hi. apply Ht. lia.
  - split; [done|]. intros t Ht. by eapply reaches_dropped, IH2.
  - split; [done|]. intros t Ht. exact (reaches_prekeys _ _ _ _ m (IH2 t Ht)).
  - split; [done|]. intros t Ht. exact (reaches_signed _ _ _ _ m (IH2 t Ht)).
  - split; [done|]. intros t Ht. exact (reaches_trusted _ _ _ _ m (IH2 t Ht)).
Qed.
