(** Crashes tear no call with one durable effect: C51, C52. *)
From Verif Require Import PyBase Protos Crypto Ecc Messages State Prog Ratchet Builder Cipher Groups.
From Verif Require Import ProgFacts SpecSession CipherFacts SpecCrash.

(** At most one writing call on every path. *)
Fixpoint onewrite {A} (p : prog A) : Prop :=
  match p with
  | Ret _ | Raise _ => True
  | Call c k => if is_write c then forall x, readonly (k x) else forall x, onewrite (k x)
  end.

Lemma same_unchanged w w' : same_stores w w' -> unchanged w w'.
Proof. unfold same_stores, unchanged. tauto. Qed.
Lemma unchanged_trans w1 w2 w3 : unchanged w1 w2 -> unchanged w2 w3 -> unchanged w1 w3.
Proof. unfold unchanged. intuition congruence. Qed.
Lemma unchanged_sym w1 w2 : unchanged w1 w2 -> unchanged w2 w1.
Proof. unfold unchanged. intuition congruence. Qed.

Lemma run_crash_readonly {A} (p : prog A) n w : readonly p -> same_stores w (run_crash n p w).2.
Proof.
  revert n w. induction p as [a|e|R c k IH]; intros n w; [done..|]. intros [Hc Hk]. destruct n as [|n]; [done|].
  cbn [run_crash]. pose proof (step_readonly c w Hc) as H. destruct (step_call c w) as [r w'].
  eapply same_stores_trans; [exact H|]. by apply IH.
Qed.

Lemma onewrite_atomic {A} (p : prog A) : onewrite p -> all_or_nothing p.
Proof.
  induction p as [a|e|R c k IH]; intros Ho n w; [by left..|]. destruct n as [|n]; [by left|].
  cbn [onewrite run_crash run] in *. destruct (is_write c) eqn:Hc.
  - right. destruct (step_call c w) as [x w1]. eapply unchanged_trans; [|apply same_unchanged, run_crash_readonly, Ho].
    apply unchanged_sym, same_unchanged, run_readonly, Ho.
  - pose proof (step_readonly c w Hc) as Hs. destruct (step_call c w) as [x w1]. cbn [snd] in Hs.
    destruct (IH x (Ho x) n w1) as [H|H]; [left|by right]. eapply unchanged_trans; [by apply same_unchanged|done].
Qed.

Lemma readonly_onewrite {A} (p : prog A) : readonly p -> onewrite p.
Proof. induction p as [a|e|R c k IH]; [done..|]. intros [Hc Hk]. cbn. rewrite Hc. intros x. by apply IH. Qed.
Lemma onewrite_bind {A B} (p : prog A) (f : A -> prog B) : readonly p -> (forall a, onewrite (f a)) -> onewrite (p ≫= f).
Proof.
  intros Hp Hf. induction p as [a|e|R c k IH]; [apply Hf|done|]. destruct Hp as [Hc Hk].
  change (onewrite (Call c (fun x => k x ≫= f))). cbn [onewrite]. rewrite Hc. intros x. by apply IH.
Qed.
Lemma onewrite_bind_last {A B} (p : prog A) (f : A -> prog B) : onewrite p -> (forall a, readonly (f a)) -> onewrite (p ≫= f).
Proof.
  intros Hp Hf. induction p as [a|e|R c k IH]; [by apply readonly_onewrite, Hf|done|].
  change (onewrite (Call c (fun x => k x ≫= f))). cbn [onewrite] in *. destruct (is_write c).
  - intros x. by apply readonly_bind.
  - intros x. by apply IH.
Qed.
Lemma onewrite_do {R} (c : call R) : onewrite (do c).
Proof. cbn. destruct (is_write c); intros x; [apply readonly_lift|by destruct x]. Qed.
Lemma onewrite_catch {A} (p : prog A) h : onewrite p -> (forall e, readonly (h e)) -> onewrite (catch p h).
Proof.
  intros Hp Hh. induction p as [a|e|R c k IH]; [done|by apply readonly_onewrite, Hh|].
  cbn [catch onewrite] in *. destruct (is_write c).
  - intros x. by apply readonly_catch.
  - intros x. by apply IH.
Qed.
Lemma onewrite_rethrow {A} sel e' (p : prog A) : onewrite p -> onewrite (rethrow sel e' p).
Proof. intros H. apply onewrite_catch; [done|]. intros e. by destruct (sel e). Qed.
Lemma onewrite_if {A} (b : bool) (p q : prog A) : onewrite p -> onewrite q -> onewrite (if b then p else q).
Proof. by destruct b. Qed.

Ltac ro := repeat first
  [ apply readonly_lift | apply readonly_generateKeyPair | apply readonly_calculateSignature | by apply readonly_do
  | apply readonly_decryptWithSessionRecord | exact I | apply readonly_bind; [|intros ?] ].
Ltac ow := repeat first
  [ exact I | apply onewrite_do | apply onewrite_if | apply onewrite_rethrow
  | apply onewrite_bind; [solve [ro]|intros ?] | apply onewrite_bind_last; [|intros ?; solve [ro]] | apply readonly_onewrite; solve [ro] ].

Section calls.
Context (C : crypto).

Lemma single_onewrite A (p : prog A) : singleCall C A p -> onewrite p.
Proof using.
  intros [r d pt|r d m|r d|n|n m|n pt|n b].
  - unfold encrypt. ow.
  - unfold decryptMsg. ow.
  - unfold processInitKeyExchangeMessage, getRandomSequence. ow.
  - unfold group_create, getRandomSequence. ow. destruct a; ow.
  - unfold group_process. ow.
  - unfold group_encrypt. ow.
  - unfold group_decrypt. ow. destruct a; ow.
Qed.

Lemma single_atomic A (p : prog A) : singleCall C A p -> all_or_nothing p.
Proof using. intros. by eapply onewrite_atomic, single_onewrite. Qed.
End calls.

(** ** C52: the order of the writes *)

Definition wstore {R} (c : call R) : option store :=
  match c with
  | CStoreSession _ _ _ => Some Sessions
  | CSaveIdentity _ _ => Some Trusted
  | CRemovePreKey _ => Some Prekeys
  | CStoreSenderKey _ _ => Some SenderKeys
  | _ => None
  end.

Lemma wstore_write {R} (c : call R) : is_write c = false <-> wstore c = None.
Proof. by destruct c. Qed.

Global Instance store_eqdec : EqDecision store.
Proof. solve_decision. Defined.

(** Every path writes stores in the order of [l], each at most once. *)
Fixpoint seqw {A} (l : list store) (p : prog A) : Prop :=
  match p with
  | Ret _ | Raise _ => True
  | Call c k => match wstore c with
                | None => forall x, seqw l (k x)
                | Some s => exists l1 l2, l = l1 ++ s :: l2 /\ forall x, seqw l2 (k x)
                end
  end.

Lemma step_other {R} (c : call R) w s : wstore c <> Some s -> same_store s w (step_call c w).2.
Proof. by destruct c, s. Qed.
Lemma step_rest {R} (c : call R) w : same_rest w (step_call c w).2.
Proof. by destruct c. Qed.
Lemma same_store_trans s w1 w2 w3 : same_store s w1 w2 -> same_store s w2 w3 -> same_store s w1 w3.
Proof. destruct s; cbn; congruence. Qed.
Lemma same_store_sym s w1 w2 : same_store s w1 w2 -> same_store s w2 w1.
Proof. by destruct s. Qed.
Lemma same_rest_trans w1 w2 w3 : same_rest w1 w2 -> same_rest w2 w3 -> same_rest w1 w3.
Proof. unfold same_rest. intuition congruence. Qed.

Lemma seqw_other {A} (p : prog A) l w s : seqw l p -> s ∉ l -> same_store s w (run p w).2.
Proof.
  revert l w. induction p as [a|e|R c k IH]; intros l w; [by destruct s..|]. cbn [seqw run]. intros H Hs.
  pose proof (step_other c w s) as Ho. destruct (step_call c w) as [x w1]. cbn [snd] in Ho. destruct (wstore c) as [s'|] eqn:Hc.
  - destruct H as (l1 & l2 & -> & Hk). apply not_elem_of_app in Hs as [? [? ?]%not_elem_of_cons].
    eapply same_store_trans; [apply Ho; congruence|]. by eapply IH.
  - eapply same_store_trans; [by apply Ho|]. by eapply IH.
Qed.

Lemma cut_none l w wf wc : (forall s, same_store s w wc) -> same_rest w wc -> cut l w wf wc.
Proof. intros Hs Hr. exists [], l. split; [done|]. split; [by intros ? ?%elem_of_nil|]. split; [|done]. intros s _. apply Hs. Qed.

Lemma seqw_cut {A} (p : prog A) l : seqw l p -> NoDup l -> forall n w, cut l w (run p w).2 (run_crash n p w).2.
Proof.
  revert l. induction p as [a|e|R c k IH]; intros l Hp Hl n w; [apply cut_none; [by intros []|done]..|].
  destruct n as [|n]; [apply cut_none; [by intros []|done]|]. cbn [seqw run_crash run] in *.
  pose proof (step_other c w) as Ho. pose proof (step_rest c w) as Hr.
  destruct (step_call c w) as [x w1]. cbn [snd] in Ho, Hr. destruct (wstore c) as [s|] eqn:Hc.
  - destruct Hp as (l1 & l2 & -> & Hk). apply NoDup_app in Hl as (_ & Hd & [Hs Hl]%NoDup_cons).
    destruct (IH x l2 (Hk x) Hl n w1) as (b & a & -> & Hb & Ha & Hw).
    exists (l1 ++ s :: b), a. split; [by rewrite <- app_assoc|]. split; [|split].
    + intros t [Ht|[->|Ht]%elem_of_cons]%elem_of_app.
      * assert (t ∉ b ++ a) as Hn by (intros ?; by apply (Hd t Ht), elem_of_cons; right).
        eapply same_store_trans; [apply same_store_sym; by eapply seqw_other|]. apply Ha. set_solver.
      * eapply same_store_trans; [apply same_store_sym; by eapply seqw_other|]. apply Ha. set_solver.
      * by apply Hb.
    + intros t [Ht [Hts Htb]%not_elem_of_cons]%not_elem_of_app. eapply same_store_trans; [apply Ho; congruence|]. by apply Ha.
    + by eapply same_rest_trans.
  - destruct (IH x l (Hp x) Hl n w1) as (b & a & -> & Hb & Ha & Hw). exists b, a. split; [done|]. split; [done|]. split.
    + intros t Ht. eapply same_store_trans; [by apply Ho|]. by apply Ha.
    + by eapply same_rest_trans.
Qed.

Lemma readonly_seqw {A} l (p : prog A) : readonly p -> seqw l p.
Proof. induction p as [a|e|R c k IH]; [done..|]. intros [Hc Hk]. cbn. apply wstore_write in Hc. rewrite Hc. intros x. by apply IH. Qed.
Lemma seqw_bind {A B} l1 l2 (p : prog A) (f : A -> prog B) : seqw l1 p -> (forall a, seqw l2 (f a)) -> seqw (l1 ++ l2) (p ≫= f).
Proof.
  revert l1. induction p as [a|e|R c k IH]; intros l1 Hp Hf.
  - change (seqw (l1 ++ l2) (f a)). clear Hp. induction l1 as [|s l1 IHl]; [apply Hf|].
    assert (forall q : prog B, seqw (l1 ++ l2) q -> seqw (s :: l1 ++ l2) q) as Hw; [|by apply Hw].
    intros q. clear. generalize (l1 ++ l2) as l. intros l. destruct q as [b|e|R c k]; [done..|]. revert R c k.
    assert (forall q : prog B, seqw l q -> seqw (s :: l) q) as H; [|intros R c k; apply (H (Call c k))].
    induction q as [b|e|R c k IH]; [done..|]. cbn [seqw]. destruct (wstore c) as [t|].
    + intros (m1 & m2 & -> & Hk). exists (s :: m1), m2. done.
    + intros H x. by apply IH.
  - done.
  - change (seqw (l1 ++ l2) (Call c (fun x => k x ≫= f))). cbn [seqw] in *. destruct (wstore c) as [s|].
    + destruct Hp as (m1 & m2 & -> & Hk). exists m1, (m2 ++ l2). split; [by rewrite <- app_assoc|]. intros x. by apply IH.
    + intros x. by apply IH.
Qed.
Lemma seqw_ro {A B} l (p : prog A) (f : A -> prog B) : readonly p -> (forall a, seqw l (f a)) -> seqw l (p ≫= f).
Proof. intros. apply (seqw_bind []); [by apply readonly_seqw|done]. Qed.
Lemma seqw_do {A R} s l (c : call R) (f : R -> prog A) : wstore c = Some s -> (forall a, seqw l (f a)) -> seqw (s :: l) (do c ≫= f).
Proof. intros Hc Hf. apply (seqw_bind [s]); [|done]. cbn. rewrite Hc. exists [], []. split; [done|]. intros x. apply readonly_seqw, readonly_lift. Qed.
Lemma seqw_last {R} s l (c : call R) : wstore c = Some s -> seqw (s :: l) (do c).
Proof. intros Hc. cbn. rewrite Hc. exists [], l. split; [done|]. intros x. apply readonly_seqw, readonly_lift. Qed.
Lemma seqw_if {A} l (b : bool) (p q : prog A) : seqw l p -> seqw l q -> seqw l (if b then p else q).
Proof. by destruct b. Qed.
Lemma seqw_snoc {A B} l (p : prog A) (f : A -> prog B) : seqw l p -> (forall a, readonly (f a)) -> seqw l (p ≫= f).
Proof. intros Hp Hf. rewrite <- (app_nil_r l). apply seqw_bind; [done|]. intros a. apply readonly_seqw, Hf. Qed.

Section order.
Context (C : crypto).
Ltac sq := repeat first
  [ exact I | apply seqw_if | by apply seqw_last
  | apply seqw_ro; [solve [ro | apply readonly_initializeSessionAsAlice | apply readonly_initializeSession | apply readonly_if; ro]|intros ?]
  | apply seqw_do; [done|intros ?] | apply readonly_seqw; solve [ro] ].

Lemma seqw_bundle r d b : seqw [Sessions; Trusted] (processPreKeyBundle C r d b).
Proof using. unfold processPreKeyBundle. sq. destruct (bu_signedPreKey b); sq. Qed.

Lemma seqw_kx r d m : seqw [Sessions; Trusted] (processKeyExchangeMessage C r d m).
Proof using.
  unfold processKeyExchangeMessage. sq.
  - apply seqw_snoc; [|done]. unfold processInitiate. sq.
    match goal with x : (keypair * keypair * keypair * N)%type |- _ => destruct x as [[[? ?] ?] ?] end. sq.
  - apply seqw_snoc; [|done]. unfold processResponse. sq.
Qed.

Lemma seqw_pkmsg r d m : seqw [Trusted; Sessions; Prekeys] (decryptPkmsg C r d m).
Proof using.
  unfold decryptPkmsg. sq. apply (seqw_bind [Trusted] [Sessions; Prekeys]).
  - unfold builder_process. sq. apply seqw_ro; [apply readonly_processV3|]. intros x. sq.
  - intros x. sq. destruct (x.2); sq.
Qed.

Lemma order_NoDup1 : NoDup [Sessions; Trusted].
Proof. repeat constructor; set_solver. Qed.
Lemma order_NoDup2 : NoDup [Trusted; Sessions; Prekeys].
Proof. repeat constructor; set_solver. Qed.

Lemma multi_cut r d :
  (forall b n w, cut [Sessions; Trusted] w (run (processPreKeyBundle C r d b) w).2 (run_crash n (processPreKeyBundle C r d b) w).2) /\
  (forall m n w, cut [Sessions; Trusted] w (run (processKeyExchangeMessage C r d m) w).2 (run_crash n (processKeyExchangeMessage C r d m) w).2) /\
  (forall m n w, cut [Trusted; Sessions; Prekeys] w (run (decryptPkmsg C r d m) w).2 (run_crash n (decryptPkmsg C r d m) w).2).
Proof using.
  split; [|split]; intros; apply seqw_cut; auto using order_NoDup1, order_NoDup2, seqw_bundle, seqw_kx, seqw_pkmsg.
Qed.
End order.
