(** Calls for one peer device or one sender key name are isolated: C40. *)
From Verif Require Import PyBase Protos Crypto Ecc Messages State Prog Ratchet Builder Cipher Groups ProgFacts SpecIso.

(** Every outside call of the program, whatever the outside answers, satisfies [P]. *)
Fixpoint confined (P : forall R, call R -> Prop) {A} (p : prog A) : Prop :=
  match p with
  | Ret _ | Raise _ => True
  | Call c k => P _ c /\ forall x, confined P (k x)
  end.

Section confined.
Context (P : forall R, call R -> Prop).
Lemma confined_bind {A B} (p : prog A) (f : A -> prog B) : confined P p -> (forall a, confined P (f a)) -> confined P (p ≫= f).
Proof using.
  intros Hp Hf. induction p as [a|e|R c k IH]; [apply Hf|done|].
  destruct Hp as [Hc Hk]. split; [done|]. intros r. by apply IH.
Qed.
Lemma confined_catch {A} (p : prog A) h : confined P p -> (forall e, confined P (h e)) -> confined P (catch p h).
Proof using.
  intros Hp Hh. induction p as [a|e|R c k IH]; [done|apply Hh|].
  destruct Hp as [Hc Hk]. split; [done|]. intros r. by apply IH.
Qed.
Lemma confined_lift {A} (r : res A) : confined P (lift r).
Proof using. by destruct r. Qed.
Lemma confined_do {R} (c : call R) : P _ c -> confined P (do c).
Proof using. intros. split; [done|]. intros. apply confined_lift. Qed.
Lemma confined_if {A} (b : bool) (p q : prog A) : confined P p -> confined P q -> confined P (if b then p else q).
Proof using. by destruct b. Qed.

(** A relation between two worlds, and one between before and after, that all these calls
    keep. *)
Context (V : world -> world -> Prop) (O : world -> world -> Prop).
Context (HV : forall R (c : call R) w1 w2, P R c -> V w1 w2 ->
  (step_call c w1).1 = (step_call c w2).1 /\ V (step_call c w1).2 (step_call c w2).2).
Context (HO : forall R (c : call R) w, P R c -> O w (step_call c w).2).
Context (HOr : forall w, O w w) (HOt : forall w1 w2 w3, O w1 w2 -> O w2 w3 -> O w1 w3).

Lemma confined_run {A} (p : prog A) : confined P p ->
  (forall w, O w (run p w).2) /\
  (forall w1 w2, V w1 w2 -> (run p w1).1 = (run p w2).1 /\ V (run p w1).2 (run p w2).2).
Proof using HO HOr HOt HV.
  induction p as [a|e|R c k IH]; intros Hp; [by split..|]. destruct Hp as [Hc Hk]. split.
  - intros w. cbn [run]. pose proof (HO _ c w Hc). destruct (step_call c w) as [x w']. eapply HOt; [done|]. by apply IH.
  - intros w1 w2 H12. cbn [run]. destruct (HV _ c w1 w2 Hc H12) as [H1 H2].
    destruct (step_call c w1) as [x1 w1'], (step_call c w2) as [x2 w2']. cbn [fst snd] in *. subst x2. by apply IH.
Qed.
Lemma confined_run_crash {A} (p : prog A) : confined P p -> forall n,
  (forall w, O w (run_crash n p w).2) /\
  (forall w1 w2, V w1 w2 -> (run_crash n p w1).1 = (run_crash n p w2).1 /\ V (run_crash n p w1).2 (run_crash n p w2).2).
Proof using HO HOr HOt HV.
  induction p as [a|e|R c k IH]; intros Hp n; [by split..|]. destruct Hp as [Hc Hk]. destruct n as [|n]; [by split|]. split.
  - intros w. cbn [run_crash]. pose proof (HO _ c w Hc). destruct (step_call c w) as [x w']. eapply HOt; [done|]. by apply IH.
  - intros w1 w2 H12. cbn [run_crash]. destruct (HV _ c w1 w2 Hc H12) as [H1 H2].
    destruct (step_call c w1) as [x1 w1'], (step_call c w2) as [x2 w2']. cbn [fst snd] in *. subst x2. by apply IH.
Qed.
End confined.

(** ** Peers *)

Definition of_peer (r d : Z) (R : Type) (c : call R) : Prop :=
  match c with
  | CLoadSession r' d' | CContainsSession r' d' | CStoreSession r' d' _ => (r', d') = (r, d)
  | CIsTrusted r' _ | CSaveIdentity r' _ => r' = r
  | CLoadSenderKey _ | CStoreSenderKey _ _ => False
  | _ => True
  end.

Ltac cf := repeat first
  [ apply confined_lift | by apply confined_do | exact I | apply confined_bind; [|intros ?]
  | apply confined_catch; [|intros ?] | apply confined_if ].

Lemma of_peer_view r d R (c : call R) w1 w2 : of_peer r d R c -> same_for r d w1 w2 ->
  (step_call c w1).1 = (step_call c w2).1 /\ same_for r d (step_call c w1).2 (step_call c w2).2.
Proof.
  intros Hc H. pose proof H as (H1 & H2 & H3 & H4 & H5 & H6 & H7 & H8).
  destruct c; cbn [of_peer] in Hc; try done; cbn [step_call fst snd]; try injection Hc as -> ->; subst; split; try done.
  all: try (by rewrite ?H1, ?H2, ?H3, ?H4, ?H5, ?H6, ?H7, ?H8).
  all: unfold same_for; cbn; rewrite ?lookup_insert, ?H3, ?H7; split_and!; done.
Qed.
Lemma of_peer_only r d R (c : call R) w : of_peer r d R c -> only_changes r d w (step_call c w).2.
Proof.
  intros Hc. destruct c; cbn [of_peer] in Hc; try done; cbn [step_call snd]; try (by unfold only_changes).
  - injection Hc as -> ->. unfold only_changes. split_and!; try done. intros r' d' Hne. cbn. by rewrite lookup_insert_ne by congruence.
  - subst. unfold only_changes. split_and!; try done. intros r' Hne. cbn. by rewrite lookup_insert_ne by congruence.
Qed.
Lemma only_changes_trans r d w1 w2 w3 : only_changes r d w1 w2 -> only_changes r d w2 w3 -> only_changes r d w1 w3.
Proof.
  intros (A1 & A2 & A3 & A4 & A5 & A6) (B1 & B2 & B3 & B4 & B5 & B6). unfold only_changes.
  rewrite B3, B4, B5, B6. split_and!; try done; intros; [rewrite B1 by done; by apply A1|rewrite B2 by done; by apply A2].
Qed.

Section peer.
Context (C : crypto) (r d : Z).

Lemma cf_state s m : confined (of_peer r d) (decryptWithSessionState C s m).
Proof using. unfold decryptWithSessionState, getOrCreateChainKey, generateKeyPair. cf. Qed.
Lemma cf_record rec m : confined (of_peer r d) (decryptWithSessionRecord C rec m).
Proof using.
  unfold decryptWithSessionRecord. apply confined_catch; [apply confined_bind; [apply cf_state|done]|intros ?]. apply confined_if; [|done].
  generalize 0 as i. induction (sr_previous rec) as [|s l IH]; intros i; [done|]. cbn [decryptWithPrevious].
  apply confined_catch; [apply confined_bind; [apply cf_state|done]|intros ?]. apply confined_if; [apply IH|done].
Qed.
Lemma cf_alice s a b c e f g : confined (of_peer r d) (initializeSessionAsAlice C s a b c e f g).
Proof using. unfold initializeSessionAsAlice, generateKeyPair. cf. Qed.
Lemma cf_init s a b c e f g : confined (of_peer r d) (initializeSession C s a b c e f g).
Proof using. unfold initializeSession. cf; apply cf_alice. Qed.

Ltac cfx := repeat lazymatch goal with
  | |- confined _ (decryptWithSessionRecord _ _ _) => apply cf_record
  | |- confined _ (initializeSessionAsAlice _ _ _ _ _ _ _ _) => apply cf_alice
  | |- confined _ (initializeSession _ _ _ _ _ _ _ _) => apply cf_init
  | |- confined _ (match ?x with _ => _ end) => destruct x
  | |- confined _ _ => first [ apply confined_lift | by apply confined_do | exact I
      | apply confined_bind; [|intros ?] | apply confined_catch; [|intros ?] ]
  end.

Lemma peer_confined A (p : prog A) : peerCall C r d A p -> confined (of_peer r d) p.
Proof using.
  intros [b|m| |pt|m|m].
  - unfold processPreKeyBundle, generateKeyPair. cfx.
  - unfold processKeyExchangeMessage, processInitiate, processResponse, generateKeyPair, calculateSignature. cfx.
  - unfold processInitKeyExchangeMessage, rethrow, getRandomSequence, generateKeyPair, calculateSignature. cfx.
  - unfold encrypt. cfx.
  - unfold decryptMsg. cfx.
  - unfold decryptPkmsg, builder_process, processV3. cfx.
Qed.

Lemma peer_isolated A (p : prog A) : peerCall C r d A p ->
  (forall w, only_changes r d w (run p w).2) /\
  (forall w1 w2, same_for r d w1 w2 -> (run p w1).1 = (run p w2).1 /\ same_for r d (run p w1).2 (run p w2).2).
Proof using.
  intros Hp. apply (confined_run (of_peer r d) (same_for r d) (only_changes r d)).
  - intros. by apply of_peer_view.
  - intros. by apply of_peer_only.
  - done.
  - apply only_changes_trans.
  - by apply peer_confined.
Qed.
Lemma peer_isolated_crash A (p : prog A) n : peerCall C r d A p ->
  (forall w, only_changes r d w (run_crash n p w).2) /\
  (forall w1 w2, same_for r d w1 w2 -> (run_crash n p w1).1 = (run_crash n p w2).1 /\ same_for r d (run_crash n p w1).2 (run_crash n p w2).2).
Proof using.
  intros Hp. apply (confined_run_crash (of_peer r d) (same_for r d) (only_changes r d)).
  - intros. by apply of_peer_view.
  - intros. by apply of_peer_only.
  - done.
  - apply only_changes_trans.
  - by apply peer_confined.
Qed.
End peer.

(** ** Sender keys *)

Definition of_group (n : senderKeyName) (R : Type) (c : call R) : Prop :=
  match c with
  | CLoadSenderKey n' | CStoreSenderKey n' _ => n' = n
  | CUrandom _ | CRandrange _ | CTimeMillis => True
  | _ => False
  end.

Lemma of_group_view n R (c : call R) w1 w2 : of_group n R c -> same_for_group n w1 w2 ->
  (step_call c w1).1 = (step_call c w2).1 /\ same_for_group n (step_call c w1).2 (step_call c w2).2.
Proof.
  intros Hc H. pose proof H as (H1 & H7 & H8).
  destruct c; cbn [of_group] in Hc; try done; cbn [step_call fst snd]; subst; split; try done.
  all: try (by rewrite ?H1, ?H7, ?H8).
  all: unfold same_for_group; cbn; rewrite ?lookup_insert, ?H7; split_and!; done.
Qed.
Lemma of_group_only n R (c : call R) w : of_group n R c -> only_changes_group n w (step_call c w).2.
Proof.
  intros Hc. destruct c; cbn [of_group] in Hc; try done; cbn [step_call snd]; try (by unfold only_changes_group).
  subst. unfold only_changes_group. split_and!; try done. intros n' Hne. cbn. by rewrite lookup_insert_ne by congruence.
Qed.
Lemma only_changes_group_trans n w1 w2 w3 : only_changes_group n w1 w2 -> only_changes_group n w2 w3 -> only_changes_group n w1 w3.
Proof.
  intros (A1 & A2 & A3 & A4 & A5 & A6 & A7) (B1 & B2 & B3 & B4 & B5 & B6 & B7). unfold only_changes_group.
  rewrite B2, B3, B4, B5, B6, B7. split_and!; try done. intros. rewrite B1 by done. by apply A1.
Qed.

Section group.
Context (C : crypto) (n : senderKeyName).
Lemma group_confined A (p : prog A) : groupCall C n A p -> confined (of_group n) p.
Proof using.
  intros [|m|pt|b].
  - unfold group_create, rethrow, generateKeyPair, getRandomSequence. cf; destruct a; cf.
  - unfold group_process. cf.
  - unfold group_encrypt, rethrow, calculateSignature. cf.
  - unfold group_decrypt, rethrow. cf. destruct a; cf.
Qed.
Lemma group_isolated A (p : prog A) : groupCall C n A p ->
  (forall w, only_changes_group n w (run p w).2) /\
  (forall w1 w2, same_for_group n w1 w2 -> (run p w1).1 = (run p w2).1 /\ same_for_group n (run p w1).2 (run p w2).2).
Proof using.
  intros Hp. apply (confined_run (of_group n) (same_for_group n) (only_changes_group n)).
  - intros. by apply of_group_view.
  - intros. by apply of_group_only.
  - done.
  - apply only_changes_group_trans.
  - by apply group_confined.
Qed.
Lemma group_isolated_crash A (p : prog A) k : groupCall C n A p ->
  (forall w, only_changes_group n w (run_crash k p w).2) /\
  (forall w1 w2, same_for_group n w1 w2 -> (run_crash k p w1).1 = (run_crash k p w2).1 /\ same_for_group n (run_crash k p w1).2 (run_crash k p w2).2).
Proof using.
  intros Hp. apply (confined_run_crash (of_group n) (same_for_group n) (only_changes_group n)).
  - intros. by apply of_group_view.
  - intros. by apply of_group_only.
  - done.
  - apply only_changes_group_trans.
  - by apply group_confined.
Qed.
End group.
