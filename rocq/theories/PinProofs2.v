(** Sessions are with the trusted identity, unless a call is killed: C67. *)
From Verif Require Import PyBase Wire Protos ProtoFacts Crypto Ecc Kdf Messages State Prog Ratchet Builder Cipher Groups Helper.
From Verif Require Import ProgFacts StateFacts UtilFacts HelperFacts MsgFacts CipherFacts DecryptFacts SpecSession SessionProofs SpecApi InvFacts SpecPin PinProofs.

(** ** Programs and the worlds they lead to *)

Definition hrun {A} (P : world -> Prop) (p : prog A) (Q : A -> world -> Prop) (E : world -> Prop) : Prop :=
  forall w, P w -> match run p w with (Ok a, w') => Q a w' | (Err _, w') => E w' end.

Lemma h_bind {A B} P (p : prog A) (f : A -> prog B) Q R E :
  hrun P p Q E -> (forall a, hrun (Q a) (f a) R E) -> hrun P (p ≫= f) R E.
Proof.
  intros Hp Hf w Hw. rewrite run_bind. specialize (Hp w Hw). destruct (run p w) as [[a|e] w1]; [|done]. by apply Hf.
Qed.
Lemma h_weaken {A} (P P' : world -> Prop) (p : prog A) (Q Q' : A -> world -> Prop) (E E' : world -> Prop) :
  hrun P p Q E -> (forall w, P' w -> P w) -> (forall a w, Q a w -> Q' a w) -> (forall w, E w -> E' w) -> hrun P' p Q' E'.
Proof.
  intros H H1 H2 H3 w Hw. specialize (H w (H1 w Hw)). destruct (run p w) as [[a|e] w1]; auto.
Qed.
Lemma h_ret {A} (P : world -> Prop) (a : A) (Q : A -> world -> Prop) E : (forall w, P w -> Q a w) -> hrun P (Ret a) Q E.
Proof. intros H w Hw. by apply H. Qed.
Lemma h_raise {A} (P : world -> Prop) e (Q : A -> world -> Prop) (E : world -> Prop) : (forall w, P w -> E w) -> hrun P (Raise e) Q E.
Proof. intros H w Hw. by apply H. Qed.
Lemma h_rethrow {A} P sel e' (p : prog A) Q E : hrun P p Q E -> hrun P (rethrow sel e' p) Q E.
Proof.
  intros H w Hw. specialize (H w Hw). unfold rethrow. rewrite run_catch. destruct (run p w) as [[a|e] w1]; [done|].
  by destruct (sel e).
Qed.

(** World predicates that only see the stores. *)
Definition stable (P : world -> Prop) : Prop :=
  (forall w w', same_stores w w' -> P w -> P w') /\ (forall w, P w -> stored_ok loaded_inv w).
Lemma h_read {A} P (p : prog A) (Q : A -> Prop) :
  stable P -> readonly p -> pspec loaded_inv record_inv p Q -> hrun P p (fun a w => P w /\ Q a) P.
Proof.
  intros [H1 H2] Hp Hq w Hw. pose proof (run_readonly p w Hp) as Hs.
  pose proof (run_keeps p Q w Hq (H2 w Hw)) as [_ Ha].
  destruct (run p w) as [[a|e] w1]; cbn in *; [split; [by eapply H1|by apply Ha]|by eapply H1].
Qed.
Lemma h_free {A} P (p : prog A) : stable P -> readonly p -> hrun P p (fun _ => P) P.
Proof.
  intros H1 H2. eapply h_weaken; [apply (h_read P p (fun _ => True)); [done..|by apply pspec_readonly]|done|by intros ? ? []|done].
Qed.
Lemma h_load P r d :
  stable P -> hrun P (do (CLoadSession r d)) (fun rec w => P w /\ session_at w r d = Ok rec /\ loaded_inv rec) P.
Proof.
  intros [_ H2] w Hw.
  cbn [run do step_call]. fold (session_at w r d). destruct (session_at w r d) as [rec|e] eqn:E; cbn; [|done].
  split_and!; [done|done|]. by eapply H2.
Qed.

(** ** The invariant *)

(** The states of the record are with identity [k]. *)
Definition ids (k : bytes) (rec : sessionRecord) : Prop :=
  Forall (fun s => ss_remoteIdentity s = None \/ ss_remoteIdentity s = Some (pub_serialize k)) (sr_states rec).
Definition pins (w : world) : Prop := stored_ok loaded_inv w /\ sessions_pinned w.
(** ... and [k] may be saved for [r]. *)
Definition pins_for (r : Z) (k : bytes) (w : world) : Prop := pins w /\ may_save w r k.

Lemma session_at_same w w' r d : same_stores w w' -> session_at w' r d = session_at w r d.
Proof. intros (E & _). unfold session_at. by rewrite E. Qed.
Lemma pins_same w w' : same_stores w w' -> pins w -> pins w'.
Proof.
  intros Hs [H1 H2]. split.
  - intros r d rec. rewrite (session_at_same _ _ _ _ Hs). apply H1.
  - intros r d rec s id. rewrite (session_at_same _ _ _ _ Hs). destruct Hs as (_ & _ & _ & -> & _). apply H2.
Qed.
Lemma stable_pins : stable pins.
Proof. split; [exact pins_same|by intros w []]. Qed.
Lemma may_save_same w w' r k : same_stores w w' -> may_save w r k -> may_save w' r k.
Proof. intros (_ & _ & _ & E & _). unfold may_save. by rewrite E. Qed.
Lemma stable_pins_for r k : stable (pins_for r k).
Proof.
  split; [|by intros w [[] _]]. intros w w' Hs [H1 H2]. split; [by eapply pins_same|by eapply may_save_same].
Qed.

Lemma pins_ids w r d rec k : pins w -> may_save w r k -> session_at w r d = Ok rec -> ids k rec.
Proof.
  intros [_ H] Hm Hr. apply Forall_forall. intros s Hs. destruct (ss_remoteIdentity s) as [id|] eqn:E; [|by left].
  destruct (H _ _ _ _ _ Hr Hs E) as (k' & Hk & ->). right. destruct Hm as [Hm|Hm]; congruence.
Qed.

Lemma ids_new k : ids k sr_new.
Proof. constructor; [by left|constructor]. Qed.
Lemma ids_archive k rec : ids k rec -> ids k (archiveUnlessFresh rec).
Proof.
  unfold archiveUnlessFresh. destruct (sr_fresh rec); [done|]. intros H. unfold ids, sr_states, sr_archiveCurrentState, sr_promoteState.
  cbn [sr_state sr_previous]. constructor; [by left|]. case_match; [by apply Forall_take|done].
Qed.
Lemma ids_set k rec s :
  ids k rec -> ss_remoteIdentity s = None \/ ss_remoteIdentity s = Some (pub_serialize k) -> ids k (sr_setState s rec).
Proof. intros [_ H]%Forall_cons Hs. by constructor. Qed.
Lemma ids_after k rec j s s' :
  ids k rec -> sr_states rec !! j = Some s -> ss_remoteIdentity s' = ss_remoteIdentity s -> ids k (record_after j s' rec).
Proof.
  intros H Hj E. pose proof (Forall_lookup_1 _ _ _ _ H Hj) as Hs. cbn beta in Hs. rewrite <- E in Hs.
  destruct j as [|j]; [by apply ids_set|]. cbn [record_after]. apply Forall_cons in H as [H1 H2].
  unfold ids, sr_states, sr_promoteState. cbn [sr_state sr_previous]. constructor; [done|].
  assert (Forall (fun s => ss_remoteIdentity s = None \/ ss_remoteIdentity s = Some (pub_serialize k))
    (sr_state rec :: delete j (sr_previous rec))) by (constructor; [done|by apply Forall_delete]).
  case_match; [by apply Forall_take|done].
Qed.

(** Storing sessions and saving identities. *)
Lemma session_at_stored w r d rec r' d' :
  record_inv rec ->
  session_at (w_set_sessions (<[(r, d) := sr_serialize rec]> (w_sessions w)) w) r' d' =
    if decide ((r', d') = (r, d)) then Ok (SessionRecord false (sr_state rec) (sr_previous rec)) else session_at w r' d'.
Proof.
  intros (Hwf & _). unfold session_at. cbn [w_set_sessions w_sessions]. destruct (decide ((r', d') = (r, d))) as [->|Hne].
  - by rewrite lookup_insert, StateFacts.sr_roundtrip.
  - by rewrite lookup_insert_ne by congruence.
Qed.
Lemma stored_ok_put w r d rec :
  record_inv rec -> stored_ok loaded_inv w -> stored_ok loaded_inv (w_set_sessions (<[(r, d) := sr_serialize rec]> (w_sessions w)) w).
Proof.
  intros Hi H r' d' rec'. rewrite session_at_stored by done. case_decide; [|apply H].
  intros [= <-]. destruct rec. by eapply record_inv_fresh.
Qed.
Lemma pins_put w r d rec k :
  record_inv rec -> ids k rec -> w_trusted w !! r = Some k -> pins w ->
  pins (w_set_sessions (<[(r, d) := sr_serialize rec]> (w_sessions w)) w).
Proof.
  intros Hi Hk Ht [H1 H2]. split; [by apply stored_ok_put|]. intros r' d' rec' s id. rewrite session_at_stored by done.
  case_decide as E; [|apply H2]. injection E as -> ->. intros [= <-] Hs Hid. exists k. split; [done|].
  unfold ids in Hk. rewrite Forall_forall in Hk. destruct (Hk s Hs); congruence.
Qed.
Lemma pins_save w r k : may_save w r k -> pins w -> pins (w_set_trusted (<[r := k]> (w_trusted w)) w).
Proof.
  intros Hm [H1 H2]. split; [exact H1|]. intros r' d' rec' s id Hr Hs Hid.
  destruct (H2 r' d' rec' s id Hr Hs Hid) as (k' & Hk & ->). cbn [w_set_trusted w_trusted].
  destruct (decide (r' = r)) as [->|Hne].
  - exists k. rewrite lookup_insert. split; [done|]. destruct Hm as [Hm|Hm]; congruence.
  - exists k'. by rewrite lookup_insert_ne.
Qed.

(** Store, then save. *)
Lemma h_store_save {A} r d k rec (f : unit -> prog A) (Q : A -> world -> Prop) E :
  record_inv rec -> ids k rec -> hrun pins (f tt) Q E ->
  hrun (pins_for r k) (_ ← do (CStoreSession r d rec); x ← do (CSaveIdentity r k); f x) Q E.
Proof.
  intros Hi Hk Hf w [Hp Hm].
  change (match run (f tt) (w_set_trusted (<[r := k]> (w_trusted w))
            (w_set_sessions (<[(r, d) := sr_serialize rec]> (w_sessions w)) w)) with (Ok a, w') => Q a w' | (Err _, w') => E w' end).
  apply Hf.
  assert (w_set_trusted (<[r := k]> (w_trusted w)) (w_set_sessions (<[(r, d) := sr_serialize rec]> (w_sessions w)) w) =
    let w1 := w_set_trusted (<[r := k]> (w_trusted w)) w in w_set_sessions (<[(r, d) := sr_serialize rec]> (w_sessions w1)) w1) as -> by done.
  apply (pins_put _ r d rec k); [done|done| |by apply pins_save]. cbn. by rewrite lookup_insert.
Qed.
(** Store, when the states did not change identity. *)
Lemma h_store_same {A} r d rec0 rec (f : unit -> prog A) (Q : A -> world -> Prop) E :
  record_inv rec -> (forall s, s ∈ sr_states rec -> exists s0, s0 ∈ sr_states rec0 /\ ss_remoteIdentity s = ss_remoteIdentity s0 \/ ss_remoteIdentity s = None) ->
  hrun pins (f tt) Q E ->
  hrun (fun w => pins w /\ session_at w r d = Ok rec0) (x ← do (CStoreSession r d rec); f x) Q E.
Proof.
  intros Hi Hk Hf w [[H1 H2] Hr].
  change (match run (f tt) (w_set_sessions (<[(r, d) := sr_serialize rec]> (w_sessions w)) w)
    with (Ok a, w') => Q a w' | (Err _, w') => E w' end).
  apply Hf. split; [by apply stored_ok_put|]. intros r' d' rec' s id. rewrite session_at_stored by done.
  case_decide as E'; [|apply H2]. injection E' as -> ->. intros [= <-] Hs Hid.
  destruct (Hk s Hs) as (s0 & [[Hs0 E0]|E0]); [|congruence]. apply (H2 r d rec0 s0 id Hr Hs0). congruence.
Qed.

Section calls.
Context (C : crypto).

Lemma decryptPure_id s m ek pt s' : decryptPure C s m ek = Ok (pt, s') -> ss_remoteIdentity s' = ss_remoteIdentity s.
Proof.
  intros (_ & _ & kdf & c & j & s1 & c' & _ & Hstep & _ & _ & ->)%decryptPure_ok_inv.
  apply chainStep_inv in Hstep as (? & ? & ? & _ & _ & _ & [->|(_ & _ & our & x & y & _ & _ & _ & _ & ->)]); done.
Qed.
Lemma ids_decrypted k rec m pt rec' : ids k rec -> decrypted C rec m pt rec' -> ids k rec'.
Proof. intros H (j & s & ek & s' & Hj & Hd%decryptPure_id & ->). by eapply ids_after. Qed.

Lemma setSenderChain_id kp c s s' : st_setSenderChain kp c s = Ok s' -> ss_remoteIdentity s' = ss_remoteIdentity s.
Proof. by intros (? & _ & [= <-])%bind_ok_inv. Qed.
Lemma add_id k c s s' : st_addReceiverChain k c s = Ok s' -> ss_remoteIdentity s' = ss_remoteIdentity s.
Proof. by intros (x & _ & [= <-])%bind_ok_inv. Qed.
Lemma asBob_id s a b c d e f s' :
  initializeSessionAsBob C s a b c d e f = Ok s' -> ss_remoteIdentity s' = Some (pub_serialize e).
Proof.
  intros H. unfold initializeSessionAsBob in H. do 4 (apply bind_ok_inv in H as (? & _ & H)).
  destruct (calculateDerivedKeys C _) as [rk ck].
  by apply bind_ok_inv in H as (s2 & H2%setSenderChain_id & [= <-]).
Qed.
Lemma asAlice_id s a b c d e f :
  pspec loaded_inv record_inv (initializeSessionAsAlice C s a b c d e f) (fun s' => ss_remoteIdentity s' = Some (pub_serialize c)).
Proof.
  unfold initializeSessionAsAlice.
  eapply pspec_bind; [apply pspec_readonly, readonly_generateKeyPair|]. intros ek _.
  apply pspec_lift. intros s' H. do 4 (apply bind_ok_inv in H as (? & _ & H)).
  destruct (calculateDerivedKeys C _) as [rk ck].
  apply bind_ok_inv in H as (? & _ & H). apply bind_ok_inv in H as (s1 & H1%add_id & H).
  apply bind_ok_inv in H as (s2 & H2%setSenderChain_id & [= <-]).
  cbn in *. congruence.
Qed.
Lemma initializeSession_id s a b c d e f :
  pspec loaded_inv record_inv (initializeSession C s a b c d e f) (fun s' => ss_remoteIdentity s' = Some (pub_serialize f)).
Proof.
  unfold initializeSession. eapply pspec_bind; [apply pspec_lift_eq|]. intros [] _.
  - apply asAlice_id.
  - apply pspec_lift. intros s'. apply asBob_id.
Qed.

Lemma processV3_ids rec m :
  ids (pIdentityKey m) rec -> pspec loaded_inv record_inv (processV3 C rec m) (fun x => ids (pIdentityKey m) x.1).
Proof.
  intros Hi. unfold processV3. destruct (sr_hasSessionState _ _ _); [done|].
  eapply pspec_bind; [by apply (pspec_do loaded_inv record_inv (CLoadSignedPreKey _))|]. intros spr _.
  eapply pspec_bind; [apply pspec_lift_eq|]. intros spk _.
  eapply pspec_bind; [by apply (pspec_do loaded_inv record_inv CGetIdentityKeyPair)|]. intros id _.
  eapply (pspec_bind _ _ _ _ (fun _ => True)).
  { destruct (pPreKeyId m); [|done]. eapply pspec_bind; [by apply (pspec_do loaded_inv record_inv (CLoadPreKey _))|]. intros pr _.
    eapply pspec_bind; [apply pspec_lift_eq|]. done. }
  intros otpk _. apply ids_archive in Hi. set (rec' := archiveUnlessFresh rec) in *.
  eapply pspec_bind; [apply pspec_lift_eq|]. intros s Hs%asBob_id.
  eapply pspec_bind; [by apply (pspec_do loaded_inv record_inv CGetLocalRegistrationId)|]. intros reg _.
  eapply pspec_bind; [apply pspec_lift_eq|]. intros s1 Hs1. cbn beta in Hs1.
  eapply pspec_bind; [apply pspec_lift_eq|]. intros s2 Hs2. cbn beta in Hs2.
  apply ids_set; [done|]. right. apply bind_ok_inv in Hs2 as (? & _ & [= <-]). by apply bind_ok_inv in Hs1 as (? & _ & [= <-]).
Qed.

Lemma pspec_and {A} L P (p : prog A) Q R : pspec L P p Q -> pspec L P p R -> pspec L P p (fun a => Q a /\ R a).
Proof.
  induction p as [a|e|T c k IH]; [done..|]. intros [H1 H1'] [_ H2']. split; [done|]. intros x Hx. apply IH; auto.
Qed.

(** Asking whether the identity is trusted. *)
Lemma h_asked {A} r k (f : bool -> prog A) Q :
  hrun (pins_for r k) (f true) Q pins -> hrun pins (f false) Q pins ->
  hrun pins (b ← do (CIsTrusted r k); f b) Q pins.
Proof.
  intros H1 H2 w Hw.
  change (match run (f (match w_trusted w !! r with Some k' => pub_eqb k' k | None => true end)) w with
    (Ok a, w') => Q a w' | (Err _, w') => pins w' end).
  destruct (w_trusted w !! r) as [k'|] eqn:E; [|apply H1; split; [done|by left]].
  unfold pub_eqb. case_bool_decide; [|by apply H2]. subst k'. apply H1. split; [done|by right].
Qed.
Lemma pins_of r k w : pins_for r k w -> pins w.
Proof. by intros []. Qed.

Lemma h_step {A B} P (p : prog A) (phi : A -> Prop) (f : A -> prog B) R E :
  hrun P p (fun a w => P w /\ phi a) E -> (forall a, phi a -> hrun P (f a) R E) -> hrun P (p ≫= f) R E.
Proof. intros Hp Hf. eapply h_bind; [exact Hp|]. intros a w [Hw Ha]. by apply Hf. Qed.
Lemma h_load_for r k d :
  hrun (pins_for r k) (do (CLoadSession r d)) (fun rec w => pins_for r k w /\ (loaded_inv rec /\ ids k rec)) pins.
Proof.
  eapply h_weaken; [apply (h_load (pins_for r k) r d), stable_pins_for|done| |by intros ? []]. cbn.
  intros rec w (H1 & H2 & H3). split_and!; [done..|]. destruct H1. by eapply pins_ids.
Qed.
Lemma h_read_for {A} r k (p : prog A) (Q : A -> Prop) :
  readonly p -> pspec loaded_inv record_inv p Q -> hrun (pins_for r k) p (fun a w => pins_for r k w /\ Q a) pins.
Proof.
  intros H1 H2. eapply h_weaken; [apply (h_read (pins_for r k) p Q); [apply stable_pins_for|done|done]|done|done|by intros ? []].
Qed.
Lemma h_free_for {A} r k (p : prog A) :
  readonly p -> hrun (pins_for r k) p (fun a w => pins_for r k w /\ True) pins.
Proof. intros H. apply h_read_for; [done|by apply pspec_readonly]. Qed.
Lemma h_lift_for {A} r k (x : res A) :
  hrun (pins_for r k) (lift x) (fun a w => pins_for r k w /\ x = Ok a) pins.
Proof. apply h_read_for; [apply readonly_lift|apply pspec_lift_eq]. Qed.

Lemma h_bundle r d b : hrun pins (processPreKeyBundle C r d b) (fun _ => pins) pins.
Proof.
  apply h_asked; [|by apply h_raise].
  destruct (bu_signedPreKey b) as [spk|]; [|apply h_raise, pins_of].
  set (k := bu_identityKey b).
  eapply h_step; [apply h_lift_for|]. intros [] _; [|apply h_raise, pins_of].
  eapply h_step; [apply h_load_for|]. intros rec [Hrec Hk].
  eapply h_step; [apply h_free_for, readonly_generateKeyPair|]. intros base _.
  eapply h_step; [apply h_free_for; by apply readonly_do|]. intros id _.
  pose proof (good0_archived _ Hrec) as Hnew. destruct Hrec as [Hrec _].
  apply record_inv_archive in Hrec. apply ids_archive in Hk. set (rec' := archiveUnlessFresh rec) in *.
  eapply h_step; [apply h_read_for; [apply readonly_initializeSessionAsAlice|apply pspec_and; [by apply spec_asAlice|apply asAlice_id]]|].
  intros s [[Hs Hi] Hid].
  eapply h_step; [apply h_lift_for|]. intros s1 Hs1.
  eapply h_step; [apply h_free_for; by apply readonly_do|]. intros reg _.
  eapply h_step; [apply h_lift_for|]. intros s2 Hs2.
  eapply h_step; [apply h_lift_for|]. intros s3 Hs3. cbn beta in Hs1, Hs2, Hs3.
  apply (h_store_save r d k _ (fun x => Ret x)); [| |by apply h_ret].
  - apply good_set; [done|]. split.
    + apply st_setAliceBaseKey_wf. eapply st_setRemoteRegistrationId_wf; [|done]. eapply st_setLocalRegistrationId_wf; [|done].
      by eapply st_setUnacknowledgedPreKeyMessage_wf.
    + apply bind_ok_inv in Hs3 as (? & _ & [= <-]). apply bind_ok_inv in Hs2 as (? & _ & [= <-]).
      apply bind_ok_inv in Hs1 as (? & _ & Hs1). by apply bind_ok_inv in Hs1 as (? & _ & [= <-]).
  - apply ids_set; [done|]. right.
    apply bind_ok_inv in Hs3 as (? & _ & [= <-]). apply bind_ok_inv in Hs2 as (? & _ & [= <-]).
    apply bind_ok_inv in Hs1 as (? & _ & Hs1). by apply bind_ok_inv in Hs1 as (? & _ & [= <-]).
Qed.

Lemma h_initiate r d m : hrun (pins_for r (xIdentityKey m)) (processInitiate C r d m) (fun _ => pins) pins.
Proof.
  unfold processInitiate. set (k := xIdentityKey m).
  eapply h_step; [apply h_load_for|]. intros rec [Hrec Hk].
  eapply h_step; [apply h_lift_for|]. intros [] _; [|apply h_raise, pins_of].
  eapply h_step; [apply h_free_for; apply readonly_if; ro|]. intros [[[id base] rat] fl] _.
  pose proof (good0_archived _ Hrec) as Hnew. destruct Hrec as [Hrec _].
  apply record_inv_archive in Hrec. apply ids_archive in Hk. set (rec' := archiveUnlessFresh rec) in *.
  eapply h_step; [apply h_read_for; [apply readonly_initializeSession|apply pspec_and; [by apply spec_initializeSession|apply initializeSession_id]]|].
  intros s [Hs Hid].
  apply (h_store_save r d k); [by apply good_set|apply ids_set; [done|by right]|].
  apply h_free; [apply stable_pins|ro].
Qed.

Lemma h_response r d m : hrun (pins_for r (xIdentityKey m)) (processResponse C r d m) (fun _ => pins) pins.
Proof.
  unfold processResponse. set (k := xIdentityKey m).
  eapply h_step; [apply h_load_for|]. intros rec [Hrec Hk].
  destruct (_ || _).
  { destruct (kx_isResponseForSimultaneousInitiate m); [apply h_ret, pins_of|apply h_raise, pins_of]. }
  do 3 (eapply h_step; [apply h_lift_for|]; intros ? _).
  pose proof (good0_archived _ Hrec) as Hnew. destruct Hrec as [Hrec _].
  apply record_inv_archive in Hrec. apply ids_archive in Hk. set (rec' := archiveUnlessFresh rec) in *.
  eapply h_step; [apply h_read_for; [apply readonly_initializeSession|apply pspec_and; [by apply spec_initializeSession|apply initializeSession_id]]|].
  intros s [Hs Hid].
  eapply h_step; [apply h_lift_for|]. intros [] _; [|apply h_raise, pins_of].
  apply (h_store_save r d k _ (fun x => Ret x)); [by apply good_set|apply ids_set; [done|by right]|by apply h_ret].
Qed.

Lemma h_kx r d m : hrun pins (processKeyExchangeMessage C r d m) (fun _ => pins) pins.
Proof.
  apply h_asked; [|by apply h_raise]. destruct (kx_isInitiate m).
  - eapply h_bind; [apply h_initiate|]. intros x. by apply h_ret.
  - eapply h_bind; [apply h_response|]. intros x. by apply h_ret.
Qed.

Lemma h_initKx r d : hrun pins (processInitKeyExchangeMessage C r d) (fun _ => pins) pins.
Proof.
  unfold processInitKeyExchangeMessage, getRandomSequence. apply h_rethrow.
  assert (forall A (p : prog A), readonly p -> hrun pins p (fun a w => pins w /\ True) pins) as HF.
  { intros A p Hp. eapply h_weaken; [apply h_free; [apply stable_pins|exact Hp]|done|done|done]. }
  eapply h_step; [apply HF; by apply readonly_do|]. intros q _.
  eapply h_step; [apply HF, readonly_generateKeyPair|]. intros base _.
  eapply h_step; [apply HF, readonly_generateKeyPair|]. intros rat _.
  eapply h_step; [apply HF; by apply readonly_do|]. intros id _.
  eapply h_step; [apply HF, readonly_calculateSignature|]. intros sig _.
  eapply h_bind; [apply h_load, stable_pins|]. intros rec. cbn beta.
  intros w (Hp & Hr & Hrec). revert w Hp Hr.
  assert (hrun (fun w => pins w /\ session_at w r d = Ok rec)
    (s ← lift (st_setPendingKeyExchange (q + 1) base rat id (sr_state rec));
     _ ← do (CStoreSession r d (sr_setState s rec));
     lift (kx_create CURRENT_VERSION (q + 1) INITIATE_FLAG (kp_pub base) sig (kp_pub rat) (kp_pub id)))
    (fun _ => pins) pins) as H; [|by intros w Hp Hr; apply (H w)].
  destruct (st_setPendingKeyExchange (q + 1) base rat id (sr_state rec)) as [s|e] eqn:Hs; [|apply h_raise; by intros ? []].
  change (lift (Ok s)) with (Ret s). change (Ret s ≫= ?f) with (f s). cbn beta.
  destruct Hrec as [Hrec _].
  apply (h_store_same r d rec).
  - apply good_set; [done|]. destruct (good_current _ Hrec). split; [by eapply st_setPendingKeyExchange_wf|].
    by apply bind_ok_inv in Hs as (? & _ & [= <-]).
  - intros s' [->|Hs']%elem_of_cons.
    + exists (sr_state rec). left. split; [by apply elem_of_cons; left|]. by apply bind_ok_inv in Hs as (? & _ & [= <-]).
    + exists s'. left. split; [by apply elem_of_cons; right|done].
  - apply h_free; [apply stable_pins|apply readonly_lift].
Qed.

Lemma h_encrypt r d pt : hrun pins (encrypt C r d pt) (fun _ => pins) pins.
Proof.
  unfold encrypt. eapply h_bind; [apply h_load, stable_pins|]. intros rec. cbn beta.
  intros w (Hp & Hr & Hrec). revert w Hp Hr.
  assert (hrun (fun w => pins w /\ session_at w r d = Ok rec)
    (x ← lift (encryptWithState C (sr_state rec) pt); _ ← do (CStoreSession r d (sr_setState x.2 rec)); Ret x.1)
    (fun _ => pins) pins) as H; [|by intros w Hp Hr; apply (H w)].
  destruct (encryptWithState C (sr_state rec) pt) as [[ct s]|e] eqn:Hs; [|apply h_raise; by intros ? []].
  change (lift (Ok (ct, s))) with (Ret (ct, s)). change (Ret (ct, s) ≫= ?f) with (f (ct, s)). cbn beta. cbn [fst snd].
  assert (record_inv (sr_setState s rec)) as Hi.
  { pose proof (spec_encrypt C r d pt) as H. destruct H as [_ H]. specialize (H (Ok rec) Hrec). cbn in H. rewrite Hs in H. apply H. }
  apply (h_store_same r d rec); [done| |by apply h_ret].
  unfold encryptWithState in Hs. do 7 (apply bind_ok_inv in Hs as (? & _ & Hs)).
  apply bind_ok_inv in Hs as (s' & Hs' & [= _ <-]). apply bind_ok_inv in Hs' as (? & _ & [= <-]).
  intros s' [->|Hs']%elem_of_cons.
  - exists (sr_state rec). left. split; [by apply elem_of_cons; left|done].
  - exists s'. left. split; [by apply elem_of_cons; right|done].
Qed.

(** decryptMsg and decryptPkmsg. *)
Lemma decrypted_same rec m pt rec' s :
  decrypted C rec m pt rec' -> s ∈ sr_states rec' ->
  exists s0, s0 ∈ sr_states rec /\ ss_remoteIdentity s = ss_remoteIdentity s0 \/ ss_remoteIdentity s = None.
Proof.
  intros (j & s1 & ek & s' & Hj & Hd%decryptPure_id & ->) Hs.
  pose proof (elem_of_list_lookup_2 _ _ _ Hj) as Hin. destruct j as [|j].
  - cbn in Hj. injection Hj as <-. cbn [record_after] in Hs. apply elem_of_cons in Hs as [->|Hs].
    + exists (sr_state rec). left. done.
    + exists s. left. split; [by apply elem_of_cons; right|done].
  - cbn [record_after] in Hs. unfold sr_states, sr_promoteState in Hs. cbn [sr_state sr_previous] in Hs.
    apply elem_of_cons in Hs as [->|Hs]; [exists s1; by left|].
    assert (s ∈ sr_state rec :: delete j (sr_previous rec)) as [->|Hs']%elem_of_cons.
    { revert Hs. case_match; [|done]. intros Hs. eapply elem_of_submseteq; [exact Hs|]. apply sublist_submseteq, sublist_take. }
    + exists (sr_state rec). left. split; [by apply elem_of_cons; left|done].
    + exists s. left. split; [|done]. apply elem_of_cons. right. eapply elem_of_submseteq; [exact Hs'|].
      apply sublist_submseteq, sublist_delete.
Qed.

Lemma stable_at r d rec : stable (fun w => pins w /\ session_at w r d = Ok rec).
Proof.
  split; [|by intros w [[] _]]. intros w w' Hs [H1 H2]. split; [by eapply pins_same|]. by rewrite (session_at_same _ _ _ _ Hs).
Qed.

Lemma h_decryptMsg r d m : hrun pins (decryptMsg C r d m) (fun _ => pins) pins.
Proof.
  unfold decryptMsg. eapply h_bind; [apply h_free; [apply stable_pins|by apply readonly_do]|]. intros []; [|by apply h_raise].
  eapply h_bind; [apply h_load, stable_pins|]. intros rec. cbn beta.
  intros w (Hp & Hr & Hrec). revert w Hp Hr.
  assert (hrun (fun w => pins w /\ session_at w r d = Ok rec)
    (x ← decryptWithSessionRecord C rec m; _ ← do (CStoreSession r d x.2); Ret x.1)
    (fun _ => pins) pins) as H; [|by intros w Hp Hr; apply (H w)].
  eapply (h_step _ _ (fun x => decrypted C rec m x.1 x.2)).
  { eapply h_weaken; [apply h_read; [apply (stable_at r d rec)|apply readonly_decryptWithSessionRecord|apply pspec_decryptWithSessionRecord]|done|done|by intros ? []]. }
  intros x Hx. cbn beta in Hx. apply (h_store_same r d rec); [exact (decrypted_inv _ _ _ _ _ (proj1 Hrec) Hx)| |by apply h_ret].
  intros s Hs. by eapply decrypted_same.
Qed.

Lemma h_decryptPkmsg r d m : hrun pins (decryptPkmsg C r d m) (fun _ => pins) pins.
Proof.
  unfold decryptPkmsg. eapply h_bind; [apply h_load, stable_pins|]. intros rec. cbn beta.
  intros w (Hp & Hr & Hrec). revert w Hp Hr.
  assert (hrun (fun w => pins w /\ session_at w r d = Ok rec)
    (x ← builder_process C r rec m; y ← decryptWithSessionRecord C x.1 (pMessage m); _ ← do (CStoreSession r d y.2);
     match x.2 with Some i => _ ← do (CRemovePreKey i); Ret y.1 | None => Ret y.1 end)
    (fun _ => pins) pins) as H; [|by intros w Hp Hr; apply (H w)].
  set (k := pIdentityKey m).
  assert (forall A (p : prog A) Q, readonly p -> pspec loaded_inv record_inv p Q ->
    hrun (fun w => pins w /\ w_trusted w !! r = Some k) p (fun a w => (pins w /\ w_trusted w !! r = Some k) /\ Q a) pins) as HR.
  { intros A p Q H1 H2. eapply h_weaken; [apply (h_read (fun w => pins w /\ w_trusted w !! r = Some k)); [|exact H1|exact H2]|done|done|by intros ? []].
    split; [|by intros w [[] _]]. intros w w' Hs [H3 H4]. split; [by eapply pins_same|].
    destruct Hs as (_ & _ & _ & -> & _). done. }
  eapply (h_bind _ _ _ (fun x w => (pins w /\ w_trusted w !! r = Some k) /\ record_inv x.1 /\ ids k x.1)).
  - intros w [Hp Hr]. unfold builder_process.
    change (match run (if match w_trusted w !! r with Some k' => pub_eqb k' k | None => true end then
       x ← processV3 C rec m; _ ← do (CSaveIdentity r k); Ret x else Raise (EUntrustedIdentity r k)) w with
       (Ok x, w') => (pins w' /\ w_trusted w' !! r = Some k) /\ record_inv x.1 /\ ids k x.1 | (Err _, w') => pins w' end).
    assert (may_save w r k -> match run (x ← processV3 C rec m; _ ← do (CSaveIdentity r k); Ret x) w with
       (Ok x, w') => (pins w' /\ w_trusted w' !! r = Some k) /\ record_inv x.1 /\ ids k x.1 | (Err _, w') => pins w' end) as HH.
    { intros Hm. pose proof (pins_ids _ _ _ _ _ Hp Hm Hr) as Hk.
      assert (hrun (pins_for r k) (x ← processV3 C rec m; _ ← do (CSaveIdentity r k); Ret x)
        (fun x w' => (pins w' /\ w_trusted w' !! r = Some k) /\ record_inv x.1 /\ ids k x.1) pins) as H; [|by apply (H w)].
      eapply h_step; [apply h_read_for; [apply readonly_processV3|apply pspec_and; [by apply spec_processV3|by apply processV3_ids]]|].
      intros x [Hx1 Hx2] w1 [H1 H2].
      change ((pins (w_set_trusted (<[r := k]> (w_trusted w1)) w1) /\ <[r := k]> (w_trusted w1) !! r = Some k) /\ record_inv x.1 /\ ids k x.1).
      split_and!; [by apply pins_save|by rewrite lookup_insert|done|done]. }
    destruct (w_trusted w !! r) as [k'|] eqn:E; [|apply HH; by left].
    unfold pub_eqb. case_bool_decide; [subst k'; apply HH; by right|done].
  - intros x w [Hw [Hx1 Hx2]]. revert w Hw.
    change (hrun (fun w => pins w /\ w_trusted w !! r = Some k)
      (y ← decryptWithSessionRecord C x.1 (pMessage m); _ ← do (CStoreSession r d y.2);
       match x.2 with Some i => _ ← do (CRemovePreKey i); Ret y.1 | None => Ret y.1 end) (fun _ => pins) pins).
    eapply h_step; [apply HR; [apply readonly_decryptWithSessionRecord|apply pspec_decryptWithSessionRecord]|].
    intros y Hy. cbn beta in Hy.
    eapply (h_bind _ _ _ (fun _ => pins)).
    + intros w [Hp Ht].
      change (pins (w_set_sessions (<[(r, d) := sr_serialize y.2]> (w_sessions w)) w)).
      apply (pins_put _ r d _ k); [exact (decrypted_inv _ _ _ _ _ Hx1 Hy)|by eapply ids_decrypted|done|done].
    + intros _. destruct (x.2) as [i|]; [|by apply h_ret]. intros w Hw. exact Hw.
Qed.

(** Groups. *)
Lemma pins_untouched w w' : w_sessions w' = w_sessions w -> w_trusted w' = w_trusted w -> pins w -> pins w'.
Proof.
  intros E1 E2 [H1 H2]. split.
  - intros r d rec. unfold session_at. rewrite E1. apply H1.
  - intros r d rec s id. unfold session_at. rewrite E1, E2. apply H2.
Qed.
Lemma h_group {A} (p : prog A) : nostore p -> (forall r k, saves r k p) -> hrun pins p (fun _ => pins) pins.
Proof.
  intros Hn Hs. assert (forall w, pins w -> pins (run p w).2) as H.
  { induction p as [a|e|R c f IH]; intros w Hw; [done..|]. cbn [run].
    destruct Hn as [Hc Hn]. pose proof (Hs 0%Z []) as [Hc0 _]. pose proof (Hs 1%Z []) as [Hc1 _].
    assert (pins (step_call c w).2) as Hw1.
    { destruct c; try done; try (by apply (pins_untouched w)). destruct Hc0 as [-> _], Hc1 as [? _]. done. }
    destruct (step_call c w) as [x w1]. apply IH; [done| |done]. intros r k. by apply (Hs r k). }
  intros w Hw. specialize (H w Hw). by destruct (run p w) as [[a|e] w1].
Qed.

Lemma h_api c : hrun pins (api C c) (fun _ => pins) pins.
Proof.
  destruct c as [r d b|r d|r d m|r d pt|r d m|r d m|n|n m|n pt|n b]; cbn [api];
    try (apply (h_bind _ _ _ (fun _ => pins)); [|by intros x; apply h_ret]).
  - apply h_bundle.
  - apply h_initKx.
  - apply h_kx.
  - apply h_encrypt.
  - apply h_decryptMsg.
  - apply h_decryptPkmsg.
  - apply h_group; [apply nostore_group_create|intros; apply saves_group_create].
  - apply h_group; [apply nostore_group_process|intros; apply saves_group_process].
  - apply h_group; [apply nostore_group_encrypt|intros; apply saves_group_encrypt].
  - apply h_group; [apply nostore_group_decrypt|intros; apply saves_group_decrypt].
Qed.

Lemma undisturbed_pins w : undisturbed C w -> pins w.
Proof.
  induction 1 as [w H|w c _ IH|w m _ IH|w m _ IH]; [|by pose proof (h_api c w IH); destruct (run (api C c) w) as [[a|e] w1]|done|done].
  split; [by apply (stored_empty _ loaded_inv_new)|]. intros r d rec s id. unfold session_at. rewrite H, lookup_empty.
  intros [= <-] [->|Hs]%elem_of_cons; [done|]. by apply elem_of_nil in Hs.
Qed.
Lemma undisturbed_pinned w : undisturbed C w -> sessions_pinned w.
Proof. intros H. by apply undisturbed_pins. Qed.
End calls.

(** After a bundle was accepted its identity is the trusted one, and another one is refused. *)
Section accepted.
Context (C : crypto).

Lemma h_top {A B} (p : prog A) (f : A -> prog B) Q :
  (forall a, hrun (fun _ => True) (f a) Q (fun _ => True)) -> hrun (fun _ => True) (p ≫= f) Q (fun _ => True).
Proof.
  intros H. apply (h_bind _ _ _ (fun _ _ => True)); [|done]. intros w _. by destruct (run p w) as [[a|e] w1].
Qed.
Lemma bundle_trusted r d b w w' :
  run (processPreKeyBundle C r d b) w = (Ok tt, w') -> w_trusted w' !! r = Some (bu_identityKey b).
Proof.
  assert (hrun (fun _ => True) (processPreKeyBundle C r d b) (fun _ w => w_trusted w !! r = Some (bu_identityKey b)) (fun _ => True)) as H.
  { unfold processPreKeyBundle. apply h_top. intros []; [|done]. destruct (bu_signedPreKey b) as [spk|]; [|done].
    apply h_top. intros []; [|done]. do 9 (apply h_top; intros ?). intros w0 _. cbn. by rewrite lookup_insert. }
  intros E. specialize (H w I). by rewrite E in H.
Qed.
Lemma bundle_other_refused r d d' b1 b2 w w1 :
  run (processPreKeyBundle C r d b1) w = (Ok tt, w1) -> bu_identityKey b1 <> bu_identityKey b2 ->
  run (processPreKeyBundle C r d' b2) w1 = (Err (EUntrustedIdentity r (bu_identityKey b2)), w1).
Proof.
  intros H%bundle_trusted Hne. unfold processPreKeyBundle. rewrite run_bind.
  change (run (do (CIsTrusted r (bu_identityKey b2))) w1)
    with (Ok (match w_trusted w1 !! r with Some k' => pub_eqb k' (bu_identityKey b2) | None => true end), w1).
  rewrite H. unfold pub_eqb. rewrite bool_decide_false by done. done.
Qed.
End accepted.
