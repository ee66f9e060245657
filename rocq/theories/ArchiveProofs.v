(** The archive of a record and its receiving chains: C08, C09. *)
From Verif Require Import PyBase Wire Protos ProtoFacts Crypto Ecc Kdf Messages State Prog Ratchet Builder Cipher Groups Helper.
From Verif Require Import ProgFacts StateFacts UtilFacts HelperFacts MsgFacts CipherFacts DecryptFacts SpecSession SessionProofs LockoutProofs SpecApi InvFacts HistoryProofs.

(** ** A program logic for how records change *)

(** The record of which session was loaded last and not stored since. *)
Definition held := option (Z * Z * sessionRecord).

Definition after_call {R} (c : call R) (o : held) : res R -> held :=
  match c in call R return res R -> held with
  | CLoadSession r d => fun x => match x with Ok rec => Some (r, d, rec) | Err _ => None end
  | CStoreSession _ _ _ => fun _ => None
  | _ => fun _ => o
  end.

(** Every record stored evolved from the one last loaded for the same peer. *)
Fixpoint tspec {A} (o : held) (p : prog A) (Q : held -> A -> Prop) : Prop :=
  match p with
  | Ret a => Q o a
  | Raise _ => True
  | Call c k =>
      (match c with
       | CStoreSession r d rec' => exists rec, o = Some (r, d, rec) /\ rtc evolves rec rec'
       | _ => True end) /\
      forall x, resp_ok loaded_inv c x -> tspec (after_call c o x) (k x) Q
  end.

Lemma tspec_bind {A B} o (p : prog A) (f : A -> prog B) Q R :
  tspec o p Q -> (forall o a, Q o a -> tspec o (f a) R) -> tspec o (p ≫= f) R.
Proof.
  intros Hp Hf. revert o Hp. induction p as [a|e|T c k IH]; intros o Hp; [by apply Hf|done|].
  destruct Hp as [Hc Hk]. split; [done|]. intros x Hx. apply IH. by apply Hk.
Qed.
Lemma tspec_mono {A} o (p : prog A) (Q R : held -> A -> Prop) : tspec o p Q -> (forall o a, Q o a -> R o a) -> tspec o p R.
Proof.
  intros Hp Hf. revert o Hp. induction p as [a|e|T c k IH]; intros o Hp; [by apply Hf|done|].
  destruct Hp as [Hc Hk]. split; [done|]. intros x Hx. apply IH. by apply Hk.
Qed.
Lemma tspec_catch {A} o (p : prog A) h Q : tspec o p Q -> (forall o e, tspec o (h e) Q) -> tspec o (catch p h) Q.
Proof.
  intros Hp Hh. revert o Hp. induction p as [a|e|T c k IH]; intros o Hp; [done|apply Hh|].
  destruct Hp as [Hc Hk]. split; [done|]. intros x Hx. apply IH. by apply Hk.
Qed.
Lemma tspec_rethrow {A} o sel e' (p : prog A) Q : tspec o p Q -> tspec o (rethrow sel e' p) Q.
Proof. intros H. apply tspec_catch; [done|]. intros ? e. by destruct (sel e). Qed.
Lemma tspec_load o r d : tspec o (do (CLoadSession r d)) (fun o' rec => o' = Some (r, d, rec) /\ loaded_inv rec).
Proof. split; [done|]. intros [rec|e] Hx; cbn; done. Qed.
Lemma tspec_store r d rec rec' : rtc evolves rec rec' -> tspec (Some (r, d, rec)) (do (CStoreSession r d rec')) (fun _ _ => True).
Proof. intros H. split; [by exists rec|]. intros [x|e] Hx; cbn; done. Qed.

(** Programs that neither load nor store sessions. *)
Fixpoint nosession {A} (p : prog A) : Prop :=
  match p with
  | Ret a => True
  | Raise _ => True
  | Call c k => (match c with CStoreSession _ _ _ | CLoadSession _ _ => False | _ => True end) /\ forall x, nosession (k x)
  end.
Lemma nosession_bind {A B} (p : prog A) (f : A -> prog B) : nosession p -> (forall a, nosession (f a)) -> nosession (p ≫= f).
Proof.
  intros Hp Hf. induction p as [a|e|R c k IH]; [apply Hf|done|].
  destruct Hp as [Hc Hk]. split; [done|]. intros r. by apply IH.
Qed.
Lemma nosession_catch {A} (p : prog A) h : nosession p -> (forall e, nosession (h e)) -> nosession (catch p h).
Proof.
  intros Hp Hh. induction p as [a|e|R c k IH]; [done|apply Hh|].
  destruct Hp as [Hc Hk]. split; [done|]. intros r. by apply IH.
Qed.
Lemma nosession_lift {A} (r : res A) : nosession (lift r).
Proof. by destruct r. Qed.
Lemma nosession_do {R} (c : call R) :
  (match c with CStoreSession _ _ _ | CLoadSession _ _ => False | _ => True end) -> nosession (do c).
Proof. intros. split; [done|]. intros. apply nosession_lift. Qed.
Lemma nosession_if {A} (b : bool) (p q : prog A) : nosession p -> nosession q -> nosession (if b then p else q).
Proof. by destruct b. Qed.
(** They may be reasoned about with the logic for stored records. *)
Lemma tspec_nosession {A} o (p : prog A) (Q : A -> Prop) :
  nosession p -> pspec loaded_inv record_inv p Q -> tspec o p (fun o' a => o' = o /\ Q a).
Proof.
  intros Hn Hp. induction p as [a|e|R c k IH]; [done|done|]. destruct Hn as [Hc Hk], Hp as [_ Hp].
  split; [by destruct c|]. intros x Hx.
  replace (after_call c o x) with o by (by destruct c). apply IH; [done|by apply Hp].
Qed.
Lemma tspec_free {A} o (p : prog A) : nosession p -> tspec o p (fun o' a => o' = o).
Proof.
  intros Hn. induction p as [a|e|R c k IH]; [done|done|]. destruct Hn as [Hc Hk].
  split; [by destruct c|]. intros x Hx.
  replace (after_call c o x) with o by (by destruct c). by apply IH.
Qed.

(** ** Soundness *)

Lemma evolves_reload rec0 rec : rtc evolves rec0 rec -> rtc evolves rec0 (SessionRecord false (sr_state rec) (sr_previous rec)).
Proof. intros H. eapply rtc_r; [exact H|]. by apply evolves_current. Qed.

Definition evolved (w0 w : world) : Prop :=
  forall r d rec0, session_at w0 r d = Ok rec0 -> exists rec, session_at w r d = Ok rec /\ rtc evolves rec0 rec.
Definition holding (w : world) (o : held) : Prop :=
  match o with Some (r, d, rec) => session_at w r d = Ok rec | None => True end.

Lemma evolved_refl w : evolved w w.
Proof. intros r d rec H. by exists rec. Qed.

Lemma evolved_step {R} (c : call R) o w0 w :
  stored_ok loaded_inv w -> call_ok record_inv c ->
  (match c with CStoreSession r d rec' => exists rec, o = Some (r, d, rec) /\ rtc evolves rec rec' | _ => True end) ->
  evolved w0 w -> holding w o ->
  evolved w0 (step_call c w).2 /\ holding (step_call c w).2 (after_call c o (step_call c w).1).
Proof.
  intros Hw Hc Ho He Hh. destruct c; cbn [step_call fst snd after_call]; try (split; done).
  - split; [done|]. destruct (w_sessions w !! (recipient, device)) as [bs|] eqn:E; cbn; [destruct (sr_deserialize bs) eqn:Eb|];
      cbn; unfold session_at; rewrite ?E; done.
  - destruct Ho as (rec & -> & Hr). split; [|done]. intros r' d' rec0 H0.
    destruct (He _ _ _ H0) as (rec1 & H1 & H2). cbn in Hh.
    destruct (decide ((r', d') = (recipient, device))) as [[= -> ->]|Hne].
    + rewrite Hh in H1. injection H1 as ->.
      exists (SessionRecord false (sr_state r) (sr_previous r)). split; [apply session_stored; by apply Hc|].
      apply evolves_reload. by etrans.
    + exists rec1. split; [|done]. unfold session_at in *. cbn [w_set_sessions w_sessions].
      by rewrite lookup_insert_ne by congruence.
Qed.

Lemma evolved_run {A} (p : prog A) P Q o w0 w :
  stored_ok loaded_inv w -> pspec loaded_inv record_inv p P -> tspec o p Q -> evolved w0 w -> holding w o ->
  evolved w0 (run p w).2.
Proof.
  revert o w. induction p as [a|e|R c k IH]; intros o w Hw Hp Ht He Hh; [done..|].
  destruct Hp as [Hc Hp], Ht as [Hc' Ht].
  destruct (step_ok loaded_inv record_inv loaded_inv_new ltac:(by intros ? []) record_inv_fresh c w Hw Hc) as [Hr Hw'].
  destruct (evolved_step c o w0 w Hw Hc Hc' He Hh) as [He' Hh'].
  cbn [run]. destruct (step_call c w) as [x w']. eapply IH; [done|by apply Hp|by apply Ht|done|done].
Qed.
Lemma evolved_crash {A} n (p : prog A) P Q o w0 w :
  stored_ok loaded_inv w -> pspec loaded_inv record_inv p P -> tspec o p Q -> evolved w0 w -> holding w o ->
  evolved w0 (run_crash n p w).2.
Proof.
  revert n o w. induction p as [a|e|R c k IH]; intros n o w Hw Hp Ht He Hh; [done..|].
  destruct Hp as [Hc Hp], Ht as [Hc' Ht]. destruct n as [|n]; [done|].
  destruct (step_ok loaded_inv record_inv loaded_inv_new ltac:(by intros ? []) record_inv_fresh c w Hw Hc) as [Hr Hw'].
  destruct (evolved_step c o w0 w Hw Hc Hc' He Hh) as [He' Hh'].
  cbn [run_crash]. destruct (step_call c w) as [x w']. eapply IH; [done|by apply Hp|by apply Ht|done|done].
Qed.

(** ** The calls *)

Lemma evolves_set rec s : rtc evolves rec (sr_setState s rec).
Proof. apply rtc_once. by apply evolves_current. Qed.
Lemma evolves_archived rec : record_inv rec -> rtc evolves rec (archiveUnlessFresh rec).
Proof.
  intros (_ & Hl & _). unfold archiveUnlessFresh. destruct (sr_fresh rec); [done|]. apply rtc_once, evolves_archive.
  unfold sr_archiveCurrentState, sr_promoteState, ARCHIVED_STATES_MAX_LENGTH. cbn [sr_previous length]. case_match eqn:E.
  - apply Nat.ltb_lt in E. f_equal. lia.
  - apply Nat.ltb_ge in E. by rewrite take_ge by (cbn [length]; lia).
Qed.
Lemma evolves_decrypted C rec m pt rec' : record_inv rec -> decrypted C rec m pt rec' -> rtc evolves rec rec'.
Proof.
  intros (_ & Hl & _) (j & s & ek & s' & Hj & _ & ->). apply rtc_once.
  apply (evolves_promote _ _ j s'); [by eapply lookup_lt_Some|].
  change (states ?r) with (sr_states r). rewrite (record_after_states _ _ _ _ Hl Hj). by rewrite delete_take_drop.
Qed.

Section calls.
Context (C : crypto).
Notation top := (fun _ _ => True).

Ltac nss := repeat first
  [ apply nosession_lift | by apply nosession_do | exact I | apply nosession_bind; [|intros ?]
  | apply nosession_catch; [|intros ?] | apply nosession_if ].
Lemma nosession_decryptWithSessionRecord rec m : nosession (decryptWithSessionRecord C rec m).
Proof.
  unfold decryptWithSessionRecord, decryptWithSessionState, getOrCreateChainKey, generateKeyPair. nss.
  generalize 0 as i. induction (sr_previous rec) as [|s l IH]; intros i; [done|]. cbn [decryptWithPrevious].
  unfold decryptWithSessionState, getOrCreateChainKey, generateKeyPair. nss. apply IH.
Qed.
Lemma nosession_asAlice s a b c d e f : nosession (initializeSessionAsAlice C s a b c d e f).
Proof. unfold initializeSessionAsAlice, generateKeyPair. nss. Qed.
Lemma nosession_initializeSession s a b c d e f : nosession (initializeSession C s a b c d e f).
Proof. unfold initializeSession, initializeSessionAsAlice, generateKeyPair. nss. Qed.
Lemma nosession_processV3 rec m : nosession (processV3 C rec m).
Proof. unfold processV3. nss. destruct (pPreKeyId m); nss. Qed.

(** The record processV3 returns. *)
Lemma pspec_processV3_evolves rec m :
  loaded_inv rec -> pspec loaded_inv record_inv (processV3 C rec m) (fun x => rtc evolves rec x.1).
Proof.
  intros [Hi _]. unfold processV3. destruct (sr_hasSessionState _ _ _); [apply rtc_refl|].
  eapply pspec_bind; [by apply (pspec_do loaded_inv record_inv (CLoadSignedPreKey _))|]. intros spr _.
  eapply pspec_bind; [apply pspec_lift_eq|]. intros spk _.
  eapply pspec_bind; [by apply (pspec_do loaded_inv record_inv CGetIdentityKeyPair)|]. intros id _.
  eapply (pspec_bind _ _ _ _ (fun _ => True)).
  { destruct (pPreKeyId m); [|done]. eapply pspec_bind; [by apply (pspec_do loaded_inv record_inv (CLoadPreKey _))|]. intros pr _.
    eapply pspec_bind; [apply pspec_lift_eq|]. done. }
  intros otpk _. set (rec' := archiveUnlessFresh rec) in *.
  eapply pspec_bind; [apply pspec_lift_eq|]. intros s _.
  eapply pspec_bind; [by apply (pspec_do loaded_inv record_inv CGetLocalRegistrationId)|]. intros reg _.
  eapply pspec_bind; [apply pspec_lift_eq|]. intros s1 _.
  eapply pspec_bind; [apply pspec_lift_eq|]. intros s2 _. cbn [fst].
  cbn [pspec fst]. etrans; [apply (evolves_archived _ Hi)|apply evolves_set].
Qed.

Lemma tspec_decryptMsg o r d m : tspec o (decryptMsg C r d m) top.
Proof.
  eapply tspec_bind; [apply tspec_free; by apply nosession_do|]. intros ? [] ->; [|done].
  eapply tspec_bind; [apply tspec_load|]. intros ? rec [-> [Hrec _]].
  eapply tspec_bind; [apply tspec_nosession; [apply nosession_decryptWithSessionRecord|apply pspec_decryptWithSessionRecord]|].
  intros ? x [-> Hx]. cbn beta in Hx.
  eapply tspec_bind; [apply tspec_store; exact (evolves_decrypted C _ _ _ _ Hrec Hx)|]. done.
Qed.

Lemma tspec_encrypt o r d pt : tspec o (encrypt C r d pt) top.
Proof.
  eapply tspec_bind; [apply tspec_load|]. intros ? rec [-> Hrec].
  eapply tspec_bind; [apply tspec_free; by apply nosession_lift|]. intros ? x ->.
  eapply tspec_bind; [apply tspec_store, evolves_set|done].
Qed.

Lemma tspec_decryptPkmsg o r d m : tspec o (decryptPkmsg C r d m) top.
Proof.
  eapply tspec_bind; [apply tspec_load|]. intros ? rec [-> Hrec].
  eapply (tspec_bind _ _ _ (fun o x => o = Some (r, d, rec) /\ record_inv x.1 /\ rtc evolves rec x.1)).
  { unfold builder_process. eapply tspec_bind; [apply tspec_free; by apply nosession_do|]. intros ? [] ->; [|done].
    eapply tspec_bind.
    { apply tspec_nosession; [apply nosession_processV3|].
      pose proof (spec_processV3 C rec m Hrec) as H1. pose proof (pspec_processV3_evolves rec m Hrec) as H2.
      instantiate (1 := fun x => record_inv x.1 /\ rtc evolves rec x.1).
      revert H1 H2. generalize (processV3 C rec m). clear. induction p as [a|e|R c k IH]; [done..|].
      intros [H1 H1'] [_ H2']. split; [done|]. intros x Hx. apply IH; auto. }
    intros ? x [-> Hx]. cbn beta in Hx.
    eapply tspec_bind; [apply tspec_free; by apply nosession_do|]. by intros ? [] ->. }
  intros ? x (-> & Hx1 & Hx2).
  eapply tspec_bind; [apply tspec_nosession; [apply nosession_decryptWithSessionRecord|apply pspec_decryptWithSessionRecord]|].
  intros ? y [-> Hy]. cbn beta in Hy.
  eapply tspec_bind; [apply tspec_store; etrans; [exact Hx2|exact (evolves_decrypted C _ _ _ _ Hx1 Hy)]|]. intros ? ? _.
  destruct (x.2) as [i|]; [|done]. eapply tspec_bind; [apply tspec_free; by apply nosession_do|done].
Qed.

Ltac free := eapply tspec_bind; [apply tspec_free; nss|]; intros ? ? ->.

Lemma tspec_bundle o r d b : tspec o (processPreKeyBundle C r d b) top.
Proof.
  unfold processPreKeyBundle, generateKeyPair. eapply tspec_bind; [apply tspec_free; by apply nosession_do|]. intros ? [] ->; [|done].
  destruct (bu_signedPreKey b) as [spk|]; [|done].
  eapply tspec_bind; [apply tspec_free; nss|]. intros ? [] ->; [|done].
  eapply tspec_bind; [apply tspec_load|]. intros ? rec [-> [Hrec _]].
  do 2 free. eapply tspec_bind; [apply tspec_free, nosession_asAlice|]. intros ? s ->.
  do 4 free.
  eapply tspec_bind; [apply tspec_store; etrans; [apply (evolves_archived _ Hrec)|apply evolves_set]|]. intros ? ? _.
  eapply tspec_mono; [apply tspec_free; nss|done].
Qed.

Lemma tspec_processInitiate o r d m : tspec o (processInitiate C r d m) top.
Proof.
  unfold processInitiate, generateKeyPair, calculateSignature. eapply tspec_bind; [apply tspec_load|]. intros ? rec [-> [Hrec _]].
  eapply tspec_bind; [apply tspec_free; nss|]. intros ? [] ->; [|done].
  eapply tspec_bind; [apply tspec_free; nss|]. intros ? [[[id base] rat] fl] ->.
  eapply tspec_bind; [apply tspec_free, nosession_initializeSession|]. intros ? s ->.
  eapply tspec_bind; [apply tspec_store; etrans; [apply (evolves_archived _ Hrec)|apply evolves_set]|]. intros ? ? _.
  do 2 free. eapply tspec_mono; [apply tspec_free; nss|done].
Qed.

Lemma tspec_processResponse o r d m : tspec o (processResponse C r d m) top.
Proof.
  unfold processResponse. eapply tspec_bind; [apply tspec_load|]. intros ? rec [-> [Hrec _]].
  destruct (_ || _); [by destruct (kx_isResponseForSimultaneousInitiate m)|].
  do 3 free. eapply tspec_bind; [apply tspec_free, nosession_initializeSession|]. intros ? s ->.
  eapply tspec_bind; [apply tspec_free; nss|]. intros ? [] ->; [|done].
  eapply tspec_bind; [apply tspec_store; etrans; [apply (evolves_archived _ Hrec)|apply evolves_set]|]. intros ? ? _.
  eapply tspec_mono; [apply tspec_free; nss|done].
Qed.

Lemma tspec_kx o r d m : tspec o (processKeyExchangeMessage C r d m) top.
Proof.
  unfold processKeyExchangeMessage. eapply tspec_bind; [apply tspec_free; by apply nosession_do|]. intros ? [] ->; [|done].
  destruct (kx_isInitiate m); (eapply tspec_bind; [apply tspec_processInitiate || apply tspec_processResponse|done]).
Qed.

Lemma tspec_initKx o r d : tspec o (processInitKeyExchangeMessage C r d) top.
Proof.
  unfold processInitKeyExchangeMessage, generateKeyPair, calculateSignature. apply tspec_rethrow.
  do 5 free. eapply tspec_bind; [apply tspec_load|]. intros ? rec [-> [Hrec _]]. free.
  eapply tspec_bind; [apply tspec_store, evolves_set|]. intros ? ? _. eapply tspec_mono; [apply tspec_free; nss|done].
Qed.

Lemma nosession_group_decrypt n b : nosession (group_decrypt C n b).
Proof.
  unfold group_decrypt, rethrow. nss.
  - destruct a; nss.
Qed.
Lemma nosession_group_encrypt n b : nosession (group_encrypt C n b).
Proof. unfold group_encrypt, rethrow, calculateSignature. nss. Qed.
Lemma nosession_group_process n m : nosession (group_process n m).
Proof. unfold group_process. nss. Qed.
Lemma nosession_group_create n : nosession (group_create C n).
Proof.
  unfold group_create, rethrow, generateKeyPair, getRandomSequence. nss; destruct a; nss.
Qed.

Lemma tspec_api c : tspec None (api C c) top.
Proof.
  destruct c; cbn [api]; try (eapply tspec_bind; [|done]).
  - apply tspec_bundle.
  - apply tspec_initKx.
  - apply tspec_kx.
  - apply tspec_encrypt.
  - apply tspec_decryptMsg.
  - apply tspec_decryptPkmsg.
  - apply tspec_free, nosession_group_create.
  - eapply tspec_mono; [apply tspec_free, nosession_group_process|done].
  - apply tspec_free, nosession_group_encrypt.
  - apply tspec_free, nosession_group_decrypt.
Qed.

(** ** C09 *)

Lemma step_evolves w w' r d rec :
  reachable C w -> step C w w' -> session_at w r d = Ok rec ->
  exists rec', session_at w' r d = Ok rec' /\ rtc evolves rec rec'.
Proof.
  intros Hr Hs. apply reachable_inv in Hr. revert r d rec. change (evolved w w'). destruct Hs.
  - eapply evolved_run; [done|apply spec_api|apply tspec_api|apply evolved_refl|done].
  - eapply evolved_crash; [done|apply spec_api|apply tspec_api|apply evolved_refl|done].
  - exact (evolved_refl w).
  - exact (evolved_refl w).
  - exact (evolved_refl w).
Qed.

Lemma archived_at_most_40 w r d rec : reachable C w -> session_at w r d = Ok rec -> length (sr_previous rec) <= 40.
Proof. intros Hr H. by apply (reachable_inv _ _ Hr) in H as [(_ & H & _) _]. Qed.

Lemma archive_of_eq rec : loaded_inv rec -> sr_previous (archiveUnlessFresh rec) = archive_of rec.
Proof.
  intros [(_ & Hl & _) Hf]. unfold archive_of, archiveUnlessFresh. destruct (sr_fresh rec); [by rewrite Hf|].
  unfold sr_archiveCurrentState, sr_promoteState, ARCHIVED_STATES_MAX_LENGTH. cbn [sr_previous length]. case_match eqn:E.
  - apply Nat.ltb_lt in E. unfold states. f_equal. lia.
  - apply Nat.ltb_ge in E. unfold states. by rewrite take_ge by (cbn [length]; lia).
Qed.
Lemma stored_archive rec s w r d :
  loaded_inv rec -> good s ->
  exists rec', session_at (w_set_sessions (<[(r, d) := sr_serialize (sr_setState s (archiveUnlessFresh rec))]> (w_sessions w)) w) r d = Ok rec' /\
    sr_previous rec' = archive_of rec.
Proof.
  intros Hl Hg. eexists. split.
  - apply session_stored. eapply proj1. eapply good_set; [|exact Hg]. apply record_inv_archive, Hl.
  - cbn [sr_previous sr_setState]. by apply archive_of_eq.
Qed.
Lemma run_keeps_ok {A} (p : prog A) Q w a w' :
  pspec loaded_inv record_inv p Q -> readonly p -> stored_ok loaded_inv w -> run p w = (Ok a, w') ->
  Q a /\ stored_ok loaded_inv w' /\ same_stores w w'.
Proof.
  intros Hp Hr Hw H. destruct (run_keeps _ _ _ Hp Hw) as [H1 H2]. rewrite H in H1, H2. split_and!; [by apply H2|done|].
  by eapply run_readonly_eq.
Qed.

Lemma same_session w w' r d : same_stores w w' -> session_at w' r d = session_at w r d.
Proof. intros (H & _). unfold session_at. by rewrite H. Qed.
Lemma stored_same w w' : same_stores w w' -> stored_ok loaded_inv w -> stored_ok loaded_inv w'.
Proof. intros Hs Hw r d rec. rewrite (same_session _ _ _ _ Hs). apply Hw. Qed.

Lemma bundle_archives r d b w w' rec :
  stored_ok loaded_inv w -> session_at w r d = Ok rec -> run (processPreKeyBundle C r d b) w = (Ok tt, w') ->
  exists rec', session_at w' r d = Ok rec' /\ sr_previous rec' = archive_of rec.
Proof.
  intros Hw Hrec H. unfold processPreKeyBundle in H.
  apply run_bind_ok in H as (t & w0 & H0 & H). rewrite run_do in H0. injection H0 as _ <-. destruct t; [|done].
  destruct (bu_signedPreKey b) as [spk|]; [|done].
  apply run_bind_ok in H as (t & w0 & H0 & H). rewrite run_lift in H0. injection H0 as _ <-. destruct t; [|done].
  apply run_bind_ok in H as (rec0 & w0 & H0 & H). rewrite run_do, load_session, Hrec in H0. injection H0 as <- <-.
  apply run_bind_ok in H as (base & w1 & H0 & H).
  assert (same_stores w w1) as S1 by (by eapply run_readonly_eq; [apply readonly_generateKeyPair|]).
  apply run_bind_ok in H as (id & w2 & H0' & H). rewrite run_do in H0'. injection H0' as _ <-.
  pose proof (Hw _ _ _ Hrec) as Hl. pose proof (stored_same _ _ S1 Hw) as Hw1.
  apply run_bind_ok in H as (s & w2 & Hs & H).
  apply (run_keeps_ok _ good) in Hs as (Hg & Hw2 & S2);
    [|by apply spec_asAlice, good0_archived|apply readonly_initializeSessionAsAlice|done].
  apply run_bind_ok in H as (s1 & w3 & Hs1 & H). rewrite run_lift in Hs1. injection Hs1 as Hs1 <-.
  apply run_bind_ok in H as (reg & w3 & Hr & H). rewrite run_do in Hr. injection Hr as _ <-.
  apply run_bind_ok in H as (s2 & w3 & Hs2 & H). rewrite run_lift in Hs2. injection Hs2 as Hs2 <-.
  apply run_bind_ok in H as (s3 & w3 & Hs3 & H). rewrite run_lift in Hs3. injection Hs3 as Hs3 <-.
  rewrite run_bind, run_do in H. cbn [step_call] in H. rewrite run_do in H. injection H as <-.
  assert (good (st_setAliceBaseKey (pub_serialize (kp_pub base)) s3)) as Hg3.
  { destruct Hg as [Hs Hi]. split.
    - apply st_setAliceBaseKey_wf. eapply st_setRemoteRegistrationId_wf; [|done]. eapply st_setLocalRegistrationId_wf; [|done].
      by eapply st_setUnacknowledgedPreKeyMessage_wf.
    - apply bind_ok_inv in Hs3 as (? & _ & [= <-]). apply bind_ok_inv in Hs2 as (? & _ & [= <-]).
      apply bind_ok_inv in Hs1 as (? & _ & Hs1). by apply bind_ok_inv in Hs1 as (? & _ & [= <-]). }
  destruct (stored_archive rec _ w2 r d Hl Hg3) as (rec' & H1 & H2). by exists rec'.
Qed.

Lemma initiate_archives r d m w x w' rec :
  stored_ok loaded_inv w -> session_at w r d = Ok rec -> kx_isInitiate m = true ->
  run (processKeyExchangeMessage C r d m) w = (Ok x, w') ->
  exists rec', session_at w' r d = Ok rec' /\ sr_previous rec' = archive_of rec.
Proof.
  intros Hw Hrec Hm H. unfold processKeyExchangeMessage in H. rewrite Hm in H.
  apply run_bind_ok in H as (t & w0 & H0 & H). rewrite run_do in H0. injection H0 as _ <-. destruct t; [|done].
  apply run_bind_ok in H as (y & w0 & H & Hx). injection Hx as _ <-. unfold processInitiate in H.
  apply run_bind_ok in H as (rec0 & w1 & H0 & H). rewrite run_do, load_session, Hrec in H0. injection H0 as <- <-.
  apply run_bind_ok in H as (t & w1 & H0 & H). rewrite run_lift in H0. injection H0 as _ <-. destruct t; [|done].
  apply run_bind_ok in H as ([[[id base] rat] fl] & w1 & H0 & H).
  assert (same_stores w w1) as S1 by (eapply run_readonly_eq; [|exact H0]; apply readonly_if; ro).
  pose proof (Hw _ _ _ Hrec) as Hl. pose proof (stored_same _ _ S1 Hw) as Hw1.
  apply run_bind_ok in H as (s & w2 & Hs & H).
  apply (run_keeps_ok _ good) in Hs as (Hg & Hw2 & S2);
    [|by apply spec_initializeSession, good0_archived|apply readonly_initializeSession|done].
  rewrite run_bind, run_do in H. cbn [step_call] in H. rewrite run_bind, run_do in H. cbn [step_call] in H.
  destruct (stored_archive rec _ w2 r d Hl Hg) as (rec' & H1 & H2). exists rec'. split; [|done]. rewrite <- H1.
  apply run_readonly_eq in H; [by apply (same_session _ _ r d) in H|]. ro.
Qed.

Lemma response_archives r d m w x w' rec :
  stored_ok loaded_inv w -> session_at w r d = Ok rec -> kx_isInitiate m = false ->
  (exists p, ss_pendingKeyExchange (sr_state rec) = Some p /\ default 0%N (px_sequence p) = xSequence m) ->
  run (processKeyExchangeMessage C r d m) w = (Ok x, w') ->
  exists rec', session_at w' r d = Ok rec' /\ sr_previous rec' = archive_of rec.
Proof.
  intros Hw Hrec Hm (p & Hp & Hq) H. unfold processKeyExchangeMessage in H. rewrite Hm in H.
  apply run_bind_ok in H as (t & w0 & H0 & H). rewrite run_do in H0. injection H0 as _ <-. destruct t; [|done].
  apply run_bind_ok in H as (y & w0 & H & Hx). injection Hx as _ <-. unfold processResponse in H.
  apply run_bind_ok in H as (rec0 & w1 & H0 & H). rewrite run_do, load_session, Hrec in H0. injection H0 as <- <-.
  assert (negb (st_hasPendingKeyExchange (sr_state rec)) ||
          negb (st_getPendingKeyExchangeSequence (sr_state rec) =? xSequence m)%N = false) as E.
  { unfold st_hasPendingKeyExchange, st_getPendingKeyExchangeSequence, st_pendingKeyExchange.
    rewrite Hp. change (default px_empty (Some p)) with p. by rewrite Hq, N.eqb_refl. }
  cbv zeta in H. rewrite E in H.
  do 3 (apply run_bind_ok in H as (? & w1 & H0 & H); rewrite run_lift in H0; injection H0 as _ <-).
  pose proof (Hw _ _ _ Hrec) as Hl.
  apply run_bind_ok in H as (s & w2 & Hs & H).
  apply (run_keeps_ok _ good) in Hs as (Hg & Hw2 & S2);
    [|by apply spec_initializeSession, good0_archived|apply readonly_initializeSession|done].
  apply run_bind_ok in H as (t & w1 & H0 & H). rewrite run_lift in H0. injection H0 as _ <-. destruct t; [|done].
  rewrite run_bind, run_do in H. cbn [step_call] in H. rewrite run_do in H. injection H as _ <-.
  destruct (stored_archive rec _ w2 r d Hl Hg) as (rec' & H1 & H2). by exists rec'.
Qed.

Lemma pkmsg_archives r d m w pt w' rec :
  stored_ok loaded_inv w -> session_at w r d = Ok rec -> ~ belongs rec (pVersion m) (pBaseKey m) ->
  run (decryptPkmsg C r d m) w = (Ok pt, w') ->
  exists rec' s s' i, session_at w' r d = Ok rec' /\ i <= length (archive_of rec) /\
    states rec' = s' :: take i (s :: archive_of rec) ++ drop (S i) (s :: archive_of rec).
Proof.
  intros Hw Hrec Hb (rec0 & rec1 & used & w1 & rec2 & w2 & Hrec0 & Ht & HV & Hs1 & Hd & Hs2 & ->)%decryptPkmsg_ok.
  rewrite Hrec in Hrec0. injection Hrec0 as <-. pose proof (Hw _ _ _ Hrec) as Hl.
  pose proof (processV3_inv C _ _ _ _ _ _ Hw Hl HV) as Hi1.
  pose proof (pspec_run _ _ _ _ _ (pspec_decryptWithSessionRecord C _ _ rec1 (pMessage m)) Hd) as Hdec.
  cbn [fst snd] in Hdec. pose proof (decrypted_inv C _ _ _ _ Hi1 Hdec) as Hi2.
  destruct Hdec as (j & s & ek & s' & Hj & _ & ->). destruct Hi1 as (_ & Hl1 & _).
  assert (states rec1 = sr_state rec1 :: archive_of rec) as E.
  { unfold processV3 in HV. destruct (sr_hasSessionState _ _ _) eqn:E; [by apply hasSessionState_spec in E|].
    do 8 (apply run_bind_ok in HV as (? & ? & _ & HV)). injection HV as <- _ _.
    unfold states. cbn [sr_state sr_setState sr_previous]. by rewrite archive_of_eq. }
  exists (SessionRecord false (sr_state (record_after j s' rec1)) (sr_previous (record_after j s' rec1))), (sr_state rec1), s', j.
  split_and!.
  - pose proof (session_stored w2 r d _ (proj1 Hi2)) as Hss. by destruct used.
  - apply lookup_lt_Some in Hj. change (sr_states rec1) with (states rec1) in Hj. rewrite E in Hj. cbn [length] in Hj. lia.
  - change (states (SessionRecord false ?a ?b)) with (sr_states (record_after j s' rec1)).
    rewrite (record_after_states _ _ _ _ Hl1 Hj). change (sr_states rec1) with (states rec1). rewrite E. by rewrite delete_take_drop.
Qed.

(** ** C08 *)

Lemma chains_at_most_5 w r d rec s :
  reachable C w -> session_at w r d = Ok rec -> s ∈ states rec -> length (ss_receiverChains s) <= 5.
Proof.
  intros Hr H Hs. apply (reachable_inv _ _ Hr) in H as [(_ & _ & H) _].
  rewrite Forall_forall in H. by apply H in Hs as [? _].
Qed.

Lemma decryptPure_chains s m ek pt s' :
  length (ss_receiverChains s) <= 5 -> decryptPure C s m ek = Ok (pt, s') ->
  (exists j c c', ss_receiverChains s !! j = Some c /\ ch_ratchetKey c' = ch_ratchetKey c /\
     ss_receiverChains s' = <[j := c']> (ss_receiverChains s)) \/
  ((forall c, c ∈ ss_receiverChains s -> ch_ratchetKey c <> Some (x05 :: wRatchetKey m)) /\
   exists c', ch_ratchetKey c' = Some (x05 :: wRatchetKey m) /\
     ss_receiverChains s' = (if decide (length (ss_receiverChains s) = 5) then drop 1 (ss_receiverChains s)
                             else ss_receiverChains s) ++ [c']).
Proof.
  intros Hl (Hsc & Hv & kdf & c & j & s1 & c' & Hkdf & Hstep & Hf & Ho & ->)%decryptPure_ok_inv.
  destruct (openWith_inv C _ _ _ _ _ _ Ho) as (mk & Hmk).
  assert (ch_ratchetKey c' = ch_ratchetKey c) as Hr.
  { unfold chainTake in Hmk. destruct (_ <? _)%N.
    - destruct (take_messageKey _ _) as [[]|]; [|done]. by injection Hmk as _ <-.
    - destruct (_ <? _)%N; [done|]. destruct (_ <? _)%N; [|done]. by injection Hmk as _ <-. }
  cbn [ss_receiverChains st_clearUnacknowledgedPreKeyMessage ss_set_pendingPreKey st_putReceiverChain ss_set_receiverChains].
  apply chainStep_inv in Hstep as (kdf' & c0 & j' & _ & Hf' & _ & [->|(Hn & Hk & our & x & y & _ & _ & _ & Hc0 & ->)]).
  { left. exists j, c, c'. split_and!; [by eapply find_chain_lookup|done|done]. }
  right. rewrite Hf in Hf'. injection Hf' as <- <-. split.
  { intros c1 Hc1 Hr1. apply find_chain_none in Hn. rewrite Forall_forall in Hn. destruct (Hn _ Hc1) as (k & Hk1 & Hk2).
    unfold chain_pub in Hk1. rewrite Hr1, default_Some in Hk1. change (x05 :: ?k) with (pub_serialize k) in Hk1.
    rewrite decodePoint_serialize in Hk1 by lia. congruence. }
  exists c'. split; [by rewrite Hr, Hc0|].
  cbn [steppedState ss_receiverChains ss_set_senderChain ss_set_previousCounter ss_set_receiverChains ss_set_rootKey] in *.
  rewrite find_trim in Hf; [|done|by apply newChain_pub]. injection Hf as _ <-.
  assert (trimChains (ss_receiverChains s ++ [newChain (wRatchetKey m) x.2]) =
    (if decide (length (ss_receiverChains s) = 5) then drop 1 (ss_receiverChains s) else ss_receiverChains s) ++ [newChain (wRatchetKey m) x.2]) as ->.
  { unfold trimChains. rewrite app_length. cbn [length]. destruct (decide _) as [E|E].
    - rewrite E. cbn [Nat.add Nat.ltb Nat.leb]. by rewrite drop_app_le by lia.
    - rewrite (proj2 (Nat.ltb_ge _ _)) by lia. done. }
  rewrite app_length. cbn [length]. rewrite Nat.add_sub. by rewrite insert_app_r_alt, Nat.sub_diag.
Qed.

Lemma chains_after s m w pt s' :
  length (ss_receiverChains s) <= 5 -> (run (decryptWithSessionState C s m) w).1 = Ok (pt, s') ->
  (exists j c c', ss_receiverChains s !! j = Some c /\ ch_ratchetKey c' = ch_ratchetKey c /\
     ss_receiverChains s' = <[j := c']> (ss_receiverChains s)) \/
  ((forall c, c ∈ ss_receiverChains s -> ch_ratchetKey c <> Some (x05 :: wRatchetKey m)) /\
   exists c', ch_ratchetKey c' = Some (x05 :: wRatchetKey m) /\
     ss_receiverChains s' = (if decide (length (ss_receiverChains s) = 5) then drop 1 (ss_receiverChains s)
                             else ss_receiverChains s) ++ [c']).
Proof.
  intros Hl H. destruct (run (decryptWithSessionState C s m) w) as [o w'] eqn:E. cbn [fst] in H. subst o.
  destruct (pspec_run _ _ _ _ _ (pspec_decryptWithSessionState C _ _ s m) E) as (ek & Hek). by eapply decryptPure_chains.
Qed.
End calls.

(** ** The statements over histories *)
Section final.
Context (C : crypto) (Hok : crypto_ok C).

Lemma hist_duplicate_msg w r d m pt w' :
  reachable C w -> run (decryptMsg C r d m) w = (Ok pt, w') ->
  exists w2, run (decryptMsg C r d m) w' = (Err EDuplicateMessage, w2) /\ unchanged w' w2.
Proof using Hok. intros Hr. apply (duplicate_msg C Hok). by apply reachable_inv in Hr. Qed.
Lemma hist_duplicate_pkmsg w r d bs m pt w' :
  reachable C w -> prekey_parse bs = Ok m -> run (decryptPkmsg C r d m) w = (Ok pt, w') ->
  exists w2, run (decryptPkmsg C r d m) w' = (Err EDuplicateMessage, w2) /\ unchanged w' w2.
Proof using Hok.
  intros Hr Hp. apply (duplicate_pkmsg C Hok); [by apply reachable_inv in Hr|by apply prekey_parse_inv in Hp as (_ & ? & _)].
Qed.

Lemma erased_everywhere rec key n :
  ~ holds_key (sr_state rec) key n ->
  (forall s, s ∈ sr_previous rec -> forall c, c ∈ ss_receiverChains s -> ch_ratchetKey c <> Some (x05 :: key)) ->
  forall s, s ∈ states rec -> ~ holds_key s key n.
Proof.
  intros H1 H2 s [->|Hs]%elem_of_cons; [done|]. intros (c & Hc & Hk & _). by apply (H2 s Hs c Hc).
Qed.
Lemma hist_erased_msg w r d m pt w' :
  reachable C w -> run (decryptMsg C r d m) w = (Ok pt, w') ->
  exists rec, session_at w' r d = Ok rec /\ ~ holds_key (sr_state rec) (wRatchetKey m) (wCounter m) /\
    ((forall s, s ∈ sr_previous rec -> forall c, c ∈ ss_receiverChains s -> ch_ratchetKey c <> Some (x05 :: wRatchetKey m)) ->
     forall s, s ∈ states rec -> ~ holds_key s (wRatchetKey m) (wCounter m)).
Proof.
  intros Hr H. apply reachable_inv in Hr. destruct (erased_msg C _ _ _ _ _ _ Hr H) as (rec & H1 & H2).
  exists rec. split_and!; [done|done|]. by apply erased_everywhere.
Qed.
Lemma hist_erased_pkmsg w r d bs m pt w' :
  reachable C w -> prekey_parse bs = Ok m -> run (decryptPkmsg C r d m) w = (Ok pt, w') ->
  exists rec, session_at w' r d = Ok rec /\
    ~ holds_key (sr_state rec) (wRatchetKey (pMessage m)) (wCounter (pMessage m)) /\
    ((forall s, s ∈ sr_previous rec -> forall c, c ∈ ss_receiverChains s -> ch_ratchetKey c <> Some (x05 :: wRatchetKey (pMessage m))) ->
     forall s, s ∈ states rec -> ~ holds_key s (wRatchetKey (pMessage m)) (wCounter (pMessage m))).
Proof.
  intros Hr (_ & Hv & _)%prekey_parse_inv H. apply reachable_inv in Hr.
  destruct (erased_pkmsg C _ _ _ _ _ _ Hr Hv H) as (rec & H1 & H2).
  exists rec. split_and!; [done|done|]. by apply erased_everywhere.
Qed.
Lemma hist_order r d m w rec :
  reachable C w -> is_Some (w_sessions w !! (r, d)) -> session_at w r d = Ok rec ->
  let '(o, w') := run (decryptMsg C r d m) w in
  (exists i s, states rec !! i = Some s /\
     (forall k s', k < i -> states rec !! k = Some s' -> answers C s' m (Err EInvalidMessage)) /\
     answers C s m o /\ o <> Err EInvalidMessage /\
     (forall pt, o = Ok pt -> exists s' w1, (run (decryptWithSessionState C s m) w1).1 = Ok (pt, s') /\
        exists rec', session_at w' r d = Ok rec' /\
          states rec' = s' :: take i (states rec) ++ drop (S i) (states rec))) \/
  ((forall k s', states rec !! k = Some s' -> answers C s' m (Err EInvalidMessage)) /\ o = Err EInvalidMessage).
Proof using Hok. intros Hr. apply (order_msg C Hok). by apply reachable_inv in Hr. Qed.
Lemma hist_crash n r d bs m w pt w' :
  reachable C w -> prekey_parse bs = Ok m ->
  (run (decryptPkmsg C r d m) w).1 = Ok pt -> (run_crash n (decryptPkmsg C r d m) w).2 = w' ->
  (run (decryptPkmsg C r d m) w').1 = Ok pt \/
  (exists w2, run (decryptPkmsg C r d m) w' = (Err EDuplicateMessage, w2) /\ unchanged w' w2).
Proof using Hok. intros Hr (_ & Hv & _)%prekey_parse_inv. apply (crash_pkmsg C Hok); [by apply reachable_inv in Hr|done]. Qed.
Lemma hist_crash_prekey n r d bs m w w' :
  reachable C w -> prekey_parse bs = Ok m -> (run_crash n (decryptPkmsg C r d m) w).2 = w' ->
  w_prekeys w' = w_prekeys w \/
  exists rec', session_at w' r d = Ok rec' /\ belongs rec' (pVersion m) (pBaseKey m).
Proof. intros Hr (_ & Hv & _)%prekey_parse_inv. apply crash_pkmsg_prekey; [by apply reachable_inv in Hr|done]. Qed.
Lemma hist_bundle_archives r d b w w' rec :
  reachable C w -> session_at w r d = Ok rec -> run (processPreKeyBundle C r d b) w = (Ok tt, w') ->
  exists rec', session_at w' r d = Ok rec' /\ sr_previous rec' = archive_of rec.
Proof. intros Hr. apply bundle_archives. by apply reachable_inv in Hr. Qed.
Lemma hist_initiate_archives r d m w x w' rec :
  reachable C w -> session_at w r d = Ok rec -> kx_isInitiate m = true ->
  run (processKeyExchangeMessage C r d m) w = (Ok x, w') ->
  exists rec', session_at w' r d = Ok rec' /\ sr_previous rec' = archive_of rec.
Proof. intros Hr. apply initiate_archives. by apply reachable_inv in Hr. Qed.
Lemma hist_response_archives r d m w x w' rec :
  reachable C w -> session_at w r d = Ok rec -> kx_isInitiate m = false ->
  (exists p, ss_pendingKeyExchange (sr_state rec) = Some p /\ default 0%N (px_sequence p) = xSequence m) ->
  run (processKeyExchangeMessage C r d m) w = (Ok x, w') ->
  exists rec', session_at w' r d = Ok rec' /\ sr_previous rec' = archive_of rec.
Proof. intros Hr. apply response_archives. by apply reachable_inv in Hr. Qed.
Lemma hist_pkmsg_archives r d m w pt w' rec :
  reachable C w -> session_at w r d = Ok rec -> ~ belongs rec (pVersion m) (pBaseKey m) ->
  run (decryptPkmsg C r d m) w = (Ok pt, w') ->
  exists rec' s s' i, session_at w' r d = Ok rec' /\ i <= length (archive_of rec) /\
    states rec' = s' :: take i (s :: archive_of rec) ++ drop (S i) (s :: archive_of rec).
Proof. intros Hr. apply pkmsg_archives. by apply reachable_inv in Hr. Qed.
End final.
