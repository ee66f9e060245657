(** An invariant of the stored session records, kept by every call even if it is killed. *)
From Verif Require Import PyBase Wire Protos ProtoFacts Crypto Ecc Kdf Messages State Prog Ratchet Builder Cipher Groups Helper.
From Verif Require Import ProgFacts StateFacts UtilFacts HelperFacts MsgFacts CipherFacts DecryptFacts SpecSession SessionProofs SpecApi PoolFacts.

(** ** A program logic for what is stored *)

Section logic.
Context (L P : sessionRecord -> Prop).

Definition resp_ok {R} (c : call R) : res R -> Prop :=
  match c in call R return res R -> Prop with
  | CLoadSession _ _ => fun x => match x with Ok rec => L rec | Err _ => True end
  | _ => fun _ => True
  end.
Definition call_ok {R} (c : call R) : Prop := match c with CStoreSession _ _ rec => P rec | _ => True end.

(** Every record stored satisfies [P] if every record loaded satisfies [L], and every
    result satisfies [Q]. *)
Fixpoint pspec {A} (p : prog A) (Q : A -> Prop) : Prop :=
  match p with
  | Ret a => Q a
  | Raise _ => True
  | Call c k => call_ok c /\ forall x, resp_ok c x -> pspec (k x) Q
  end.

Lemma pspec_bind {A B} (p : prog A) (f : A -> prog B) Q R :
  pspec p Q -> (forall a, Q a -> pspec (f a) R) -> pspec (p ≫= f) R.
Proof.
  intros Hp Hf. induction p as [a|e|T c k IH]; [by apply Hf|done|].
  destruct Hp as [Hc Hk]. split; [done|]. intros x Hx. apply IH. by apply Hk.
Qed.
Lemma pspec_mono {A} (p : prog A) (Q R : A -> Prop) : pspec p Q -> (forall a, Q a -> R a) -> pspec p R.
Proof.
  intros Hp Hf. induction p as [a|e|T c k IH]; [by apply Hf|done|].
  destruct Hp as [Hc Hk]. split; [done|]. intros x Hx. apply IH. by apply Hk.
Qed.
Lemma pspec_lift {A} (r : res A) (Q : A -> Prop) : (forall a, r = Ok a -> Q a) -> pspec (lift r) Q.
Proof. destruct r; cbn; eauto. Qed.
Lemma pspec_lift_eq {A} (r : res A) : pspec (lift r) (fun a => r = Ok a).
Proof. by apply pspec_lift. Qed.
Lemma pspec_catch {A} (p : prog A) h Q : pspec p Q -> (forall e, pspec (h e) Q) -> pspec (catch p h) Q.
Proof.
  intros Hp Hh. induction p as [a|e|T c k IH]; [done|apply Hh|].
  destruct Hp as [Hc Hk]. split; [done|]. intros x Hx. apply IH. by apply Hk.
Qed.
Lemma pspec_rethrow {A} sel e' (p : prog A) Q : pspec p Q -> pspec (rethrow sel e' p) Q.
Proof. intros H. apply pspec_catch; [done|]. intros e. by destruct (sel e). Qed.
Lemma pspec_do {R} (c : call R) : call_ok c -> pspec (do c) (fun a => resp_ok c (Ok a)).
Proof. intros H. split; [done|]. intros [a|e]; cbn; done. Qed.
Lemma pspec_load r d : pspec (do (CLoadSession r d)) L.
Proof. apply (pspec_do (CLoadSession r d)). done. Qed.
Lemma pspec_store r d rec : P rec -> pspec (do (CStoreSession r d rec)) (fun _ => True).
Proof. intros H. by apply (pspec_do (CStoreSession r d rec)). Qed.

(** Programs that do not store sessions. *)
Fixpoint nostore {A} (p : prog A) : Prop :=
  match p with
  | Ret a => True
  | Raise _ => True
  | Call c k => (match c with CStoreSession _ _ _ => False | _ => True end) /\ forall x, nostore (k x)
  end.
Lemma pspec_nostore {A} (p : prog A) : nostore p -> pspec p (fun _ => True).
Proof.
  induction p as [a|e|T c k IH]; [done..|]. intros [Hc Hk]. split; [by destruct c|]. intros x _. by apply IH.
Qed.
Lemma readonly_nostore {A} (p : prog A) : readonly p -> nostore p.
Proof.
  induction p as [a|e|T c k IH]; [done..|]. intros [Hc Hk]. split; [by destruct c|]. intros x. by apply IH.
Qed.
Lemma pspec_readonly {A} (p : prog A) : readonly p -> pspec p (fun _ => True).
Proof. intros. by apply pspec_nostore, readonly_nostore. Qed.
Lemma nostore_bind {A B} (p : prog A) (f : A -> prog B) : nostore p -> (forall a, nostore (f a)) -> nostore (p ≫= f).
Proof.
  intros Hp Hf. induction p as [a|e|R c k IH]; [apply Hf|done|].
  destruct Hp as [Hc Hk]. split; [done|]. intros r. by apply IH.
Qed.
Lemma nostore_catch {A} (p : prog A) h : nostore p -> (forall e, nostore (h e)) -> nostore (catch p h).
Proof.
  intros Hp Hh. induction p as [a|e|R c k IH]; [done|apply Hh|].
  destruct Hp as [Hc Hk]. split; [done|]. intros r. by apply IH.
Qed.
Lemma nostore_lift {A} (r : res A) : nostore (lift r).
Proof. by destruct r. Qed.
Lemma nostore_do {R} (c : call R) : (match c with CStoreSession _ _ _ => False | _ => True end) -> nostore (do c).
Proof. intros. split; [done|]. intros. apply nostore_lift. Qed.

(** ** Soundness *)

(** Every stored session that can be loaded satisfies [L]. *)
Definition stored_ok (w : world) : Prop := forall r d rec, session_at w r d = Ok rec -> L rec.

Context (Pnew : L sr_new) (Pwf : forall rec, P rec -> rec_wf rec)
        (Pfresh : forall f s l, P (SessionRecord f s l) -> L (SessionRecord false s l)).

Lemma stored_empty w : w_sessions w = ∅ -> stored_ok w.
Proof using Pnew. intros E r d rec. unfold session_at. rewrite E, lookup_empty. by intros [= <-]. Qed.

Lemma stored_put w r d rec :
  stored_ok w -> P rec -> stored_ok (w_set_sessions (<[(r, d) := sr_serialize rec]> (w_sessions w)) w).
Proof using Pwf Pfresh.
  intros Hw HP r' d' rec'. unfold session_at. cbn [w_set_sessions w_sessions].
  destruct (decide ((r', d') = (r, d))) as [E|E].
  - rewrite E, lookup_insert, StateFacts.sr_roundtrip by (by apply Pwf). intros [= <-].
    destruct rec as [f s l]. by eapply Pfresh.
  - rewrite lookup_insert_ne by congruence. apply Hw.
Qed.

Lemma step_ok {R} (c : call R) w :
  stored_ok w -> call_ok c -> resp_ok c (step_call c w).1 /\ stored_ok (step_call c w).2.
Proof using Pnew Pwf Pfresh.
  intros Hw Hc. destruct c; cbn [resp_ok step_call fst snd]; try (split; done).
  - split; [|done]. change (match session_at w recipient device with Ok rec => L rec | Err _ => True end).
    destruct (session_at w recipient device) eqn:E; [|done]. by eapply Hw.
  - split; [done|]. by apply stored_put.
Qed.

Lemma run_ok {A} (p : prog A) Q w :
  pspec p Q -> stored_ok w ->
  stored_ok (run p w).2 /\ forall a, (run p w).1 = Ok a -> Q a.
Proof using Pnew Pwf Pfresh.
  revert w. induction p as [a|e|R c k IH]; intros w Hp Hw.
  - split; [done|]. cbn. by intros a' [= <-].
  - split; [done|]. cbn. done.
  - destruct Hp as [Hc Hk]. destruct (step_ok c w Hw Hc) as [Hr Hw'].
    cbn [run]. destruct (step_call c w) as [x w']. apply IH; [by apply Hk|done].
Qed.

Lemma run_crash_ok {A} n (p : prog A) Q w :
  pspec p Q -> stored_ok w -> stored_ok (run_crash n p w).2.
Proof using Pnew Pwf Pfresh.
  revert n w. induction p as [a|e|R c k IH]; intros n w Hp Hw; [done..|].
  destruct Hp as [Hc Hk]. destruct n as [|n]; [done|].
  destruct (step_ok c w Hw Hc) as [Hr Hw'].
  cbn [run_crash]. destruct (step_call c w) as [x w']. apply IH; [by apply Hk|done].
Qed.

(** Calls in flight, any number of them. *)
Lemma reaches_ok C w0 w ps : w_sessions w0 = ∅ ->
  (forall c, pspec (api C c) (fun _ => True)) -> reaches C w0 w ps ->
  stored_ok w /\ Forall (fun p => pspec p (fun _ => True)) ps.
Proof using Pnew Pwf Pfresh.
  intros H0 Hapi. induction 1 as [|w ps c _ [IH1 IH2]|w l1 R c k l2 _ [IH1 IH2]|w l1 p l2 _ [IH1 IH2]|w ps m _ IH|w ps m _ IH|w ps m _ IH].
  - split; [by apply stored_empty|constructor].
  - split; [done|]. by constructor.
  - apply Forall_app in IH2 as [F1 [[Hc Hk] F2]%Forall_cons]. destruct (step_ok c w IH1 Hc) as [Hr Hw]. split; [done|].
    apply Forall_app. split; [done|]. constructor; [by apply Hk|done].
  - split; [done|]. apply Forall_app in IH2 as [F1 [_ F2]%Forall_cons]. by apply Forall_app.
  - exact IH.
  - exact IH.
  - exact IH.
Qed.
End logic.

(** ** The invariant *)

(** A receiving chain: the stored message keys have different indices, all below the
    chain's own. *)
Definition mk_idx (m : mk_s) : N := default 0%N (mk_index m).
Definition ch_idx (c : ch_s) : N := default 0%N (ck_index (default ck_empty (ch_chainKey c))).
Definition chain_inv (c : ch_s) : Prop :=
  NoDup (mk_idx <$> ch_messageKeys c) /\ Forall (fun m => (mk_idx m < ch_idx c)%N) (ch_messageKeys c).
(** A state is of the current version, or it is not set up: no version, no sending chain. *)
Definition version_inv (s : ss_s) : Prop :=
  ss_version s = Some CURRENT_VERSION \/ ss_version s = None /\ ss_senderChain s = None.
Definition state_inv (s : ss_s) : Prop :=
  length (ss_receiverChains s) <= 5 /\ Forall chain_inv (ss_receiverChains s) /\
  NoDup (chain_pub <$> ss_receiverChains s) /\ version_inv s.
Definition record_inv (rec : sessionRecord) : Prop :=
  rec_wf rec /\ length (sr_previous rec) <= 40 /\ Forall state_inv (sr_states rec).

(** A loaded record is empty if it is fresh. *)
Definition loaded_inv (rec : sessionRecord) : Prop :=
  record_inv rec /\ (sr_fresh rec = true -> rec = sr_new).

Lemma state_inv_new : state_inv st_new.
Proof. split_and!; [cbn; lia|constructor|constructor|by right]. Qed.
Lemma record_inv_new : record_inv sr_new.
Proof.
  split_and!; [split; [exact ss_empty_wf|constructor]|cbn; lia|]. constructor; [apply state_inv_new|constructor].
Qed.
Lemma loaded_inv_new : loaded_inv sr_new.
Proof. split; [apply record_inv_new|done]. Qed.
Lemma record_inv_fresh f s l : record_inv (SessionRecord f s l) -> loaded_inv (SessionRecord false s l).
Proof. done. Qed.
Lemma archived_new rec : loaded_inv rec -> sr_state (archiveUnlessFresh rec) = st_new.
Proof. intros [_ H]. unfold archiveUnlessFresh. destruct (sr_fresh rec); [by rewrite H|done]. Qed.

Lemma record_inv_set rec s : record_inv rec -> ss_wf s -> state_inv s -> record_inv (sr_setState s rec).
Proof.
  intros ([H1 H2] & H3 & H4) Hw Hs. split_and!; [split; done|done|]. inversion H4; subst. by constructor.
Qed.
Lemma record_inv_archive rec : record_inv rec -> record_inv (archiveUnlessFresh rec).
Proof.
  intros H. unfold archiveUnlessFresh. destruct (sr_fresh rec); [done|].
  pose proof H as (Hw & Hl & Hs). unfold sr_archiveCurrentState.
  split_and!.
  - by apply sr_archive_wf.
  - cbn [sr_promoteState sr_previous]. case_match eqn:E; [rewrite take_length; cbn [length]; lia|].
    apply Nat.ltb_ge in E. done.
  - unfold sr_states, sr_promoteState. cbn [sr_state sr_previous]. constructor; [apply state_inv_new|].
    case_match; [by apply Forall_take|]. done.
Qed.

Lemma record_inv_after rec j s s' :
  record_inv rec -> sr_states rec !! j = Some s -> ss_wf s' -> state_inv s' -> record_inv (record_after j s' rec).
Proof.
  intros H Hj Hw Hs. destruct j as [|j]; [by apply record_inv_set|].
  pose proof H as ([Hw1 Hw2] & Hl & Hi). cbn [sr_states lookup list_lookup] in Hj.
  apply Forall_cons in Hi as [Hi1 Hi2].
  cbn [record_after]. split_and!.
  - apply sr_promoteState_wf; [done|]. split; [done|]. by apply Forall_delete.
  - cbn [sr_promoteState sr_previous sr_state length]. case_match eqn:E; [rewrite take_length; cbn [length]|cbn [length]];
      rewrite length_delete in * by (by eexists); lia.
  - unfold sr_states, sr_promoteState. cbn [sr_state sr_previous]. constructor; [done|].
    assert (Forall state_inv (sr_state rec :: delete j (sr_previous rec))) by (constructor; [done|by apply Forall_delete]).
    case_match; [by apply Forall_take|]. done.
Qed.

(** ** Taking a message key *)

Section keep.
Context (C : crypto).

Lemma sublist_NoDup' {A} (l k : list A) : sublist l k -> NoDup k -> NoDup l.
Proof.
  induction 1 as [|x l k Hs IH|x l k Hs IH]; intros Hd; [done| |].
  - apply NoDup_cons in Hd as [Hx Hd]. apply NoDup_cons. split; [|auto]. intros Hx'. apply Hx.
    eapply elem_of_submseteq; [done|by apply sublist_submseteq].
  - apply NoDup_cons in Hd as [_ Hd]. auto.
Qed.
Lemma sublist_Forall' {A} (P : A -> Prop) (l k : list A) : sublist l k -> Forall P k -> Forall P l.
Proof.
  induction 1 as [|x l k Hs IH|x l k Hs IH]; intros Hd; [done| |].
  - apply Forall_cons in Hd as [Hx Hd]. constructor; auto.
  - apply Forall_cons in Hd as [_ Hd]. auto.
Qed.

Lemma take_messageKey_sublist n l m r : take_messageKey n l = Some (m, r) -> mk_idx m = n /\ sublist r l /\
  (NoDup (mk_idx <$> l) -> Forall (fun x => mk_idx x <> n) r).
Proof.
  revert m r. induction l as [|x l IH]; intros m r; cbn [take_messageKey]; [done|].
  unfold mk_hasIndex. fold (mk_idx x). destruct (N.eqb_spec (mk_idx x) n) as [E|E].
  - intros [= -> ->]. split_and!; [done|by constructor|]. rewrite fmap_cons. intros [Hn _]%NoDup_cons.
    rewrite Forall_forall. intros y Hy Hyn. apply Hn. rewrite E, <- Hyn. by apply elem_of_list_fmap_1.
  - destruct (take_messageKey n l) as [[y r']|]; [|done]. intros [= -> <-].
    destruct (IH m r' eq_refl) as (H1 & H2 & H3). split_and!; [done|by constructor|].
    rewrite fmap_cons. intros [_ Hd]%NoDup_cons. constructor; auto.
Qed.

(** The indices of the keys skipped on the way. *)
Lemma skipped_idx ck d :
  mk_idx <$> map (fun i => mk_stored (ck_messageKeys C (Nat.iter i (ck_next C) ck))) (seq 0 d)
  = (fun i => (cIndex ck + N.of_nat i)%N) <$> seq 0 d.
Proof.
  change (map ?f ?l) with (f <$> l). rewrite <- list_fmap_compose. apply list_fmap_ext. intros i x _.
  change (mCounter (ck_messageKeys C (Nat.iter x (ck_next C) ck)) = (cIndex ck + N.of_nat x)%N).
  by rewrite ck_messageKeys_counter, ck_next_iter_index.
Qed.
Lemma skipped_forall (Q : N -> Prop) ck d :
  (forall i, i < d -> Q (cIndex ck + N.of_nat i)%N) ->
  Forall (fun x => Q (mk_idx x)) (map (fun i => mk_stored (ck_messageKeys C (Nat.iter i (ck_next C) ck))) (seq 0 d)).
Proof.
  intros H. change (fun x => Q (mk_idx x)) with (Q ∘ mk_idx). rewrite <- Forall_fmap. rewrite skipped_idx. apply Forall_fmap, Forall_forall.
  intros i [_ Hi]%elem_of_seq. apply H. lia.
Qed.

Lemma chainTake_inv kdf c n mk c' :
  chain_inv c -> chainTake C kdf c n = Ok (mk, c') ->
  chain_inv c' /\ (n < ch_idx c')%N /\ Forall (fun x => mk_idx x <> n) (ch_messageKeys c') /\
  ch_ratchetKey c' = ch_ratchetKey c.
Proof.
  intros [Hd Hb] H. unfold chainTake in H.
  change (cIndex (ch_getChainKey kdf c)) with (ch_idx c) in H.
  destruct (N.ltb_spec n (ch_idx c)) as [L|L].
  - destruct (take_messageKey n (ch_messageKeys c)) as [[m r]|] eqn:E; [|done]. injection H as <- <-.
    apply take_messageKey_sublist in E as (E1 & E2 & E3).
    split_and!; [|done| |done].
    + split; cbn [ch_messageKeys ch_set_messageKeys].
      * eapply sublist_NoDup'; [by apply fmap_sublist|done].
      * eapply sublist_Forall'; done.
    + auto.
  - destruct (N.ltb_spec 2000 (n - ch_idx c)) as [L2|L2]; [done|].
    destruct (N.ltb_spec (n + 1) (2 ^ 32)) as [L3|L3]; [|done]. injection H as <- <-.
    set (d := N.to_nat (n - ch_idx c)).
    split_and!; [split| | |done].
    + cbn [ch_messageKeys ch_set_messageKeys ch_set_chainKey]. rewrite fmap_app, skipped_idx.
      apply NoDup_app. split_and!; [done| |].
      * intros x (m & -> & Hm)%elem_of_list_fmap (i & Hi & _)%elem_of_list_fmap.
        rewrite Forall_forall in Hb. specialize (Hb m Hm). cbn [cIndex ch_getChainKey] in Hi. fold (ch_idx c) in Hi. lia.
      * apply NoDup_fmap_2; [|apply NoDup_seq]. intros a b. lia.
    + change (Forall (fun m => (mk_idx m < n + 1)%N) (ch_messageKeys c ++
               map (fun i => mk_stored (ck_messageKeys C (Nat.iter i (ck_next C) (ch_getChainKey kdf c)))) (seq 0 d))).
      cbn [ch_messageKeys ch_set_messageKeys ch_set_chainKey]. apply Forall_app. split.
      * eapply Forall_impl; [done|]. cbn. intros x Hx. lia.
      * apply (skipped_forall (fun x => x < n + 1)%N). intros i Hi. cbn [cIndex ch_getChainKey]. fold (ch_idx c). lia.
    + change (n < n + 1)%N. lia.
    + cbn [ch_messageKeys ch_set_messageKeys ch_set_chainKey]. apply Forall_app. split.
      * eapply Forall_impl; [done|]. cbn. intros x Hx. lia.
      * apply (skipped_forall (fun x => x <> n)%N). intros i Hi. cbn [cIndex ch_getChainKey]. fold (ch_idx c). lia.
Qed.

(** ** Decryption keeps the invariant *)

Lemma newChain_inv key ck : chain_inv (newChain key ck).
Proof. split; [constructor|constructor]. Qed.

Lemma trimChains_length l : length l <= 5 -> forall c, length (trimChains (l ++ [c])) <= 5.
Proof.
  intros H c. unfold trimChains. case_match eqn:E; [rewrite drop_length|apply Nat.ltb_ge in E; done].
  rewrite app_length in *. cbn [length] in *. lia.
Qed.

Lemma trimChains_nodup key ck l :
  length key = 32 -> find_chain key l 0 = Ok None -> NoDup (chain_pub <$> l) ->
  NoDup (chain_pub <$> trimChains (l ++ [newChain key ck])).
Proof.
  intros Hk Hf%find_chain_none Hd.
  assert (NoDup (chain_pub <$> (l ++ [newChain key ck]))) as H.
  { rewrite fmap_app. apply NoDup_app. split_and!; [done| |apply NoDup_singleton].
    intros x (c & -> & Hc)%elem_of_list_fmap Hx%elem_of_list_singleton.
    rewrite Forall_forall in Hf. destruct (Hf c Hc) as (k & Hk' & Hne). apply Hne.
    rewrite (newChain_pub key ck Hk) in Hx. congruence. }
  unfold trimChains. case_match; [|done]. rewrite fmap_drop.
  destruct (chain_pub <$> (l ++ [newChain key ck])) as [|a b]; [constructor|].
  apply NoDup_cons in H as [_ H]. by rewrite skipn_cons, drop_0.
Qed.

Lemma state_inv_add s key ck s' :
  ss_receiverChains s = [] -> version_inv s -> st_addReceiverChain key ck s = Ok s' -> state_inv s'.
Proof.
  intros E Hv (x & [-> _]%ch_putChainKey_inv & [= <-])%bind_ok_inv. rewrite E.
  split_and!; cbn [ss_receiverChains ss_set_receiverChains app length Nat.ltb Nat.leb].
  - lia.
  - constructor; [apply (newChain_inv key ck)|constructor].
  - apply NoDup_singleton.
  - done.
Qed.

Lemma chainStep_state_inv s key ek ck s' :
  st_hasSenderChain s = true -> state_inv s -> chainStep C s key ek = Ok (ck, s') -> state_inv s'.
Proof.
  intros Hsc (H1 & H2 & H3 & H4) (kdf & c & j & _ & _ & _ & [->|(Hf & Hk & our & x & y & _ & _ & _ & _ & ->)])%chainStep_inv; [done|].
  split_and!; cbn.
  - by apply trimChains_length.
  - assert (Forall chain_inv (ss_receiverChains s ++ [newChain key x.2])).
    { apply Forall_app. split; [done|]. constructor; [apply newChain_inv|constructor]. }
    unfold trimChains. case_match; [by apply Forall_drop|done].
  - by apply trimChains_nodup.
  - destruct H4 as [H4|[_ H4]]; [by left|]. unfold st_hasSenderChain in Hsc. by rewrite H4 in Hsc.
Qed.

Lemma openWith_inv kdf c s m pt c' :
  openWith C kdf c s m = Ok (pt, c') -> exists mk, chainTake C kdf c (wCounter m) = Ok (mk, c').
Proof.
  unfold openWith. intros ([mk c''] & H1 & H)%bind_ok_inv. exists mk.
  apply bind_ok_inv in H as (? & _ & H). apply bind_ok_inv in H as (? & _ & H).
  apply bind_ok_inv in H as (? & _ & H). apply bind_ok_inv in H as (? & _ & [= _ <-]). done.
Qed.

(** The state after a decryption: the message's chain is there, its counter is below the
    chain's index and its key is not stored. *)
Definition consumed (s : ss_s) (key : bytes) (n : N) : Prop :=
  exists c j, find_chain key (ss_receiverChains s) 0 = Ok (Some (c, j)) /\
    (n < ch_idx c)%N /\ Forall (fun x => mk_idx x <> n) (ch_messageKeys c).

Lemma decryptPure_inv s m ek pt s' :
  state_inv s -> decryptPure C s m ek = Ok (pt, s') ->
  state_inv s' /\ consumed s' (wRatchetKey m) (wCounter m) /\
  st_hasSenderChain s' = true /\ st_getSessionVersion s' = st_getSessionVersion s /\
  wVersion m = st_getSessionVersion s /\ ss_aliceBaseKey s' = ss_aliceBaseKey s /\ ss_pendingPreKey s' = None.
Proof.
  intros Hi (Hsc & Hv & kdf & c & j & s1 & c' & Hkdf & Hstep & Hf & Ho & ->)%decryptPure_ok_inv.
  pose proof (chainStep_state_inv _ _ _ _ _ Hsc Hi Hstep) as (H1 & H2 & H3 & H4).
  pose proof (find_chain_lookup _ _ _ _ Hf) as Hl.
  assert (chain_inv c) as Hc by (rewrite Forall_forall in H2; apply H2; by eapply elem_of_list_lookup_2).
  destruct (openWith_inv _ _ _ _ _ _ Ho) as (mk & Hmk).
  destruct (chainTake_inv _ _ _ _ _ Hc Hmk) as (Hc' & Hlt & Hne & Hr).
  split_and!.
  - split_and!; cbn [ss_receiverChains st_clearUnacknowledgedPreKeyMessage ss_set_pendingPreKey st_putReceiverChain ss_set_receiverChains].
    + by rewrite insert_length.
    + by apply Forall_insert.
    + rewrite list_fmap_insert, list_insert_id; [done|]. rewrite list_lookup_fmap, Hl. cbn. unfold chain_pub. by rewrite Hr.
    + done.
  - exists c', j. split_and!; [by apply (find_chain_put _ _ _ _ _ Hf)|done|done].
  - apply chainStep_inv in Hstep as (? & ? & ? & _ & _ & _ & [->|(_ & _ & our & x & y & _ & _ & _ & _ & ->)]); done.
  - apply chainStep_inv in Hstep as (? & ? & ? & _ & _ & _ & [->|(_ & _ & our & x & y & _ & _ & _ & _ & ->)]); done.
  - done.
  - apply chainStep_inv in Hstep as (? & ? & ? & _ & _ & _ & [->|(_ & _ & our & x & y & _ & _ & _ & _ & ->)]); done.
  - done.
Qed.

Lemma decryptPure_wf s m ek pt s' : ss_wf s -> decryptPure C s m ek = Ok (pt, s') -> ss_wf s'.
Proof.
  intros Hw H. unfold decryptPure in H.
  destruct (negb _); [done|]. destruct (negb _); [done|].
  apply bind_ok_inv in H as ([ck s1] & Hstep & H). apply bind_ok_inv in H as ([mk s2] & Hmk & H).
  do 3 (apply bind_ok_inv in H as (? & _ & H)). apply bind_ok_inv in H as (? & _ & [= _ <-]).
  cbn [fst snd] in *. apply st_clear_wf.
  assert (ss_wf s1) as Hw1.
  { unfold chainStep in Hstep. apply bind_ok_inv in Hstep as ([] & _ & Hstep).
    { by apply bind_ok_inv in Hstep as (? & _ & [= _ <-]). }
    apply bind_ok_inv in Hstep as (cx & _ & Hstep). apply bind_ok_inv in Hstep as (cy & _ & Hstep).
    apply bind_ok_inv in Hstep as (s3 & H3 & Hstep). apply bind_ok_inv in Hstep as (old & _ & Hstep).
    apply bind_ok_inv in Hstep as (s4 & H4 & Hstep). apply bind_ok_inv in Hstep as (s5 & H5 & [= _ <-]).
    eapply st_setSenderChain_wf; [|done]. eapply st_setPreviousCounter_wf; [|done].
    eapply st_addReceiverChain_wf; [|done]. by apply st_setRootKey_wf. }
  unfold getOrCreateMessageKeys in Hmk. destruct (_ <? _)%N.
  - apply bind_ok_inv in Hmk as ([] & _ & Hmk); [|done]. apply bind_ok_inv in Hmk as (cx & Hx & Hmk).
    apply st_removeMessageKeys_wf in Hx; [|done]. destruct (cx.1); [|done]. by injection Hmk as _ <-.
  - destruct (_ <? _)%N; [done|]. apply bind_ok_inv in Hmk as ([ck' s3] & Hx & Hmk).
    apply bind_ok_inv in Hmk as (s4 & H4 & [= _ <-]). eapply st_setReceiverChainKey_wf; [|done].
    clear H4 Hstep. cbn [fst snd] in *. revert Hx. generalize (N.to_nat (wCounter m - cIndex ck)) as n. intros n.
    revert ck s1 Hw1. induction n as [|n IH]; intros ck s1 Hw1 Hx; cbn [skipMessageKeys] in Hx.
    + by injection Hx as _ <-.
    + apply bind_ok_inv in Hx as (s5 & H5 & Hx). eapply IH; [|done]. by eapply st_setMessageKeys_wf.
Qed.

(** The same message again is a duplicate. *)
Lemma consumed_duplicate s m k :
  st_hasSenderChain s = true -> wVersion m = st_getSessionVersion s ->
  (exists kdf, hkdf_createFor (st_getSessionVersion s) = Ok kdf) ->
  consumed s (wRatchetKey m) (wCounter m) -> decryptPure C s m k = Err EDuplicateMessage.
Proof.
  intros Hsc Hv [kdf Hkdf] (c & j & Hf & Hlt & Hne).
  assert (chainStep C s (wRatchetKey m) k = Ok (ch_getChainKey kdf c, s)) as Hstep.
  { unfold chainStep, st_hasReceiverChain, st_getReceiverChain. rewrite Hf, !bind_ok.
    unfold st_getReceiverChainKey. rewrite (theReceiverChain_ok _ _ _ Hf), bind_ok, Hkdf, bind_ok. done. }
  rewrite (decryptPure_step C _ _ _ kdf _ _ c j Hsc Hv Hstep Hf eq_refl). unfold openWith, chainTake.
  change (cIndex (ch_getChainKey kdf c)) with (ch_idx c). rewrite (proj2 (N.ltb_lt _ _)) by done.
  rewrite (proj2 (take_messageKey_none _ _)); [done|].
  eapply Forall_impl; [exact Hne|]. intros x Hx. unfold mk_hasIndex. by apply N.eqb_neq.
Qed.

(** ** The calls *)

Section spec.
Context (L P : sessionRecord -> Prop).

Lemma pspec_getOrCreateChainKey s key :
  pspec L P (getOrCreateChainKey C s key) (fun x => exists ek, chainStep C s key ek = Ok x).
Proof.
  unfold getOrCreateChainKey.
  eapply pspec_bind; [apply pspec_lift_eq|]. intros has Hhas. cbn beta in Hhas. destruct has.
  - eapply pspec_bind; [apply pspec_lift_eq|]. intros ck Hck. cbn beta in Hck. cbn.
    exists zeroKp. unfold chainStep. by rewrite Hhas, bind_ok, Hck.
  - eapply pspec_bind; [apply pspec_lift_eq|]. intros x Hx. cbn beta in Hx.
    eapply pspec_bind; [apply pspec_readonly, readonly_generateKeyPair|]. intros ek _.
    apply pspec_lift. intros a Ha. exists ek. unfold chainStep. by rewrite Hhas, bind_ok, Hx, bind_ok.
Qed.

Lemma pspec_decryptWithSessionState s m :
  pspec L P (decryptWithSessionState C s m) (fun x => exists ek, decryptPure C s m ek = Ok x).
Proof.
  unfold decryptWithSessionState.
  destruct (negb _) eqn:E1; [done|]. destruct (negb (_ =? _)%N) eqn:E2; [done|].
  eapply pspec_bind; [apply pspec_getOrCreateChainKey|]. intros x (ek & Hek). apply pspec_lift.
  intros a Ha. exists ek. unfold decryptPure. by rewrite E1, E2, Hek, bind_ok.
Qed.

(** The record after some state decrypted. *)
Definition decrypted (rec : sessionRecord) (m : whisperMessage) (pt : bytes) (rec' : sessionRecord) : Prop :=
  exists j s ek s', sr_states rec !! j = Some s /\ decryptPure C s m ek = Ok (pt, s') /\ rec' = record_after j s' rec.

Lemma pspec_decryptWithSessionRecord rec m :
  pspec L P (decryptWithSessionRecord C rec m) (fun x => decrypted rec m x.1 x.2).
Proof.
  unfold decryptWithSessionRecord. apply pspec_catch.
  - eapply pspec_bind; [apply pspec_decryptWithSessionState|]. intros [pt s'] (ek & Hek). cbn.
    exists 0, (sr_state rec), ek, s'. done.
  - intros e. case_bool_decide; [|done].
    assert (forall l i, (forall k s, l !! k = Some s -> sr_previous rec !! (i + k) = Some s) ->
      pspec L P (decryptWithPrevious C rec m i l) (fun x => decrypted rec m x.1 x.2)) as H'.
    { induction l as [|s l IH]; intros i Hl; cbn [decryptWithPrevious]; [done|]. apply pspec_catch.
      - eapply pspec_bind; [apply pspec_decryptWithSessionState|]. intros [pt s'] (ek & Hek). cbn.
        exists (S i), s, ek, s'. split_and!; [|done|done]. unfold sr_states. cbn. rewrite <- (Nat.add_0_r i). by apply Hl.
      - intros e'. case_bool_decide; [|done]. apply IH. intros k s0 Hk. replace (S i + k) with (i + S k) by lia. by apply Hl. }
    apply H'. done.
Qed.
End spec.

Lemma decrypted_inv rec m pt rec' : record_inv rec -> decrypted rec m pt rec' -> record_inv rec'.
Proof.
  intros Hi (j & s & ek & s' & Hj & Hd & ->).
  pose proof Hi as ([Hw1 Hw2] & _ & Hs). eapply record_inv_after; [done|done| |].
  - eapply decryptPure_wf; [|done]. assert (Forall ss_wf (sr_states rec)) as Hf by (by constructor).
    by eapply Forall_lookup_1.
  - eapply decryptPure_inv; [|done]. by eapply Forall_lookup_1.
Qed.

Notation rspec p Q := (pspec loaded_inv record_inv p Q).
Notation top := (fun _ => True).

Lemma spec_decryptMsg r d m : rspec (decryptMsg C r d m) top.
Proof.
  eapply pspec_bind; [by apply (pspec_do loaded_inv record_inv (CContainsSession r d))|]. intros [] _; [|done].
  eapply pspec_bind; [apply pspec_load|]. intros rec Hrec.
  eapply pspec_bind; [apply pspec_decryptWithSessionRecord|]. intros x Hx.
  eapply pspec_bind; [apply pspec_store; exact (decrypted_inv _ _ _ _ (proj1 Hrec) Hx)|]. done.
Qed.

(** Only a state with a sending chain encrypts. *)
Lemma encryptWithState_chain s pt x : encryptWithState C s pt = Ok x -> st_hasSenderChain s = true.
Proof.
  unfold encryptWithState. intros (? & _ & (k & Hk & _)%bind_ok_inv)%bind_ok_inv.
  unfold st_getSenderRatchetKey, st_senderChain in Hk. unfold st_hasSenderChain. by destruct (ss_senderChain s).
Qed.

Lemma spec_encrypt r d pt : rspec (encrypt C r d pt) top.
Proof.
  eapply pspec_bind; [apply pspec_load|]. intros rec Hrec.
  eapply pspec_bind; [apply pspec_lift_eq|]. intros [ct s] Hs.
  eapply pspec_bind; [apply pspec_store|done]. cbn [fst snd]. pose proof Hs as Hsc%encryptWithState_chain.
  unfold encryptWithState in Hs. do 7 (apply bind_ok_inv in Hs as (? & _ & Hs)).
  apply bind_ok_inv in Hs as (s' & Hs' & [= _ <-]).
  destruct Hrec as [Hrec _]. pose proof Hrec as ([Hw _] & _ & [Hi _]%Forall_cons).
  apply record_inv_set; [done|by eapply st_setSenderChainKey_wf|].
  apply bind_ok_inv in Hs' as (? & _ & [= <-]). destruct Hi as (Hi1 & Hi2 & Hi3 & [Hv|[_ Hn]]).
  - split_and!; [done..|by left].
  - unfold st_hasSenderChain in Hsc. by rewrite Hn in Hsc.
Qed.

(** The state functions of the handshake. *)
Definition good (s : ss_s) : Prop := ss_wf s /\ state_inv s.
Lemma good_new : good st_new.
Proof. split; [exact ss_empty_wf|apply state_inv_new]. Qed.
Lemma good_current rec : record_inv rec -> good (sr_state rec).
Proof. intros ([Hw _] & _ & [Hi _]%Forall_cons). done. Qed.
Lemma good_set rec s : record_inv rec -> good s -> record_inv (sr_setState s rec).
Proof. intros H []. by apply record_inv_set. Qed.

Definition current (s : ss_s) : Prop := ss_version s = Some CURRENT_VERSION.
Lemma good_setSenderChain kp c s s' : good s -> current s -> st_setSenderChain kp c s = Ok s' -> good s'.
Proof.
  intros [H1 (H2 & H3 & H4 & _)] Hv H. split; [by eapply st_setSenderChain_wf|].
  apply bind_ok_inv in H as (? & _ & [= <-]). split_and!; [done..|by left].
Qed.
Lemma good_add k c s s' : good s -> ss_receiverChains s = [] -> st_addReceiverChain k c s = Ok s' -> good s'.
Proof. intros [H1 H2] H0 H. split; [by eapply st_addReceiverChain_wf|eapply state_inv_add; [done|by apply H2|done]]. Qed.
Definition good0 (s : ss_s) : Prop := good s /\ ss_receiverChains s = [].
Lemma good0_archived rec : loaded_inv rec -> good0 (sr_state (archiveUnlessFresh rec)).
Proof. intros H. rewrite archived_new by done. split; [apply good_new|done]. Qed.
Lemma good_ids s a b : good s -> good (st_setLocalIdentityKey a (st_setRemoteIdentityKey b (st_setSessionVersion CURRENT_VERSION s))).
Proof.
  intros [H1 (H2 & H3 & H4 & _)]. split; [apply st_setIdentities_wf; by apply st_setSessionVersion_wf|].
  split_and!; [done..|by left].
Qed.
Lemma current_add k c s s' : current s -> st_addReceiverChain k c s = Ok s' -> current s'.
Proof. intros H. by intros (x & _ & [= <-])%bind_ok_inv. Qed.

Lemma spec_asAlice s a b c d e f : good0 s -> rspec (initializeSessionAsAlice C s a b c d e f) good.
Proof.
  intros Hs. unfold initializeSessionAsAlice.
  eapply pspec_bind; [apply pspec_readonly, readonly_generateKeyPair|]. intros ek _.
  apply pspec_lift. intros s' H. do 4 (apply bind_ok_inv in H as (? & _ & H)).
  destruct (calculateDerivedKeys C _) as [rk ck].
  apply bind_ok_inv in H as (? & _ & H). apply bind_ok_inv in H as (s1 & H1 & H). apply bind_ok_inv in H as (s2 & H2 & [= <-]).
  destruct Hs as [Hs Hs0]. pose proof H1 as Hv%current_add; [|done].
  apply good_add in H1; [|by apply good_ids|done]. apply good_setSenderChain in H2; [|done|done].
  destruct H2. split; [by apply st_setRootKey_wf|done].
Qed.

Lemma good_asBob s a b c d e f s' : good s -> initializeSessionAsBob C s a b c d e f = Ok s' -> good s'.
Proof.
  intros Hs H. unfold initializeSessionAsBob in H. do 4 (apply bind_ok_inv in H as (? & _ & H)).
  destruct (calculateDerivedKeys C _) as [rk ck].
  apply bind_ok_inv in H as (s2 & H2 & [= <-]).
  apply good_setSenderChain in H2; [|by apply good_ids|done].
  destruct H2. split; [by apply st_setRootKey_wf|done].
Qed.

Lemma spec_initializeSession s a b c d e f : good0 s -> rspec (initializeSession C s a b c d e f) good.
Proof.
  intros Hs. unfold initializeSession. eapply pspec_bind; [apply pspec_lift_eq|]. intros [] _.
  - by apply spec_asAlice.
  - destruct Hs. apply pspec_lift. intros. by eapply good_asBob.
Qed.

Lemma spec_processV3 rec m : loaded_inv rec -> rspec (processV3 C rec m) (fun x => record_inv x.1).
Proof.
  intros Hrec. unfold processV3. destruct (sr_hasSessionState _ _ _); [by destruct Hrec|].
  eapply pspec_bind; [by apply (pspec_do loaded_inv record_inv (CLoadSignedPreKey _))|]. intros spr _.
  eapply pspec_bind; [apply pspec_lift_eq|]. intros spk _.
  eapply pspec_bind; [by apply (pspec_do loaded_inv record_inv CGetIdentityKeyPair)|]. intros id _.
  eapply (pspec_bind _ _ _ _ top).
  { destruct (pPreKeyId m); [|done]. eapply pspec_bind; [by apply (pspec_do loaded_inv record_inv (CLoadPreKey _))|]. intros pr _.
    eapply pspec_bind; [apply pspec_lift_eq|]. done. }
  intros otpk _. pose proof (good0_archived _ Hrec) as Hnew. destruct Hrec as [Hrec _].
  apply record_inv_archive in Hrec. set (rec' := archiveUnlessFresh rec) in *.
  eapply pspec_bind; [apply pspec_lift_eq|]. intros s Hs. cbn beta in Hs. apply good_asBob in Hs; [|by destruct Hnew].
  eapply pspec_bind; [by apply (pspec_do loaded_inv record_inv CGetLocalRegistrationId)|]. intros reg _.
  eapply pspec_bind; [apply pspec_lift_eq|]. intros s1 Hs1. cbn beta in Hs1.
  eapply pspec_bind; [apply pspec_lift_eq|]. intros s2 Hs2. cbn beta in Hs2. cbn [fst].
  apply good_set; [done|]. destruct Hs as [Hs Hi]. split.
  - apply st_setAliceBaseKey_wf. eapply st_setRemoteRegistrationId_wf; [|done]. by eapply st_setLocalRegistrationId_wf.
  - apply bind_ok_inv in Hs2 as (? & _ & [= <-]). by apply bind_ok_inv in Hs1 as (? & _ & [= <-]).
Qed.

Lemma spec_builder_process r rec m : loaded_inv rec -> rspec (builder_process C r rec m) (fun x => record_inv x.1).
Proof.
  intros Hrec. unfold builder_process.
  eapply pspec_bind; [by apply (pspec_do loaded_inv record_inv (CIsTrusted _ _))|]. intros [] _; [|done].
  eapply pspec_bind; [by apply spec_processV3|]. intros x Hx.
  eapply pspec_bind; [by apply (pspec_do loaded_inv record_inv (CSaveIdentity _ _))|]. done.
Qed.

Lemma spec_decryptPkmsg r d m : rspec (decryptPkmsg C r d m) top.
Proof.
  eapply pspec_bind; [apply pspec_load|]. intros rec Hrec.
  eapply pspec_bind; [by apply spec_builder_process|]. intros x Hx.
  eapply pspec_bind; [apply pspec_decryptWithSessionRecord|]. intros y Hy.
  eapply pspec_bind; [apply pspec_store; exact (decrypted_inv _ _ _ _ Hx Hy)|]. intros _ _.
  destruct (x.2) as [i|]; [|done]. eapply pspec_bind; [by apply (pspec_do loaded_inv record_inv (CRemovePreKey i))|done].
Qed.

Lemma spec_bundle r d b : rspec (processPreKeyBundle C r d b) top.
Proof.
  unfold processPreKeyBundle.
  eapply pspec_bind; [by apply (pspec_do loaded_inv record_inv (CIsTrusted _ _))|]. intros [] _; [|done].
  destruct (bu_signedPreKey b) as [spk|]; [|done].
  eapply pspec_bind; [apply pspec_lift_eq|]. intros [] _; [|done].
  eapply pspec_bind; [apply pspec_load|]. intros rec Hrec.
  eapply pspec_bind; [apply pspec_readonly, readonly_generateKeyPair|]. intros base _.
  eapply pspec_bind; [by apply (pspec_do loaded_inv record_inv CGetIdentityKeyPair)|]. intros id _.
  pose proof (good0_archived _ Hrec) as Hnew. destruct Hrec as [Hrec _].
  apply record_inv_archive in Hrec. set (rec' := archiveUnlessFresh rec) in *.
  eapply pspec_bind; [by apply spec_asAlice|]. intros s [Hs Hi].
  eapply pspec_bind; [apply pspec_lift_eq|]. intros s1 Hs1. cbn beta in Hs1.
  eapply pspec_bind; [by apply (pspec_do loaded_inv record_inv CGetLocalRegistrationId)|]. intros reg _.
  eapply pspec_bind; [apply pspec_lift_eq|]. intros s2 Hs2. cbn beta in Hs2.
  eapply pspec_bind; [apply pspec_lift_eq|]. intros s3 Hs3. cbn beta in Hs3.
  eapply pspec_bind; [apply pspec_store|intros _ _; by apply (pspec_do loaded_inv record_inv (CSaveIdentity _ _))].
  apply good_set; [done|]. split.
  - apply st_setAliceBaseKey_wf. eapply st_setRemoteRegistrationId_wf; [|done]. eapply st_setLocalRegistrationId_wf; [|done].
    by eapply st_setUnacknowledgedPreKeyMessage_wf.
  - apply bind_ok_inv in Hs3 as (? & _ & [= <-]). apply bind_ok_inv in Hs2 as (? & _ & [= <-]).
    apply bind_ok_inv in Hs1 as (? & _ & Hs1). by apply bind_ok_inv in Hs1 as (? & _ & [= <-]).
Qed.

Lemma spec_processInitiate r d m : rspec (processInitiate C r d m) top.
Proof.
  unfold processInitiate. eapply pspec_bind; [apply pspec_load|]. intros rec Hrec.
  eapply pspec_bind; [apply pspec_lift_eq|]. intros [] _; [|done].
  eapply (pspec_bind _ _ _ _ top).
  { apply pspec_readonly. apply readonly_if; ro. }
  intros [[[id base] rat] fl] _. pose proof (good0_archived _ Hrec) as Hnew. destruct Hrec as [Hrec _].
  apply record_inv_archive in Hrec. set (rec' := archiveUnlessFresh rec) in *.
  eapply pspec_bind; [by apply spec_initializeSession|]. intros s Hs.
  eapply pspec_bind; [apply pspec_store; by apply good_set|]. intros _ _.
  eapply pspec_bind; [by apply (pspec_do loaded_inv record_inv (CSaveIdentity _ _))|]. intros _ _.
  eapply pspec_bind; [apply pspec_readonly, readonly_calculateSignature|]. intros sig _. by apply pspec_lift.
Qed.

Lemma spec_processResponse r d m : rspec (processResponse C r d m) top.
Proof.
  unfold processResponse. eapply pspec_bind; [apply pspec_load|]. intros rec Hrec.
  destruct (_ || _); [by destruct (kx_isResponseForSimultaneousInitiate m)|].
  do 3 (eapply pspec_bind; [apply pspec_lift_eq|]; intros ? _).
  pose proof (good0_archived _ Hrec) as Hnew. destruct Hrec as [Hrec _].
  apply record_inv_archive in Hrec. set (rec' := archiveUnlessFresh rec) in *.
  eapply pspec_bind; [by apply spec_initializeSession|]. intros s Hs.
  eapply pspec_bind; [apply pspec_lift_eq|]. intros [] _; [|done].
  eapply pspec_bind; [apply pspec_store; by apply good_set|]. intros _ _.
  by apply (pspec_do loaded_inv record_inv (CSaveIdentity _ _)).
Qed.

Lemma spec_kx r d m : rspec (processKeyExchangeMessage C r d m) top.
Proof.
  unfold processKeyExchangeMessage.
  eapply pspec_bind; [by apply (pspec_do loaded_inv record_inv (CIsTrusted _ _))|]. intros [] _; [|done].
  destruct (kx_isInitiate m); (eapply pspec_bind; [apply spec_processInitiate || apply spec_processResponse|done]).
Qed.

Lemma spec_initKx r d : rspec (processInitKeyExchangeMessage C r d) top.
Proof.
  unfold processInitKeyExchangeMessage. apply pspec_rethrow.
  eapply pspec_bind; [by apply (pspec_do loaded_inv record_inv (CRandrange _))|]. intros q _.
  eapply pspec_bind; [apply pspec_readonly, readonly_generateKeyPair|]. intros base _.
  eapply pspec_bind; [apply pspec_readonly, readonly_generateKeyPair|]. intros rat _.
  eapply pspec_bind; [by apply (pspec_do loaded_inv record_inv CGetIdentityKeyPair)|]. intros id _.
  eapply pspec_bind; [apply pspec_readonly, readonly_calculateSignature|]. intros sig _.
  eapply pspec_bind; [apply pspec_load|]. intros rec Hrec.
  eapply pspec_bind; [apply pspec_lift_eq|]. intros s Hs. cbn beta in Hs.
  eapply pspec_bind; [apply pspec_store|intros _ _; by apply pspec_lift].
  destruct Hrec as [Hrec _]. apply good_set; [done|]. destruct (good_current _ Hrec). split; [by eapply st_setPendingKeyExchange_wf|].
  by apply bind_ok_inv in Hs as (? & _ & [= <-]).
Qed.

Ltac ns := repeat first
  [ apply nostore_lift | by apply nostore_do | exact I | apply nostore_bind; [|intros ?] | apply nostore_catch; [|intros ?] ].

Lemma nostore_group_decrypt n b : nostore (group_decrypt C n b).
Proof.
  unfold group_decrypt, rethrow. ns.
  - destruct a; ns.
  - by destruct (isKeyException e).
Qed.
Lemma nostore_group_encrypt n b : nostore (group_encrypt C n b).
Proof. unfold group_encrypt, rethrow, calculateSignature. ns. by destruct (bool_decide _). Qed.
Lemma nostore_group_process n m : nostore (group_process n m).
Proof. unfold group_process. ns. Qed.
Lemma nostore_group_create n : nostore (group_create C n).
Proof.
  unfold group_create, rethrow, generateKeyPair, getRandomSequence. ns; [|by destruct (isKeyException _)].
  destruct a; ns.
Qed.

Lemma spec_api c : rspec (api C c) top.
Proof.
  destruct c; cbn [api]; try (eapply pspec_bind; [|done]).
  - apply spec_bundle.
  - apply spec_initKx.
  - apply spec_kx.
  - apply spec_encrypt.
  - apply spec_decryptMsg.
  - apply spec_decryptPkmsg.
  - apply pspec_nostore, nostore_group_create.
  - apply pspec_nostore, nostore_group_process.
  - apply pspec_nostore, nostore_group_encrypt.
  - apply pspec_nostore, nostore_group_decrypt.
Qed.

(** Everything reachable satisfies the invariant. *)
Lemma run_keeps {A} (p : prog A) Q w :
  rspec p Q -> stored_ok loaded_inv w ->
  stored_ok loaded_inv (run p w).2 /\ forall a, (run p w).1 = Ok a -> Q a.
Proof.
  intros. apply (run_ok loaded_inv record_inv); [apply loaded_inv_new|by intros ? []|apply record_inv_fresh|done|done].
Qed.
Lemma crash_keeps {A} n (p : prog A) Q w :
  rspec p Q -> stored_ok loaded_inv w -> stored_ok loaded_inv (run_crash n p w).2.
Proof.
  intros. apply (run_crash_ok loaded_inv record_inv loaded_inv_new) with Q; [by intros ? []|apply record_inv_fresh|done|done].
Qed.
Lemma step_keeps w w' : step C w w' -> stored_ok loaded_inv w -> stored_ok loaded_inv w'.
Proof.
  intros Hs IH. destruct Hs; try done.
  - exact (proj1 (run_keeps _ _ _ (spec_api c) IH)).
  - exact (crash_keeps _ _ _ _ (spec_api c) IH).
Qed.
Lemma reachable_inv w : reachable C w -> stored_ok loaded_inv w.
Proof.
  intros (w0 & ps & H0 & H). apply (reaches_ok loaded_inv record_inv loaded_inv_new) in H as [H _]; [done|by intros ? []|apply record_inv_fresh|done|apply spec_api].
Qed.
End keep.
