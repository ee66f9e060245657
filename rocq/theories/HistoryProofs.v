(** Duplicates, archives and crashes: C02, C08, C09, C41, C42, C43. *)
From Verif Require Import PyBase Wire Protos ProtoFacts Crypto Ecc Kdf Messages State Prog Ratchet Builder Cipher Groups Helper.
From Verif Require Import ProgFacts StateFacts UtilFacts HelperFacts MsgFacts CipherFacts DecryptFacts SpecSession SessionProofs LockoutProofs SpecApi InvFacts.

(** The result of an execution satisfies what [pspec] says. *)
Lemma pspec_run {A} (p : prog A) Q w a w' : pspec (fun _ => True) (fun _ => True) p Q -> run p w = (Ok a, w') -> Q a.
Proof.
  revert w. induction p as [b|e|R c k IH]; intros w Hp Hr.
  - by injection Hr as <- <-.
  - done.
  - destruct Hp as [_ Hk]. cbn [run] in Hr. destruct (step_call c w) as [x w1] eqn:E.
    eapply IH; [|exact Hr]. apply Hk. destruct c; cbn; try done. by destruct x.
Qed.

(** Loading what was stored. *)
Lemma session_stored w r d rec :
  rec_wf rec -> session_at (w_set_sessions (<[(r, d) := sr_serialize rec]> (w_sessions w)) w) r d
  = Ok (SessionRecord false (sr_state rec) (sr_previous rec)).
Proof.
  intros H. unfold session_at. cbn [w_set_sessions w_sessions]. rewrite lookup_insert.
  by rewrite StateFacts.sr_roundtrip.
Qed.

Section history.
Context (C : crypto) (Hok : crypto_ok C).

Lemma decryptMsg_ok r d m w pt w' :
  run (decryptMsg C r d m) w = (Ok pt, w') ->
  exists rec rec', is_Some (w_sessions w !! (r, d)) /\ session_at w r d = Ok rec /\ decrypted C rec m pt rec' /\
    exists w1, same_stores w w1 /\ w' = w_set_sessions (<[(r, d) := sr_serialize rec']> (w_sessions w1)) w1.
Proof.
  unfold decryptMsg. intros (has & w0 & H0 & H)%run_bind_ok. rewrite run_do in H0. injection H0 as <- <-.
  case_bool_decide as Hs; [|done].
  apply run_bind_ok in H as (rec & w0 & H0 & H). rewrite run_do, load_session in H0. injection H0 as H0 <-.
  apply run_bind_ok in H as ([pt' rec'] & w1 & H1 & H). rewrite run_bind, run_do in H. cbn [step_call] in H.
  injection H as <- <-. exists rec, rec'. split_and!; [done|done| |].
  - by apply (pspec_run _ _ _ _ _ (pspec_decryptWithSessionRecord C _ _ rec m) H1).
  - exists w1. split; [|done]. eapply run_readonly_eq; [apply readonly_decryptWithSessionRecord|exact H1].
Qed.

(** The state that decrypted is the current one afterwards and refuses the message as a
    duplicate. *)
Lemma decrypted_duplicate rec m pt rec' :
  record_inv rec -> decrypted C rec m pt rec' ->
  verdict C (sr_state rec') m = Err EDuplicateMessage /\ consumed (sr_state rec') (wRatchetKey m) (wCounter m).
Proof.
  intros (_ & _ & Hi) (j & s & ek & s' & Hj & Hd & ->).
  assert (sr_state (record_after j s' rec) = s') as -> by (by destruct j).
  assert (state_inv s) as Hsi by (by eapply Forall_lookup_1).
  pose proof (decryptPure_ok_inv C _ _ _ _ _ Hd) as (_ & _ & kdf & _ & _ & _ & _ & Hkdf & _).
  destruct (decryptPure_inv C _ _ _ _ _ Hsi Hd) as (Hsi' & Hc & Hsc & Hv1 & Hv2 & _).
  split; [|done]. apply (verdict_err C _ _ zeroKp _ zeroKp_ok).
  apply consumed_duplicate; [done|by rewrite Hv1|rewrite Hv1; eauto|done].
Qed.

Lemma msg_duplicate r d m w rec :
  is_Some (w_sessions w !! (r, d)) -> session_at w r d = Ok rec ->
  verdict C (sr_state rec) m = Err EDuplicateMessage ->
  exists w', run (decryptMsg C r d m) w = (Err EDuplicateMessage, w') /\ unchanged w w'.
Proof using Hok.
  intros Hs Hrec Hv. destruct (run (decryptMsg C r d m) w) as [o w'] eqn:E. exists w'.
  assert (o = Err EDuplicateMessage) as ->.
  { change o with ((o, w').1). rewrite <- E, (run_decryptMsg_fst C Hok), bool_decide_eq_true_2, Hrec, bind_ok by done.
    unfold sr_states. cbn [firstVerdict]. by rewrite Hv. }
  split; [done|]. by eapply decryptMsg_err.
Qed.

(** ** C02 *)

Lemma duplicate_msg r d m w pt w' :
  stored_ok loaded_inv w -> run (decryptMsg C r d m) w = (Ok pt, w') ->
  exists w2, run (decryptMsg C r d m) w' = (Err EDuplicateMessage, w2) /\ unchanged w' w2.
Proof using Hok.
  intros Hw (rec & rec' & Hs & Hrec & Hd & w1 & Hsame & ->)%decryptMsg_ok.
  pose proof (proj1 (Hw _ _ _ Hrec)) as Hi.
  pose proof (decrypted_inv C _ _ _ _ Hi Hd) as [Hwf _].
  eapply msg_duplicate; [|by apply session_stored|].
  - cbn [w_set_sessions w_sessions]. by rewrite lookup_insert.
  - cbn [sr_state]. by apply (decrypted_duplicate _ _ _ _ Hi Hd).
Qed.

(** A session set up by a prekey message is recognised later. *)
Lemma processV3_belongs rec m w rec1 u w1 :
  pVersion m = 3%N -> run (processV3 C rec m) w = (Ok (rec1, u), w1) -> belongs rec1 (pVersion m) (pBaseKey m).
Proof.
  intros Hv. unfold processV3. destruct (sr_hasSessionState _ _ _) eqn:E.
  { intros [= <- <- <-]. by apply hasSessionState_spec. }
  intros H. do 4 (apply run_bind_ok in H as (? & ? & _ & H)).
  apply run_bind_ok in H as (s & ? & Hs & H). rewrite run_lift in Hs. injection Hs as Hs _.
  apply run_bind_ok in H as (? & ? & _ & H).
  apply run_bind_ok in H as (s1 & ? & Hs1 & H). rewrite run_lift in Hs1. injection Hs1 as Hs1 _.
  apply run_bind_ok in H as (s2 & ? & Hs2 & H). rewrite run_lift in Hs2. injection Hs2 as Hs2 _.
  injection H as <- _ _. exists (st_setAliceBaseKey (pub_serialize (pBaseKey m)) s2). split_and!; [by left| |done].
  apply bind_ok_inv in Hs2 as (? & _ & [= <-]). apply bind_ok_inv in Hs1 as (? & _ & [= <-]).
  unfold initializeSessionAsBob in Hs. do 4 (apply bind_ok_inv in Hs as (? & _ & Hs)).
  destruct (calculateDerivedKeys C _). apply bind_ok_inv in Hs as (? & Hs & [= <-]).
  apply bind_ok_inv in Hs as (? & _ & [= <-]). by rewrite Hv.
Qed.

Lemma belongs_alt rec v k :
  belongs rec v k <-> exists i s, sr_states rec !! i = Some s /\ st_getSessionVersion s = v /\ ss_aliceBaseKey s = Some (x05 :: k).
Proof.
  unfold belongs, sr_states. split.
  - intros (s & [->|[i Hi]%elem_of_list_lookup] & H); [by exists 0, (sr_state rec)|by exists (S i), s].
  - intros ([|i] & s & Hi & H); exists s; cbn in Hi; [injection Hi as <-; auto|].
    split; [right; by eapply elem_of_list_lookup_2|done].
Qed.

Lemma promoted_previous s r : length (sr_previous r) <= 39 -> sr_previous (sr_promoteState s r) = sr_state r :: sr_previous r.
Proof.
  intros H. unfold sr_promoteState. cbn [sr_previous length]. rewrite (proj2 (Nat.ltb_ge _ _)); [done|].
  unfold ARCHIVED_STATES_MAX_LENGTH. lia.
Qed.

Lemma record_after_states rec j s s' :
  length (sr_previous rec) <= 40 -> sr_states rec !! j = Some s ->
  sr_states (record_after j s' rec) = s' :: delete j (sr_states rec).
Proof.
  intros Hl Hj. destruct j as [|j]; [done|]. cbn [record_after]. unfold sr_states in *.
  rewrite promoted_previous; [done|]. cbn [sr_previous]. cbn in Hj. rewrite length_delete by (by eexists). lia.
Qed.

Lemma belongs_after rec m pt rec' v k :
  record_inv rec -> decrypted C rec m pt rec' -> belongs rec v k -> belongs rec' v k.
Proof.
  intros (_ & Hl & Hi) (j & s & ek & s' & Hj & Hd & ->). rewrite !belongs_alt.
  assert (state_inv s) as Hsi by (by eapply Forall_lookup_1).
  destruct (decryptPure_inv C _ _ _ _ _ Hsi Hd) as (_ & _ & _ & Hv1 & _ & Hb & _).
  intros (i & x & Hx & H1 & H2). rewrite (record_after_states _ _ _ _ Hl Hj).
  destruct (Nat.lt_trichotomy i j) as [L|[->|L]].
  - exists (S i), x. split; [|done]. change (delete j (sr_states rec) !! i = Some x). by rewrite list.lookup_delete_lt.
  - exists 0, s'. rewrite Hj in Hx. injection Hx as ->. split_and!; [done|congruence|congruence].
  - exists i, x. split; [|done]. destruct i as [|i]; [lia|]. change (delete j (sr_states rec) !! i = Some x). rewrite list.lookup_delete_ge by lia. done.
Qed.

Lemma pkmsg_duplicate r d m w rec :
  session_at w r d = Ok rec -> belongs rec (pVersion m) (pBaseKey m) ->
  w_trusted w !! r = Some (pIdentityKey m) ->
  verdict C (sr_state rec) (pMessage m) = Err EDuplicateMessage ->
  exists w', run (decryptPkmsg C r d m) w = (Err EDuplicateMessage, w') /\ unchanged w w'.
Proof using Hok.
  intros Hrec Hb Ht Hv. rewrite (pkmsg_belongs C _ _ _ _ _ Hrec Hb) by (by right).
  rewrite insert_id by done.
  replace (w_set_trusted (w_trusted w) w) with w by (by destruct w).
  eapply msg_duplicate; [by eapply belongs_stored|done|done].
Qed.

Lemma processV3_inv rec m w rec1 u w1 :
  stored_ok loaded_inv w -> loaded_inv rec -> run (processV3 C rec m) w = (Ok (rec1, u), w1) -> record_inv rec1.
Proof.
  intros Hw Hi H. pose proof (proj2 (run_keeps _ _ w (spec_processV3 C rec m Hi) Hw)) as HQ.
  rewrite H in HQ. by apply (HQ (rec1, u)).
Qed.

(** After a successful decryptPkmsg: the session that decrypted is stored and current. *)
Lemma decryptPkmsg_after r d m w pt w' :
  stored_ok loaded_inv w -> pVersion m = 3%N -> run (decryptPkmsg C r d m) w = (Ok pt, w') ->
  exists rec', session_at w' r d = Ok rec' /\ belongs rec' (pVersion m) (pBaseKey m) /\
    w_trusted w' !! r = Some (pIdentityKey m) /\ state_inv (sr_state rec') /\
    verdict C (sr_state rec') (pMessage m) = Err EDuplicateMessage /\
    consumed (sr_state rec') (wRatchetKey (pMessage m)) (wCounter (pMessage m)).
Proof.
  intros Hw Hv (rec & rec1 & used & w1 & rec2 & w2 & Hrec & Ht & HV & Hs1 & Hd & Hs2 & ->)%decryptPkmsg_ok.
  pose proof (Hw _ _ _ Hrec) as Hl.
  pose proof (processV3_inv _ _ _ _ _ _ Hw Hl HV) as Hi1.
  pose proof (processV3_belongs _ _ _ _ _ _ Hv HV) as Hb1.
  pose proof (pspec_run _ _ _ _ _ (pspec_decryptWithSessionRecord C _ _ rec1 (pMessage m)) Hd) as Hdec.
  cbn [fst snd] in Hdec.
  pose proof (decrypted_inv C _ _ _ _ Hi1 Hdec) as Hi2.
  destruct (decrypted_duplicate _ _ _ _ Hi1 Hdec) as [Hdup Hcon].
  exists (SessionRecord false (sr_state rec2) (sr_previous rec2)). split_and!.
  - pose proof (session_stored w2 r d rec2 (proj1 Hi2)) as Hss. by destruct used.
  - apply (belongs_after _ _ _ _ _ _ Hi1 Hdec) in Hb1. done.
  - destruct Hs2 as (_ & _ & _ & Htr & _). cbn [w_set_trusted w_trusted] in Htr.
    destruct used; cbn [w_set_prekeys w_set_sessions w_trusted]; rewrite Htr; by rewrite lookup_insert.
  - destruct Hi2 as (_ & _ & [Hx _]%Forall_cons). done.
  - done.
  - done.
Qed.

Lemma duplicate_pkmsg r d m w pt w' :
  stored_ok loaded_inv w -> pVersion m = 3%N -> run (decryptPkmsg C r d m) w = (Ok pt, w') ->
  exists w2, run (decryptPkmsg C r d m) w' = (Err EDuplicateMessage, w2) /\ unchanged w' w2.
Proof using Hok.
  intros Hw Hv H. destruct (decryptPkmsg_after _ _ _ _ _ _ Hw Hv H) as (rec' & H1 & H2 & H3 & _ & H4 & _).
  by eapply pkmsg_duplicate.
Qed.

(** ** C42 *)

Lemma consumed_erased s key n : state_inv s -> consumed s key n -> ~ holds_key s key n.
Proof.
  intros (_ & _ & Hd & _) (c & j & Hf & Hlt & Hne) (c' & Hc' & Hk & Hh).
  apply find_chain_some in Hf as (l1 & l2 & Hl & _ & Hp & Hl1).
  assert (chain_pub c' = Ok key) as Hp'.
  { unfold chain_pub. rewrite Hk, default_Some. apply decodePoint_serialize. by eapply decodePoint_length. }
  assert (c' = c) as ->.
  { rewrite Hl in Hc', Hd. rewrite fmap_app, fmap_cons in Hd. apply NoDup_app in Hd as (_ & Hd1 & Hd2).
    apply elem_of_app in Hc' as [Hc'|Hc'].
    - rewrite Forall_forall in Hl1. destruct (Hl1 _ Hc') as (k & Hk' & Hk''). congruence.
    - apply elem_of_cons in Hc' as [|Hc']; [done|]. apply NoDup_cons in Hd2 as [Hd2 _].
      destruct Hd2. rewrite Hp, <- Hp'. by apply elem_of_list_fmap_1. }
  destruct Hh as [Hle|(k & Hin & Hkn)].
  - unfold ch_idx in Hlt. lia.
  - rewrite Forall_forall in Hne. by apply (Hne k).
Qed.

Lemma erased_msg r d m w pt w' :
  stored_ok loaded_inv w -> run (decryptMsg C r d m) w = (Ok pt, w') ->
  exists rec', session_at w' r d = Ok rec' /\ ~ holds_key (sr_state rec') (wRatchetKey m) (wCounter m).
Proof.
  intros Hw (rec & rec' & Hs & Hrec & Hd & w1 & Hsame & ->)%decryptMsg_ok.
  pose proof (proj1 (Hw _ _ _ Hrec)) as Hi.
  pose proof (decrypted_inv C _ _ _ _ Hi Hd) as Hi'. pose proof Hi' as (Hwf & _ & [Hs' _]%Forall_cons).
  exists (SessionRecord false (sr_state rec') (sr_previous rec')). split; [by apply session_stored|].
  apply consumed_erased; [done|]. by apply (decrypted_duplicate _ _ _ _ Hi Hd).
Qed.

Lemma erased_pkmsg r d m w pt w' :
  stored_ok loaded_inv w -> pVersion m = 3%N -> run (decryptPkmsg C r d m) w = (Ok pt, w') ->
  exists rec', session_at w' r d = Ok rec' /\ ~ holds_key (sr_state rec') (wRatchetKey (pMessage m)) (wCounter (pMessage m)).
Proof.
  intros Hw Hv H. destruct (decryptPkmsg_after _ _ _ _ _ _ Hw Hv H) as (rec' & H1 & _ & _ & Hi & _ & Hc).
  exists rec'. split; [done|]. by apply consumed_erased.
Qed.

(** ** C43 *)

Lemma answers_verdict s m : answers C s m (verdict C s m).
Proof using Hok.
  intros w. destruct (run_decryptWithSessionState C Hok s m w) as (w' & _ & ->). cbn [fst].
  apply verdict_eq. by apply kp_at_ok.
Qed.

Lemma order_msg r d m w rec :
  stored_ok loaded_inv w -> is_Some (w_sessions w !! (r, d)) -> session_at w r d = Ok rec ->
  let '(o, w') := run (decryptMsg C r d m) w in
  (exists i s, states rec !! i = Some s /\
     (forall k s', k < i -> states rec !! k = Some s' -> answers C s' m (Err EInvalidMessage)) /\
     answers C s m o /\ o <> Err EInvalidMessage /\
     (forall pt, o = Ok pt -> exists s' w1, (run (decryptWithSessionState C s m) w1).1 = Ok (pt, s') /\
        exists rec', session_at w' r d = Ok rec' /\
          states rec' = s' :: take i (states rec) ++ drop (S i) (states rec))) \/
  ((forall k s', states rec !! k = Some s' -> answers C s' m (Err EInvalidMessage)) /\ o = Err EInvalidMessage).
Proof using Hok.
  intros Hw Hs Hrec. pose proof (proj1 (Hw _ _ _ Hrec)) as Hi. pose proof Hi as (_ & Hl & _).
  unfold decryptMsg. rewrite run_bind, run_do. cbn [step_call]. rewrite bool_decide_eq_true_2 by done.
  rewrite run_bind, run_do, load_session, Hrec, run_bind.
  destruct (run_decryptWithSessionRecord C Hok rec m w) as (w1 & Hw1 & [(j & s & n & Hj & Hb & Hv & Hr)|(Hb & Hr)]).
  - rewrite Hr. pose proof (kp_at_ok C Hok w n) as Hkp. pose proof (verdict_eq C s m _ Hkp) as Hve.
    destruct (decryptPure C s m (kp_at C w n)) as [[pt s']|e] eqn:E.
    + rewrite bind_ok, run_bind, run_do. cbn [step_call fst snd run]. left. exists j, s. split_and!.
      * done.
      * intros k x Hk Hx. rewrite <- (Hb k x Hk Hx). apply answers_verdict.
      * cbn in Hve. rewrite Hve. apply answers_verdict.
      * done.
      * intros pt' [= <-]. exists s', (w_set_pos n w). split.
        { destruct (run_decryptWithSessionState C Hok s m (w_set_pos n w)) as (w2 & _ & ->). exact E. }
        assert (decrypted C rec m pt (record_after j s' rec)) as Hdec by (exists j, s, (kp_at C w n), s'; done).
        exists (SessionRecord false (sr_state (record_after j s' rec)) (sr_previous (record_after j s' rec))). split.
        -- apply session_stored. by apply (decrypted_inv C _ _ _ _ Hi Hdec).
        -- change (states (SessionRecord false ?a ?b)) with (sr_states (record_after j s' rec)).
           rewrite (record_after_states _ _ _ _ Hl Hj). by rewrite delete_take_drop.
    + left. exists j, s. split_and!.
      * done.
      * intros k x Hk Hx. rewrite <- (Hb k x Hk Hx). apply answers_verdict.
      * cbn in Hve. replace (Err e : res bytes) with (verdict C s m) by done. apply answers_verdict.
      * cbn in Hve. congruence.
      * done.
  - rewrite Hr. right. split; [|done]. intros k x Hx. rewrite <- (Hb k x Hx). apply answers_verdict.
Qed.

(** ** C41 *)

(** The stores a killed decryptPkmsg can leave behind. *)
Lemma crash_pkmsg_cases n r d m w :
  let w' := (run_crash n (decryptPkmsg C r d m) w).2 in
  (unchanged w w') \/
  (trusts w r (pIdentityKey m) /\ unchanged_but_trust w w' /\ w_trusted w' = <[r := pIdentityKey m]> (w_trusted w)) \/
  (exists pt wf, run (decryptPkmsg C r d m) w = (Ok pt, wf) /\
     w_sessions w' = w_sessions wf /\ w_trusted w' = w_trusted wf /\ w_signed w' = w_signed wf /\
     w_identity w' = w_identity wf /\ w_regid w' = w_regid wf /\
     (w_prekeys w' = w_prekeys w \/ w_prekeys w' = w_prekeys wf)).
Proof.
  cbv zeta. pose proof (run_crash_some n (decryptPkmsg C r d m) w) as Hsome.
  destruct (run_crash n (decryptPkmsg C r d m) w) as [[o|] w'] eqn:E; cbn [snd].
  { specialize (Hsome _ _ eq_refl). destruct o as [pt|e].
    - right. right. exists pt, w'. split_and!; auto.
    - pose proof Hsome as Hs. apply decryptPkmsg_err in Hs as [H|(Hn & Hu & Ht)]; [by left|].
      right. left. split_and!; [by left|done|done]. }
  clear Hsome. unfold decryptPkmsg in *.
  destruct (run_crash_bind n (do (CLoadSession r d))
     (fun rec => x ← builder_process C r rec m; y ← decryptWithSessionRecord C x.1 (pMessage m);
        _ ← do (CStoreSession r d y.2);
        match x.2 with Some i => _ ← do (CRemovePreKey i); Ret y.1 | None => Ret y.1 end) w)
    as [(v & Hv & Hc)|[(e & v & Hv & Hc)|(rec & v & n1 & Hv & Hc)]]; rewrite Hc in E; [|done|].
  { injection E as <-. left. pose proof (run_crash_readonly n (do (CLoadSession r d)) w) as Hro.
    rewrite Hv in Hro. apply unchanged_same, Hro. by apply readonly_do. }
  rewrite (run_bind (do (CLoadSession r d))), Hv.
  rewrite run_do, load_session in Hv. injection Hv as Hrec <-. clear Hc n.
  match type of E with run_crash n1 (?p ≫= ?f) w = _ =>
    destruct (run_crash_bind n1 p f w) as [(v & Hv & Hc)|[(e & v & Hv & Hc)|(x & v & n2 & Hv & Hc)]] end;
    rewrite Hc in E; [|done|].
  { injection E as <-. unfold builder_process in Hv.
    match type of Hv with run_crash n1 (?p ≫= ?f) w = _ =>
      destruct (run_crash_bind n1 p f w) as [(v1 & Hv1 & Hc1)|[(e & v1 & Hv1 & Hc1)|(x & v1 & n2 & Hv1 & Hc1)]] end;
      rewrite Hc1 in Hv; [|done|].
    { injection Hv as <-. left. pose proof (run_crash_readonly n1 (do (CIsTrusted r (pIdentityKey m))) w) as Hro.
      rewrite Hv1 in Hro. apply unchanged_same, Hro. by apply readonly_do. }
    rewrite run_do in Hv1.
    destruct (trusted_cases w r (pIdentityKey m)) as [[Htr Ht]|[_ Ht]];
      rewrite Ht in Hv1; injection Hv1 as <- <-; [|done].
    match type of Hv with run_crash n2 (?p ≫= ?f) w = _ =>
      destruct (run_crash_bind n2 p f w) as [(v1 & Hv1 & Hc2)|[(e & v1 & Hv1 & Hc2)|(x & v1 & n3 & Hv1 & Hc2)]] end;
      rewrite Hc2 in Hv; [|done|].
    { injection Hv as <-. left. pose proof (run_crash_readonly n2 (processV3 C rec m) w) as Hro.
      rewrite Hv1 in Hro. apply unchanged_same, Hro. apply readonly_processV3. }
    apply run_readonly_eq in Hv1; [|apply readonly_processV3].
    destruct n3; [injection Hv as <-; left; by apply unchanged_same|done]. }
  rewrite (run_bind (builder_process C r rec m)), Hv.
  unfold builder_process in Hv. apply run_bind_ok in Hv as (tr & w1 & H2 & Hx).
  rewrite run_do in H2. destruct (trusted_cases w r (pIdentityKey m)) as [[Htr Ht]|[_ Ht]];
    rewrite Ht in H2; injection H2 as <- <-; [|done].
  apply run_bind_ok in Hx as ([rec1 used] & w1 & Hy & Hx).
  rewrite run_bind, run_do in Hx. cbn [step_call] in Hx. injection Hx as <- <-. cbn [fst snd] in *.
  apply run_readonly_eq in Hy; [|apply readonly_processV3].
  set (w2 := w_set_trusted _ _) in *.
  assert (unchanged_but_trust w w2 /\ w_trusted w2 = <[r := pIdentityKey m]> (w_trusted w)) as [Hu2 Ht2].
  { unfold same_stores in Hy. destruct_and! Hy. unfold w2, unchanged_but_trust. cbn. split_and!; congruence. }
  match type of E with run_crash n2 (?p ≫= ?f) w2 = _ =>
    destruct (run_crash_bind n2 p f w2) as [(v & Hv & Hc2)|[(e & v & Hv & Hc2)|([pt rec2] & v & n3 & Hv & Hc2)]] end;
    rewrite Hc2 in E; [|done|].
  - injection E as <-. right. left.
    pose proof (run_crash_readonly n2 (decryptWithSessionRecord C rec1 (pMessage m)) w2) as Hro.
    rewrite Hv in Hro. specialize (Hro (readonly_decryptWithSessionRecord _ _ _)). cbn [snd] in Hro.
    unfold same_stores, unchanged_but_trust in *. destruct_and! Hro. destruct_and! Hu2. split_and!; congruence.
  - rewrite run_bind, Hv. apply run_readonly_eq in Hv; [|apply readonly_decryptWithSessionRecord].
    cbn [fst snd] in E. right.
    assert (unchanged_but_trust w v /\ w_trusted v = <[r := pIdentityKey m]> (w_trusted w)) as [Hu3 Ht3].
    { unfold same_stores, unchanged_but_trust in *. destruct_and! Hv. destruct_and! Hu2. split_and!; congruence. }
    destruct n3 as [|n3]; [injection E as <-; by left|]. cbn [run_crash step_call do] in E.
    right. destruct used as [i|]; [|done]. destruct n3 as [|n3]; [|done]. injection E as <-.
    eexists pt, _. split; [rewrite run_bind, run_do; cbn [step_call snd]; rewrite run_bind, run_do; cbn [step_call]; done|].
    cbn. split_and!; try done. left. by destruct Hu3 as (_ & -> & _).
Qed.

Lemma crash_pkmsg n r d m w pt w' :
  stored_ok loaded_inv w -> pVersion m = 3%N ->
  (run (decryptPkmsg C r d m) w).1 = Ok pt -> (run_crash n (decryptPkmsg C r d m) w).2 = w' ->
  (run (decryptPkmsg C r d m) w').1 = Ok pt \/
  (exists w2, run (decryptPkmsg C r d m) w' = (Err EDuplicateMessage, w2) /\ unchanged w' w2).
Proof using Hok.
  intros Hw Hv Hpt <-. set (w' := (run_crash _ _ _).2).
  destruct (run (decryptPkmsg C r d m) w) as [o wf] eqn:Er. cbn [fst] in Hpt. subst o.
  pose proof (decryptPkmsg_ok C _ _ _ _ _ _ Er) as (rec & _ & _ & _ & _ & _ & Hrec & Ht & _).
  pose proof (crash_pkmsg_cases n r d m w) as Hc. cbv zeta in Hc. fold w' in Hc. clearbody w'.
  destruct Hc as [Hu|[(_ & Hu & Htr)|(pt' & wf' & Hr & Hs)]].
  - left. unfold unchanged in Hu. destruct_and! Hu.
    replace (Ok pt) with ((run (decryptPkmsg C r d m) w).1) by (by rewrite Er).
    apply (run_decryptPkmsg_fst C Hok); [done|by unfold same_reads|done|].
    unfold trusts in *. by match goal with H : w_trusted w' = _ |- _ => rewrite H end.
  - left. unfold unchanged_but_trust in Hu. destruct_and! Hu.
    replace (Ok pt) with ((run (decryptPkmsg C r d m) w).1) by (by rewrite Er).
    apply (run_decryptPkmsg_fst C Hok); [done|by unfold same_reads|done|].
    right. by rewrite Htr, lookup_insert.
  - right. rewrite Er in Hr. injection Hr as <- <-.
    destruct (decryptPkmsg_after _ _ _ _ _ _ Hw Hv Er) as (rec' & H1 & H2 & H3 & _ & H4 & _). destruct_and! Hs.
    eapply pkmsg_duplicate; [|exact H2| |exact H4].
    + rewrite <- H1. unfold session_at. by match goal with H : w_sessions w' = _ |- _ => rewrite H end.
    + by match goal with H : w_trusted w' = _ |- _ => rewrite H end.
Qed.

(** The prekey is only removed after the session is stored. *)
Lemma crash_pkmsg_prekey n r d m w w' :
  stored_ok loaded_inv w -> pVersion m = 3%N ->
  (run_crash n (decryptPkmsg C r d m) w).2 = w' ->
  w_prekeys w' = w_prekeys w \/
  exists rec', session_at w' r d = Ok rec' /\ belongs rec' (pVersion m) (pBaseKey m).
Proof.
  intros Hw Hv <-. set (w' := (run_crash _ _ _).2).
  pose proof (crash_pkmsg_cases n r d m w) as Hc. cbv zeta in Hc. fold w' in Hc. clearbody w'.
  destruct Hc as [Hu|[(_ & Hu & Htr)|(pt' & wf' & Hr & Hs)]].
  - left. apply Hu.
  - left. apply Hu.
  - right. destruct (decryptPkmsg_after _ _ _ _ _ _ Hw Hv Hr) as (rec' & H1 & H2 & _).
    exists rec'. split; [|done]. rewrite <- H1. unfold session_at. destruct_and! Hs.
    by match goal with H : w_sessions w' = _ |- _ => rewrite H end.
Qed.
End history.
