(** Proofs of the session properties that follow from the control flow. *)
From Verif Require Import PyBase Wire Protos ProtoFacts Crypto Ecc Kdf Messages State Prog Ratchet Builder Cipher Helper.
From Verif Require Import ProgFacts StateFacts UtilFacts HelperFacts MsgFacts CipherFacts DecryptFacts SpecSession.

Lemma unchanged_refl w : unchanged w w.
Proof. done. Qed.
Lemma unchanged_same w w' : same_stores w w' -> unchanged w w'.
Proof. unfold same_stores, unchanged. intuition congruence. Qed.

Lemma trusted_true w r k : trusts w r k ->
  step_call (CIsTrusted r k) w = (Ok true, w).
Proof.
  intros [H|H]; cbn [step_call]; rewrite H; [done|]. unfold pub_eqb. by rewrite bool_decide_eq_true_2.
Qed.
Lemma trusted_false w r k : distrusts w r k ->
  step_call (CIsTrusted r k) w = (Ok false, w).
Proof.
  intros (k' & H & Hne); cbn [step_call]; rewrite H. unfold pub_eqb. by rewrite bool_decide_eq_false_2.
Qed.
Lemma trusted_cases w r k :
  (trusts w r k /\ step_call (CIsTrusted r k) w = (Ok true, w)) \/
  (distrusts w r k /\ step_call (CIsTrusted r k) w = (Ok false, w)).
Proof.
  destruct (w_trusted w !! r) as [k'|] eqn:E.
  - destruct (decide (k' = k)) as [->|].
    + left. assert (trusts w r k) by (by right). split; [done|by apply trusted_true].
    + right. assert (distrusts w r k) by (by exists k'). split; [done|by apply trusted_false].
  - left. assert (trusts w r k) by (by left). split; [done|by apply trusted_true].
Qed.

Lemma load_session w r d : step_call (CLoadSession r d) w = (session_at w r d, w).
Proof. done. Qed.

Section session.
Context (C : crypto).

(** ** C03, C04 *)

Lemma decryptMsg_err r d m w e w' :
  run (decryptMsg C r d m) w = (Err e, w') -> unchanged w w'.
Proof.
  unfold decryptMsg. intros [H|(has & w1 & H1 & H)]%run_bind_err.
  { rewrite run_do in H. injection H as _ <-. apply unchanged_refl. }
  rewrite run_do in H1. injection H1 as <- <-.
  destruct (bool_decide _); [|injection H as <- <-; apply unchanged_refl].
  apply run_bind_err in H as [H|(rec & w1 & H1 & H)].
  { rewrite run_do, load_session in H. injection H as _ <-. apply unchanged_refl. }
  rewrite run_do, load_session in H1. injection H1 as H1 <-.
  apply run_bind_err in H as [H|(x & w1 & Hx & H)].
  { apply unchanged_same. eapply run_readonly_eq; [apply readonly_decryptWithSessionRecord|exact H]. }
  rewrite run_bind, run_do in H. done.
Qed.

Lemma decryptPkmsg_err r d m w e w' :
  run (decryptPkmsg C r d m) w = (Err e, w') ->
  unchanged w w' \/
  (w_trusted w !! r = None /\ unchanged_but_trust w w' /\
   w_trusted w' = <[r := pIdentityKey m]> (w_trusted w)).
Proof.
  unfold decryptPkmsg. intros [H|(rec & w1 & H1 & H)]%run_bind_err.
  { rewrite run_do, load_session in H. injection H as _ <-. left. apply unchanged_refl. }
  rewrite run_do, load_session in H1. injection H1 as H1 <-.
  unfold builder_process in H.
  apply run_bind_err in H as [H|(x & w2 & Hx & H)].
  - apply run_bind_err in H as [H|(tr & w1 & H2 & H)].
    { rewrite run_do in H. injection H as _ <-. left. apply unchanged_refl. }
    rewrite run_do in H2. destruct (trusted_cases w r (pIdentityKey m)) as [[_ Ht]|[_ Ht]];
      rewrite Ht in H2; injection H2 as <- <-; [|injection H as _ <-; left; apply unchanged_refl].
    apply run_bind_err in H as [H|(y & w3 & Hy & H)].
    { left. apply unchanged_same. eapply run_readonly_eq; [apply readonly_processV3|exact H]. }
    rewrite run_bind, run_do in H. done.
  - apply run_bind_ok in Hx as (tr & w1 & H2 & Hx).
    rewrite run_do in H2. destruct (trusted_cases w r (pIdentityKey m)) as [[Htr Ht]|[_ Ht]];
      rewrite Ht in H2; injection H2 as <- <-; [|done].
    apply run_bind_ok in Hx as (y & w3 & Hy & Hx).
    apply run_readonly_eq in Hy; [|apply readonly_processV3].
    rewrite run_bind, run_do in Hx. cbn [step_call] in Hx. injection Hx as <- <-.
    apply run_bind_err in H as [H|(z & w4 & Hz & H)].
    + apply run_readonly_eq in H; [|apply readonly_decryptWithSessionRecord].
      unfold same_stores in *. cbn [w_set_trusted w_sessions w_prekeys w_signed w_trusted w_identity w_regid w_senderkeys w_tape] in H.
      destruct_and! H. destruct_and! Hy.
      destruct Htr as [Htr|Htr].
      * right. unfold unchanged_but_trust. split_and!; congruence.
      * left. unfold unchanged. split_and!; try congruence.
        assert (w_trusted w3 = w_trusted w) as E by done.
        rewrite E in *. rewrite insert_id in * by done. congruence.
    + rewrite run_bind, run_do in H. cbn [step_call] in H.
      destruct y as [y1 [i|]]; cbn [snd] in H; [rewrite run_bind, run_do in H|]; done.
Qed.

(** ** C13 *)

Lemma untrusted_bundle r d b w :
  distrusts w r (bu_identityKey b) ->
  run (processPreKeyBundle C r d b) w = (Err (EUntrustedIdentity r (bu_identityKey b)), w).
Proof. intros H. unfold processPreKeyBundle. rewrite run_bind, run_do, trusted_false by done. done. Qed.

Lemma untrusted_pkmsg r d m w :
  distrusts w r (pIdentityKey m) -> is_ok (session_at w r d) ->
  run (decryptPkmsg C r d m) w = (Err (EUntrustedIdentity r (pIdentityKey m)), w).
Proof.
  intros H Hs. unfold decryptPkmsg. rewrite run_bind, run_do, load_session.
  destruct (session_at w r d); [|done]. unfold builder_process.
  rewrite !run_bind, run_do, trusted_false by done. done.
Qed.

Lemma untrusted_kx r d m w :
  distrusts w r (xIdentityKey m) ->
  run (processKeyExchangeMessage C r d m) w = (Err (EUntrustedIdentity r (xIdentityKey m)), w).
Proof. intros H. unfold processKeyExchangeMessage. rewrite run_bind, run_do, trusted_false by done. done. Qed.

(** ** C14 *)

Lemma bundle_no_signed r d b w :
  trusts w r (bu_identityKey b) -> bu_signedPreKey b = None ->
  run (processPreKeyBundle C r d b) w = (Err EInvalidKey, w).
Proof.
  intros H Hb. unfold processPreKeyBundle. rewrite run_bind, run_do, trusted_true by done. by rewrite Hb.
Qed.

Lemma verifySignature_spec pub msg sig :
  length pub = 32 -> length sig = 64 ->
  exists b, verifySignature C pub msg sig = Ok b /\ (b = true <-> verifies C pub msg sig).
Proof.
  intros Hp Hs. unfold verifySignature, c_verifySignature. rewrite Hp, Hs. cbn [Nat.eqb andb]. rewrite bind_ok.
  eexists. split; [done|]. rewrite Z.eqb_eq. unfold verifies. tauto.
Qed.

Lemma verifySignature_len pub msg sig :
  ~ (length pub = 32 /\ length sig = 64) -> verifySignature C pub msg sig = Err EValueError.
Proof.
  intros H. unfold verifySignature, c_verifySignature.
  destruct (length pub =? 32)%nat eqn:E1; [|done]. destruct (length sig =? 64)%nat eqn:E2; [|done].
  apply Nat.eqb_eq in E1, E2. tauto.
Qed.

Lemma verifySignature_true pub msg sig :
  verifySignature C pub msg sig = Ok true -> verifies C pub msg sig.
Proof.
  destruct (decide (length pub = 32 /\ length sig = 64)) as [[H1 H2]|H].
  - destruct (verifySignature_spec pub msg sig H1 H2) as (b & -> & Hb). intros [= ->]. by apply Hb.
  - by rewrite verifySignature_len.
Qed.

Lemma bundle_bad_signature r d b k w :
  trusts w r (bu_identityKey b) -> bu_signedPreKey b = Some k ->
  length (bu_identityKey b) = 32 -> length (bu_signedPreKeySignature b) = 64 ->
  ~ verifies C (bu_identityKey b) (x05 :: k) (bu_signedPreKeySignature b) ->
  run (processPreKeyBundle C r d b) w = (Err EInvalidKey, w).
Proof.
  intros H Hb H1 H2 Hv. unfold processPreKeyBundle. rewrite run_bind, run_do, trusted_true by done.
  rewrite Hb, run_bind, run_lift.
  destruct (verifySignature_spec (bu_identityKey b) (pub_serialize k) (bu_signedPreKeySignature b) H1 H2) as (t & -> & Hb').
  destruct t; [|done]. by destruct Hv; apply Hb'.
Qed.

Lemma bundle_bad_length r d b k w :
  trusts w r (bu_identityKey b) -> bu_signedPreKey b = Some k ->
  ~ (length (bu_identityKey b) = 32 /\ length (bu_signedPreKeySignature b) = 64) ->
  run (processPreKeyBundle C r d b) w = (Err EValueError, w).
Proof.
  intros H Hb H1. unfold processPreKeyBundle. rewrite run_bind, run_do, trusted_true by done.
  by rewrite Hb, run_bind, run_lift, verifySignature_len by done.
Qed.

(** If any session changes, the bundle was trusted and correctly signed. *)
Lemma bundle_accepted r d b w o w' :
  run (processPreKeyBundle C r d b) w = (o, w') ->
  o = Ok tt \/ ~ unchanged w w' ->
  trusts w r (bu_identityKey b) /\
  exists k, bu_signedPreKey b = Some k /\ verifies C (bu_identityKey b) (x05 :: k) (bu_signedPreKeySignature b).
Proof.
  intros Hrun Ho.
  destruct (trusted_cases w r (bu_identityKey b)) as [[Ht _]|[Ht _]].
  2: { rewrite untrusted_bundle in Hrun by done. injection Hrun as <- <-.
       destruct Ho as [|Ho]; [done|]. by destruct Ho. }
  split; [done|].
  destruct (bu_signedPreKey b) as [k|] eqn:Hk.
  2: { rewrite bundle_no_signed in Hrun by done. injection Hrun as <- <-.
       destruct Ho as [|Ho]; [done|]. by destruct Ho. }
  exists k. split; [done|].
  destruct (decide (length (bu_identityKey b) = 32 /\ length (bu_signedPreKeySignature b) = 64)) as [[H1 H2]|H].
  2: { rewrite (bundle_bad_length r d b k) in Hrun by done. injection Hrun as <- <-.
       destruct Ho as [|Ho]; [done|]. by destruct Ho. }
  destruct (decide (verify C (bu_identityKey b) (x05 :: k) (bu_signedPreKeySignature b) = 0%Z)) as [Hz|Hz]; [done|].
  rewrite (bundle_bad_signature r d b k) in Hrun; [|try done..].
  - injection Hrun as <- <-. destruct Ho as [|Ho]; [done|]. by destruct Ho.
  - intros (_ & _ & ?). done.
Qed.

(** On failure nothing changes. *)
Lemma bundle_err r d b w e w' :
  run (processPreKeyBundle C r d b) w = (Err e, w') -> unchanged w w'.
Proof.
  unfold processPreKeyBundle.
  intros [H|(tr & w1 & H1 & H)]%run_bind_err; [rewrite run_do in H; by injection H as _ <-|].
  rewrite run_do in H1. injection H1 as H1 <-.
  destruct tr; [|by injection H as _ <-].
  destruct (bu_signedPreKey b) as [k|]; [|by injection H as _ <-].
  apply run_bind_err in H as [H|(ok & w1 & H2 & H)]; [rewrite run_lift in H; by injection H as _ <-|].
  rewrite run_lift in H2. injection H2 as H2 <-.
  destruct ok; [|by injection H as _ <-].
  assert (forall A (p : prog A) (f : A -> prog unit) w0,
    readonly p -> (forall a w1, same_stores w w1 -> run (f a) w1 = (Err e, w') -> unchanged w w') ->
    same_stores w w0 -> run (p ≫= f) w0 = (Err e, w') -> unchanged w w') as step.
  { intros A p f w0 Hp Hf Hw0 [H'|(a & w1 & Hpr & H')]%run_bind_err.
    - apply unchanged_same. eapply same_stores_trans; [done|]. by eapply run_readonly_eq.
    - apply (Hf a w1); [|done]. eapply same_stores_trans; [done|]. by eapply run_readonly_eq. }
  revert H. refine (step _ _ _ _ _ _ _); [by ro| |done].
  intros rec w1 Hw1. refine (step _ _ _ _ _ _ Hw1); [by ro|]. clear w1 Hw1.
  intros bk w1 Hw1. refine (step _ _ _ _ _ _ Hw1); [by ro|]. clear w1 Hw1.
  intros id w1 Hw1. refine (step _ _ _ _ _ _ Hw1); [apply readonly_initializeSessionAsAlice|]. clear w1 Hw1.
  intros s w1 Hw1. refine (step _ _ _ _ _ _ Hw1); [by ro|]. clear w1 Hw1.
  intros s1 w1 Hw1. refine (step _ _ _ _ _ _ Hw1); [by ro|]. clear w1 Hw1.
  intros reg w1 Hw1. refine (step _ _ _ _ _ _ Hw1); [by ro|]. clear w1 Hw1.
  intros s2 w1 Hw1. refine (step _ _ _ _ _ _ Hw1); [by ro|]. clear w1 Hw1.
  intros s3 w1 Hw1. rewrite run_bind, run_do. cbn [step_call]. rewrite run_do. done.
Qed.

(** ** C16 *)

Lemma st_matches_spec v k s :
  st_matches v (pub_serialize k) s = true <->
  st_getSessionVersion s = v /\ ss_aliceBaseKey s = Some (x05 :: k).
Proof.
  unfold st_matches. rewrite andb_true_iff, N.eqb_eq, bool_decide_eq_true.
  unfold st_getAliceBaseKey, pub_serialize. destruct (ss_aliceBaseKey s) as [b|]; cbn; [|split; intros [??]; congruence].
  split; intros [??]; split; congruence.
Qed.

Lemma hasSessionState_spec rec v k :
  sr_hasSessionState v (pub_serialize k) rec = true <-> belongs rec v k.
Proof.
  unfold sr_hasSessionState, belongs. rewrite orb_true_iff, existsb_exists, st_matches_spec.
  setoid_rewrite st_matches_spec. setoid_rewrite <- elem_of_list_In. split.
  - intros [H|(x & Hx & H)]; [exists (sr_state rec)|exists x]; auto.
  - intros (x & [->|Hx] & H); [by left|right; eauto].
Qed.

Lemma belongs_stored w r d rec v k :
  session_at w r d = Ok rec -> belongs rec v k -> is_Some (w_sessions w !! (r, d)).
Proof.
  unfold session_at. destruct (w_sessions w !! (r, d)) as [bs|] eqn:E; [eauto|].
  intros [= <-] (s & [->|Hs%elem_of_nil] & _ & Hb); done.
Qed.

Lemma pkmsg_belongs r d m w rec :
  session_at w r d = Ok rec -> belongs rec (pVersion m) (pBaseKey m) -> trusts w r (pIdentityKey m) ->
  run (decryptPkmsg C r d m) w
  = run (decryptMsg C r d (pMessage m)) (w_set_trusted (<[r := pIdentityKey m]> (w_trusted w)) w).
Proof.
  intros Hrec Hb Ht. unfold decryptPkmsg, decryptMsg.
  rewrite run_bind, run_do, load_session, Hrec. unfold builder_process.
  rewrite !run_bind, !run_do, trusted_true by done. rewrite run_bind.
  unfold processV3. rewrite (proj2 (hasSessionState_spec _ _ _)) by done.
  rewrite run_ret, run_bind, run_do. cbn [step_call].
  cbn [run w_set_trusted w_sessions]. rewrite bool_decide_eq_true_2 by (by eapply belongs_stored).
  rewrite !run_bind, run_do, load_session.
  assert (session_at (w_set_trusted (<[r := pIdentityKey m]> (w_trusted w)) w) r d = Ok rec) as -> by done.
  rewrite !run_bind. cbn [fst snd].
  destruct (run (decryptWithSessionRecord C rec (pMessage m)) _) as [[x|e] w1]; [|done].
  rewrite !run_bind, !run_do. done.
Qed.

Lemma decryptMsg_prekeys r d m w : w_prekeys (run (decryptMsg C r d m) w).2 = w_prekeys w.
Proof.
  destruct (run (decryptMsg C r d m) w) as [[pt|e] w'] eqn:E; cbn [snd].
  - unfold decryptMsg in E. apply run_bind_ok in E as (has & w1 & H1 & E).
    rewrite run_do in H1. injection H1 as <- <-. destruct (bool_decide _); [|done].
    apply run_bind_ok in E as (rec & w1 & H1 & E). rewrite run_do, load_session in H1. injection H1 as _ <-.
    apply run_bind_ok in E as (x & w1 & H1 & E).
    apply run_readonly_eq in H1; [|apply readonly_decryptWithSessionRecord].
    rewrite run_bind, run_do in E. cbn [step_call] in E. injection E as _ <-.
    cbn [w_set_sessions w_prekeys]. by destruct H1 as (_ & -> & _).
  - apply decryptMsg_err in E. by destruct E as (_ & -> & _).
Qed.

(** ** C17 *)

Lemma processV3_used rec m w x w' :
  run (processV3 C rec m) w = (Ok x, w') ->
  (belongs rec (pVersion m) (pBaseKey m) /\ x = (rec, None)) \/
  (~ belongs rec (pVersion m) (pBaseKey m) /\
   x.2 = match pPreKeyId m with Some i => if (i =? 16777215)%N then None else Some i | None => None end).
Proof.
  unfold processV3. destruct (sr_hasSessionState _ _ _) eqn:E.
  - intros [= <- <-]. left. by apply hasSessionState_spec in E.
  - intros H. right. split.
    { intros Hb%hasSessionState_spec. congruence. }
    apply run_bind_ok in H as (? & ? & _ & H). apply run_bind_ok in H as (? & ? & _ & H).
    apply run_bind_ok in H as (? & ? & _ & H). apply run_bind_ok in H as (? & ? & _ & H).
    apply run_bind_ok in H as (? & ? & _ & H). apply run_bind_ok in H as (? & ? & _ & H).
    apply run_bind_ok in H as (? & ? & _ & H). apply run_bind_ok in H as (? & ? & _ & H).
    injection H as <- _. done.
Qed.

(** What a successful decryptPkmsg does to the stores. *)
Lemma decryptPkmsg_ok r d m w pt w' :
  run (decryptPkmsg C r d m) w = (Ok pt, w') ->
  exists rec rec1 used w1 rec2 w2,
    session_at w r d = Ok rec /\ trusts w r (pIdentityKey m) /\
    run (processV3 C rec m) w = (Ok (rec1, used), w1) /\ same_stores w w1 /\
    run (decryptWithSessionRecord C rec1 (pMessage m)) (w_set_trusted (<[r := pIdentityKey m]> (w_trusted w1)) w1)
      = (Ok (pt, rec2), w2) /\
    same_stores (w_set_trusted (<[r := pIdentityKey m]> (w_trusted w1)) w1) w2 /\
    w' = match used with
         | Some i => w_set_prekeys (delete i (w_prekeys w2)) (w_set_sessions (<[(r, d) := sr_serialize rec2]> (w_sessions w2)) w2)
         | None => w_set_sessions (<[(r, d) := sr_serialize rec2]> (w_sessions w2)) w2
         end.
Proof.
  unfold decryptPkmsg. intros (rec & w0 & H0 & H)%run_bind_ok.
  rewrite run_do, load_session in H0. injection H0 as H0 <-.
  apply run_bind_ok in H as (x & w2 & Hx & H). unfold builder_process in Hx.
  apply run_bind_ok in Hx as (tr & w1 & H2 & Hx).
  rewrite run_do in H2. destruct (trusted_cases w r (pIdentityKey m)) as [[Htr Ht]|[_ Ht]];
    rewrite Ht in H2; injection H2 as <- <-; [|done].
  apply run_bind_ok in Hx as ([rec1 used] & w1 & Hy & Hx).
  rewrite run_bind, run_do in Hx. cbn [step_call] in Hx. injection Hx as <- <-. cbn [fst snd] in H.
  apply run_bind_ok in H as ([pt' rec2] & w2 & Hz & H).
  exists rec, rec1, used, w1, rec2, w2.
  assert (pt' = pt /\ w' = match used with
         | Some i => w_set_prekeys (delete i (w_prekeys w2)) (w_set_sessions (<[(r, d) := sr_serialize rec2]> (w_sessions w2)) w2)
         | None => w_set_sessions (<[(r, d) := sr_serialize rec2]> (w_sessions w2)) w2
         end) as [-> Hw'].
  { rewrite run_bind, run_do in H. cbn [step_call] in H.
    destruct used as [i|]; [rewrite run_bind, run_do in H; cbn [step_call] in H|]; injection H as <- <-; done. }
  split_and!; try done.
  - eapply run_readonly_eq; [apply readonly_processV3|exact Hy].
  - eapply run_readonly_eq; [apply readonly_decryptWithSessionRecord|exact Hz].
Qed.

Lemma pkmsg_prekey_gone r d m w pt w' rec i :
  run (decryptPkmsg C r d m) w = (Ok pt, w') ->
  session_at w r d = Ok rec -> ~ belongs rec (pVersion m) (pBaseKey m) ->
  pPreKeyId m = Some i -> i <> 16777215%N ->
  w_prekeys w' = delete i (w_prekeys w).
Proof.
  intros (rec' & rec1 & used & w1 & rec2 & w2 & Hrec & _ & HV & Hs1 & _ & Hs2 & ->)%decryptPkmsg_ok Hrec' Hb Hi Hne.
  rewrite Hrec' in Hrec. injection Hrec as <-.
  apply processV3_used in HV as [[? _]|[_ Hu]]; [done|]. cbn [snd] in Hu. rewrite Hi in Hu.
  rewrite (proj2 (N.eqb_neq _ _)) in Hu by done. subst used.
  cbn [w_set_prekeys w_set_sessions w_prekeys].
  destruct Hs2 as (_ & -> & _). cbn [w_set_trusted w_prekeys]. by destruct Hs1 as (_ & -> & _).
Qed.

(** decryptPkmsg removes at most the prekey named in the message. *)
Lemma pkmsg_prekeys r d m w :
  let w' := (run (decryptPkmsg C r d m) w).2 in
  w_prekeys w' = w_prekeys w \/
  exists i, pPreKeyId m = Some i /\ i <> 16777215%N /\ w_prekeys w' = delete i (w_prekeys w).
Proof.
  cbv zeta. destruct (run (decryptPkmsg C r d m) w) as [[pt|e] w'] eqn:E; cbn [snd].
  - destruct (decryptPkmsg_ok _ _ _ _ _ _ E) as (rec & rec1 & used & w1 & rec2 & w2 & Hrec & _ & HV & Hs1 & _ & Hs2 & Hw').
    assert (w_prekeys w2 = w_prekeys w) as Hp.
    { destruct Hs2 as (_ & -> & _). cbn [w_set_trusted w_prekeys]. by destruct Hs1 as (_ & -> & _). }
    apply processV3_used in HV as [[_ Hx]|[_ Hu]].
    + injection Hx as _ ->. left. rewrite Hw'. done.
    + cbn [snd] in Hu. destruct (pPreKeyId m) as [i|].
      * destruct (decide (i = 16777215%N)) as [Hi|Hne].
        -- rewrite (proj2 (N.eqb_eq _ _) Hi) in Hu. left. by rewrite Hw', Hu.
        -- rewrite (proj2 (N.eqb_neq _ _) Hne) in Hu. subst used. right. exists i. split_and!; [done..|]. rewrite Hw'. cbn. by rewrite Hp.
      * subst used. left. by rewrite Hw'.
  - apply decryptPkmsg_err in E as [(_ & -> & _)|(_ & (_ & -> & _) & _)]; auto.
Qed.

Lemma pkmsg_missing_prekey r d m w rec i spr kp :
  session_at w r d = Ok rec -> ~ belongs rec (pVersion m) (pBaseKey m) ->
  trusts w r (pIdentityKey m) ->
  (w_signed w !! pSignedPreKeyId m = None \/
   w_signed w !! pSignedPreKeyId m = Some (spr_enc spr) /\ spr_wf spr /\ signedprekeyrecord_getKeyPair spr = Ok kp) ->
  pPreKeyId m = Some i -> w_prekeys w !! i = None ->
  run (decryptPkmsg C r d m) w = (Err EInvalidKeyId, w).
Proof.
  intros Hrec Hb Ht Hs Hi Hp. unfold decryptPkmsg.
  rewrite run_bind, run_do, load_session, Hrec. unfold builder_process.
  rewrite !run_bind, run_do, trusted_true by done. rewrite run_bind.
  assert (run (processV3 C rec m) w = (Err EInvalidKeyId, w)) as ->; [|done].
  unfold processV3. destruct (sr_hasSessionState _ _ _) eqn:E; [by apply hasSessionState_spec in E|].
  rewrite run_bind, run_do. cbn [step_call]. destruct Hs as [->|(-> & Hwf & Hkp)]; [done|].
  assert (signedprekeyrecord_parse (spr_enc spr) = Ok spr) as ->.
  { unfold signedprekeyrecord_parse. destruct (spr_enc spr) eqn:En; [|rewrite <- En; by apply spr_roundtrip].
    exfalso. unfold spr_enc in En. apply enc_fields_nil_inv in En. destruct spr as [a b c e f].
    unfold signedprekeyrecord_getKeyPair, stored_keypair in Hkp. cbn in Hkp.
    destruct b; [|done]. unfold spr_fields in En. cbn in En. by destruct a. }
  rewrite run_bind, run_lift, Hkp, run_bind, run_do. cbn [step_call].
  rewrite Hi, run_bind, run_bind, run_do. cbn [step_call]. by rewrite Hp.
Qed.

(** ** C21, C22 *)

Lemma stale_response r d m w rec :
  trusts w r (xIdentityKey m) -> session_at w r d = Ok rec -> kx_isInitiate m = false ->
  (forall p, ss_pendingKeyExchange (sr_state rec) = Some p -> default 0%N (px_sequence p) <> xSequence m) ->
  run (processKeyExchangeMessage C r d m) w
  = (if kx_isResponseForSimultaneousInitiate m then Ok None else Err EStaleKeyExchange, w).
Proof.
  intros Ht Hrec Hi Hp. unfold processKeyExchangeMessage.
  rewrite run_bind, run_do, trusted_true by done. rewrite Hi, run_bind. unfold processResponse.
  rewrite run_bind, run_do, load_session, Hrec.
  assert (negb (st_hasPendingKeyExchange (sr_state rec)) ||
          negb (st_getPendingKeyExchangeSequence (sr_state rec) =? xSequence m)%N = true) as ->.
  { unfold st_hasPendingKeyExchange, st_getPendingKeyExchangeSequence, st_pendingKeyExchange.
    destruct (ss_pendingKeyExchange (sr_state rec)) as [p|]; [|done]. cbn [negb orb default].
    specialize (Hp p eq_refl). rewrite (proj2 (N.eqb_neq _ _)); [done|exact Hp]. }
  by destruct (kx_isResponseForSimultaneousInitiate m).
Qed.

Lemma kx_bad_signature_unchanged r d m w o w' :
  (kx_isInitiate m = true \/
   exists rec p, session_at w r d = Ok rec /\ ss_pendingKeyExchange (sr_state rec) = Some p /\
                 default 0%N (px_sequence p) = xSequence m) ->
  ~ verifies C (xIdentityKey m) (x05 :: xBaseKey m) (xBaseKeySignature m) ->
  run (processKeyExchangeMessage C r d m) w = (o, w') ->
  (exists e, o = Err e) /\ unchanged w w'.
Proof.
  intros Hk Hv Hrun. unfold processKeyExchangeMessage in Hrun.
  rewrite run_bind, run_do in Hrun.
  destruct (trusted_cases w r (xIdentityKey m)) as [[_ Ht]|[_ Ht]]; rewrite Ht in Hrun;
    [|injection Hrun as <- <-; split; [eauto|apply unchanged_refl]].
  assert (forall o1, verifySignature C (xIdentityKey m) (pub_serialize (xBaseKey m)) (xBaseKeySignature m) = o1 ->
     o1 <> Ok true) as Hnv.
  { intros o1 <- H%verifySignature_true. done. }
  destruct (kx_isInitiate m) eqn:Ei.
  - rewrite run_bind in Hrun. unfold processInitiate in Hrun. rewrite run_bind, run_do, load_session in Hrun.
    destruct (session_at w r d) as [rec|e]; [|injection Hrun as <- <-; split; [eauto|apply unchanged_refl]].
    rewrite run_bind, run_lift in Hrun.
    destruct (verifySignature _ _ _ _) as [[]|e] eqn:Ev.
    + by destruct (Hnv _ eq_refl).
    + injection Hrun as <- <-; split; [eauto|apply unchanged_refl].
    + injection Hrun as <- <-; split; [eauto|apply unchanged_refl].
  - destruct Hk as [|(rec & p & Hrec & Hp & Hq)]; [done|].
    rewrite run_bind in Hrun. unfold processResponse in Hrun. rewrite run_bind, run_do, load_session, Hrec in Hrun.
    assert (negb (st_hasPendingKeyExchange (sr_state rec)) ||
          negb (st_getPendingKeyExchangeSequence (sr_state rec) =? xSequence m)%N = false) as E.
    { unfold st_hasPendingKeyExchange, st_getPendingKeyExchangeSequence, st_pendingKeyExchange.
      rewrite Hp. change (default px_empty (Some p)) with p. by rewrite Hq, N.eqb_refl. }
    rewrite E in Hrun.
    rewrite run_bind, run_lift in Hrun.
    destruct (st_getPendingKeyExchangeBaseKey _) as [kb|e]; [|injection Hrun as <- <-; split; [eauto|apply unchanged_refl]].
    rewrite run_bind, run_lift in Hrun.
    destruct (st_getPendingKeyExchangeRatchetKey _) as [kr|e]; [|injection Hrun as <- <-; split; [eauto|apply unchanged_refl]].
    rewrite run_bind, run_lift in Hrun.
    destruct (st_getPendingKeyExchangeIdentityKey _) as [ki|e]; [|injection Hrun as <- <-; split; [eauto|apply unchanged_refl]].
    cbv zeta in Hrun. rewrite run_bind in Hrun.
    destruct (run (initializeSession _ _ _ _ _ _ _ _) w) as [[s|e] w1] eqn:Ein;
      apply run_readonly_eq in Ein; try apply readonly_initializeSession; apply unchanged_same in Ein.
    + rewrite run_bind, run_lift in Hrun.
      destruct (verifySignature _ _ _ _) as [[]|e] eqn:Ev.
      * by destruct (Hnv _ eq_refl).
      * injection Hrun as <- <-; split; [eauto|done].
      * injection Hrun as <- <-; split; [eauto|done].
    + injection Hrun as <- <-; split; [eauto|done].
Qed.

(** ** C44 *)

Lemma other_version s m w :
  st_hasSenderChain s = false \/ wVersion m <> st_getSessionVersion s ->
  run (decryptWithSessionState C s m) w = (Err EInvalidMessage, w).
Proof.
  intros H. unfold decryptWithSessionState. destruct (st_hasSenderChain s); [|done].
  destruct H as [|H]; [done|]. cbn [negb]. by rewrite (proj2 (N.eqb_neq _ _)).
Qed.

(** ** C46 *)

Lemma no_session_decrypt r d m w :
  w_sessions w !! (r, d) = None -> run (decryptMsg C r d m) w = (Err ENoSession, w).
Proof.
  intros H. unfold decryptMsg. rewrite run_bind, run_do. cbn [step_call].
  rewrite bool_decide_eq_false_2; [done|]. rewrite H. by intros [].
Qed.

Lemma no_session_encrypt r d pt w :
  w_sessions w !! (r, d) = None -> run (encrypt C r d pt) w = (Err EIndexError, w).
Proof.
  intros H. unfold encrypt. rewrite run_bind, run_do. cbn [step_call]. by rewrite H.
Qed.

(** ** C47 *)

Lemma encrypt_last_counter r d pt w rec :
  session_at w r d = Ok rec ->
  (exists c k, ss_senderChain (sr_state rec) = Some c /\ ch_chainKey c = Some k /\
               (2 ^ 32 - 1 <= default 0 (ck_index k))%N) ->
  exists e, run (encrypt C r d pt) w = (Err e, w).
Proof.
  intros Hrec (c & k & Hc & Hk & Hi). unfold encrypt.
  rewrite run_bind, run_do, load_session, Hrec, run_bind, run_lift.
  assert (exists e, encryptWithState C (sr_state rec) pt = Err e) as (e & ->); [|eauto].
  unfold encryptWithState, st_getSenderChainKey.
  destruct (hkdf_createFor _) as [kdf|e]; [|by eauto]. rewrite !bind_ok.
  assert (2 ^ 32 - 1 <= cIndex (ch_getChainKey kdf (st_senderChain (sr_state rec))))%N as Hi'.
  { unfold ch_getChainKey, st_senderChain. rewrite Hc. change (default ch_empty (Some c)) with c. rewrite Hk. exact Hi. }
  set (ck := ch_getChainKey kdf _) in *.
  destruct (st_getSenderRatchetKey _) as [se|e]; [|by eauto]. rewrite bind_ok.
  destruct (aes_encrypt _ _ _ _) as [body|e]; [|by eauto]. rewrite bind_ok.
  destruct (st_getLocalIdentityKey _) as [li|e] eqn:El; [|by eauto]. rewrite bind_ok.
  destruct (st_getRemoteIdentityKey _) as [ri|e]; [|by eauto]. rewrite bind_ok.
  destruct (whisper_create _ _ _ _ _ _ _ _ _) as [wm|e]; [|by eauto]. rewrite bind_ok.
  match goal with |- exists e, ?m ≫= _ = _ => destruct m as [ct|e] end; [|by eauto]. rewrite bind_ok.
  unfold st_setSenderChainKey, ch_putChainKey.
  destruct (set_u32 (cIndex (ck_next C ck))) eqn:E; [|by eauto].
  apply set_u32_inv in E as [_ E]. cbn [ck_next cIndex] in E. lia.
Qed.
End session.
