(** Which exceptions the handshake calls raise (C70). *)
From Verif Require Import PyBase Wire Protos ProtoFacts Crypto Ecc Kdf Messages State Prog Ratchet Builder Cipher Groups Helper.
From Verif Require Import ProgFacts StateFacts UtilFacts HelperFacts MsgFacts CipherFacts DecryptFacts SpecSession SessionProofs LockoutProofs SpecApi SpecKeys SpecEncrypt SpecTotal.
From Verif Require Import HandshakeFacts InvFacts HistoryProofs ArchiveProofs KeyProofs EncryptProofs ChainInv SetupInv TotalProofs.

(** ** How a program ends *)

Section outcome.
Context (E : exn -> Prop).
Definition outcome {A} (p : prog A) (w : world) (Q : A -> world -> Prop) : Prop :=
  match run p w with (Ok a, w') => Q a w' | (Err e, _) => E e end.
Lemma outcome_bind {A B} (p : prog A) (f : A -> prog B) w (Q : A -> world -> Prop) (R : B -> world -> Prop) :
  outcome p w Q -> (forall a w', Q a w' -> outcome (f a) w' R) -> outcome (p ≫= f) w R.
Proof. unfold outcome. rewrite run_bind. destruct (run p w) as [[a|e] w']; [|done]. intros H Hf. by apply Hf. Qed.
Lemma outcome_lift {A} (x : res A) w (Q : A -> world -> Prop) :
  (forall a, x = Ok a -> Q a w) -> (forall e, x = Err e -> E e) -> outcome (lift x) w Q.
Proof. unfold outcome. rewrite run_lift. destruct x; auto. Qed.
Lemma outcome_do {R} (c : call R) w (Q : R -> world -> Prop) :
  match step_call c w with (Ok a, w') => Q a w' | (Err e, _) => E e end -> outcome (do c) w Q.
Proof. unfold outcome. by rewrite run_do. Qed.
Lemma outcome_ret {A} (a : A) w (Q : A -> world -> Prop) : Q a w -> outcome (Ret a) w Q.
Proof. done. Qed.
Lemma outcome_raise {A} e w (Q : A -> world -> Prop) : E e -> outcome (Raise e) w Q.
Proof. done. Qed.
Lemma outcome_mono {A} (p : prog A) w (Q R : A -> world -> Prop) :
  outcome p w Q -> (forall a w', Q a w' -> R a w') -> outcome p w R.
Proof. unfold outcome. destruct (run p w) as [[a|e] w']; auto. Qed.
Lemma outcome_err {A} (p : prog A) w Q e w' : outcome p w Q -> run p w = (Err e, w') -> E e.
Proof. unfold outcome. intros H Hr. by rewrite Hr in H. Qed.
End outcome.

Lemma extra_run {A} (K : sessionRecord -> Prop) (p : prog A) Q1 Q2 w a w' :
  K sr_new -> (forall f s l, K (SessionRecord f s l) -> K (SessionRecord false s l)) ->
  pspec loaded_inv record_inv p Q1 -> pspec (fun x => loaded_inv x /\ K x) K p Q2 ->
  stored_ok (fun x => loaded_inv x /\ K x) w -> run p w = (Ok a, w') -> Q1 a /\ Q2 a.
Proof.
  intros G0 Gf H1 H2 Hw Hr.
  assert (forall rec, (record_inv rec /\ K rec) -> rec_wf rec) as G1 by (by intros rec [[? _] _]).
  refine (proj2 (run_ok (fun x => loaded_inv x /\ K x) (fun x => record_inv x /\ K x) _ G1 _ _ _ w (pspec_both _ _ _ _ _ _ _ H1 H2) Hw) a _).
  - split; [apply loaded_inv_new|done].
  - intros f s l [Ha Hb]. split; [by eapply record_inv_fresh|by eapply Gf].
  - by rewrite Hr.
Qed.

Section total.
Context (C : crypto) (Hok : crypto_ok C).

Lemma agreement_ok pub priv : length pub = 32 -> length priv = 32 -> calculateAgreement C pub priv = Ok (agree C priv pub).
Proof. intros H1 H2. unfold calculateAgreement, c_calculateAgreement. by rewrite H1, H2. Qed.
Lemma agreement_class pub priv e : length priv = 32 -> calculateAgreement C pub priv = Err e -> e = EValueError /\ length pub <> 32.
Proof.
  intros H. unfold calculateAgreement, c_calculateAgreement. rewrite H. cbn [Nat.eqb andb].
  destruct (length pub =? 32)%nat eqn:E; [done|]. intros [= <-]. by apply Nat.eqb_neq in E.
Qed.
Lemma verify_class pub msg sig e : verifySignature C pub msg sig = Err e -> e = EValueError /\ (length pub <> 32 \/ length sig <> 64).
Proof.
  unfold verifySignature, c_verifySignature. destruct (length pub =? 32)%nat eqn:E1; cbn [andb].
  - destruct (length sig =? 64)%nat eqn:E2; [done|]. intros [= <-]. apply Nat.eqb_neq in E2. auto.
  - intros [= <-]. apply Nat.eqb_neq in E1. auto.
Qed.

Lemma untrusted_inv w r k : match w_trusted w !! r with Some k' => pub_eqb k' k | None => true end = false -> distrusts w r k.
Proof using.
  unfold distrusts. destruct (w_trusted w !! r) as [k'|]; [|done]. unfold pub_eqb. intros H%bool_decide_eq_false_1. by exists k'.
Qed.
Lemma unverified_inv pub msg sig : verifySignature C pub msg sig = Ok false -> ~ verifies C pub msg sig.
Proof using.
  unfold verifySignature, c_verifySignature. intros H (H1 & H2 & H3). rewrite H1, H2 in H. cbn in H. by rewrite H3 in H.
Qed.
Lemma flag_bit f i : negb (N.land f (2 ^ i) =? 0)%N = N.testbit f i.
Proof using.
  destruct (N.testbit f i) eqn:E.
  - apply negb_true_iff, N.eqb_neq. intros H%(f_equal (fun x => N.testbit x i)).
    by rewrite N.land_spec, N.pow2_bits_true, E, N.bits_0 in H.
  - apply negb_false_iff, N.eqb_eq, N.bits_inj. intros j. rewrite N.land_spec, N.bits_0.
    destruct (decide (i = j)) as [<-|Hn]; [by rewrite E|]. by rewrite N.pow2_bits_false, andb_false_r.
Qed.
Lemma kx_initiate_bit m : kx_isInitiate m = N.testbit (xFlags m) 0.
Proof using. exact (flag_bit (xFlags m) 0). Qed.
Lemma kx_simultaneous_bit m : kx_isResponseForSimultaneousInitiate m = N.testbit (xFlags m) 2.
Proof using. exact (flag_bit (xFlags m) 2). Qed.

(** Bob's side of a handshake. *)
Lemma bob_class s a b c d e f x :
  length (kp_priv a) = 32 -> length (kp_priv b) = 32 -> (forall k, d = Some k -> length (kp_priv k) = 32) ->
  initializeSessionAsBob C s a b c d e f = Err x -> x = EValueError /\ (length e <> 32 \/ length f <> 32).
Proof using.
  intros Ha Hb Hd H. unfold initializeSessionAsBob in H.
  apply bind_err_inv in H as [H|(a1 & _ & H)]; [apply agreement_class in H as [-> ?]; auto|].
  apply bind_err_inv in H as [H|(a2 & _ & H)]; [apply agreement_class in H as [-> ?]; auto|].
  apply bind_err_inv in H as [H|(a3 & _ & H)]; [apply agreement_class in H as [-> ?]; auto|].
  apply bind_err_inv in H as [H|(a4 & _ & H)].
  { destruct d as [k|]; [|done]. apply agreement_class in H as [-> ?]; auto. }
  destruct (calculateDerivedKeys C _) as [rk ck] eqn:E. rewrite calculateDerivedKeys_eq in E. injection E as <- <-.
  unfold st_setSenderChain, ch_putChainKey in H. cbn [cIndex] in H. by rewrite set_u32_ok in H.
Qed.

Section prekey.
Context (r d : Z) (m : preKeyWhisperMessage).

Definition prekey_error (w : world) (e : exn) : Prop :=
  e = EInvalidKeyId /\ unknown_prekey w m \/ e = EValueError /\ (length (pIdentityKey m) <> 32 \/ length (pBaseKey m) <> 32).

Lemma processV3_class rec w : own_keys_ok w -> (pRegistrationId m < 2 ^ 32)%N ->
  outcome (prekey_error w) (processV3 C rec m) w (fun _ _ => True).
Proof using.
  intros (Hid & Hreg & Hpre & Hsig) Hrr. unfold processV3. destruct (sr_hasSessionState _ _ _); [done|].
  eapply (outcome_bind _ _ _ _ (fun pr w' => w' = w /\ (exists t, spr_publicKey pr = Some (x05 :: t)) /\ length (default [] (spr_privateKey pr)) = 32)).
  { apply outcome_do. cbn [step_call]. destruct (w_signed w !! pSignedPreKeyId m) as [bs|] eqn:E; [|left; split; [done|]; by left].
    destruct (Hsig _ _ E) as (pr & -> & H). done. }
  intros spr ? (-> & Hs1 & Hs2).
  eapply (outcome_bind _ _ _ _ (fun k w' => w' = w /\ length (kp_priv k) = 32)).
  { apply outcome_lift; [intros k Hk|intros e He].
    - apply bind_ok_inv in Hk as (? & _ & [= <-]). done.
    - destruct (encoded_decode _ Hs1) as [k Hk]. unfold signedprekeyrecord_getKeyPair, stored_keypair in He. by rewrite Hk in He. }
  intros spk ? [-> Hspk].
  eapply (outcome_bind _ _ _ _ (fun k w' => w' = w /\ k = w_identity w)); [by apply outcome_do|]. intros id ? [-> ->].
  eapply (outcome_bind _ _ _ _ (fun o w' => w' = w /\ forall k, o = Some k -> length (kp_priv k) = 32)).
  { destruct (pPreKeyId m) as [i|] eqn:Ei; [|done].
    eapply (outcome_bind _ _ _ _ (fun pr w' => w' = w /\ (exists t, pr_publicKey pr = Some (x05 :: t)) /\ length (default [] (pr_privateKey pr)) = 32)).
    { apply outcome_do. cbn [step_call]. destruct (w_prekeys w !! i) as [bs|] eqn:E; [|left; split; [done|]; right; by exists i].
      destruct (Hpre _ _ E) as (pr & -> & H). done. }
    intros pr ? (-> & Hp1 & Hp2).
    eapply (outcome_bind _ _ _ _ (fun k w' => w' = w /\ length (kp_priv k) = 32)).
    { apply outcome_lift; [intros k Hk|intros e He].
      - apply bind_ok_inv in Hk as (? & _ & [= <-]). done.
      - destruct (encoded_decode _ Hp1) as [k Hk]. unfold prekeyrecord_getKeyPair, stored_keypair in He. by rewrite Hk in He. }
    intros k ? [-> Hk]. apply outcome_ret. split; [done|]. by intros ? [= <-]. }
  intros otpk ? [-> Hot]. cbv zeta.
  eapply (outcome_bind _ _ _ _ (fun _ w' => w' = w)).
  { apply outcome_lift; [done|]. intros e He. right. by eapply bob_class in He. }
  intros s ? ->.
  eapply (outcome_bind _ _ _ _ (fun k w' => w' = w /\ k = w_regid w)); [by apply outcome_do|]. intros reg ? [-> ->].
  eapply (outcome_bind _ _ _ _ (fun _ w' => w' = w)).
  { apply outcome_lift; [done|]. intros e He. unfold st_setLocalRegistrationId in He. by rewrite set_u32_ok in He. }
  intros s1 ? ->.
  eapply (outcome_bind _ _ _ _ (fun _ w' => w' = w)).
  { apply outcome_lift; [done|]. intros e He. unfold st_setRemoteRegistrationId in He. by rewrite set_u32_ok in He. }
  intros s2 ? ->. done.
Qed.

(** What processV3 makes. *)
Lemma processV3_fit rec x w w1 : reachable C w -> session_at w r d = Ok rec -> run (processV3 C rec m) w = (Ok x, w1) ->
  Forall fit (sr_states x.1) /\ forall s, s ∈ sr_states x.1 -> s ∈ states rec \/ new_session C w m s.
Proof using Hok.
  intros Hw Hrec H. split.
  - pose proof (reachable_setup C Hok w Hw) as HS. pose proof (HS _ _ _ Hrec) as HLS. pose proof (reachable_exact C w Hw) as HX.
    pose proof (HX _ _ _ Hrec) as HLX. pose proof (reachable_inv C w Hw) as HI. pose proof (HI _ _ _ Hrec) as HLI.
    assert (rS sr_new) as G0 by (constructor; [apply setup_new|constructor]).
    assert (rJ exact_chain sr_new) as G1 by (constructor; [by apply sJ_empty|constructor]).
    pose proof (extra_run rS _ _ _ w _ w1 G0 (fun _ _ _ h => h) (spec_processV3 C rec m HLI) (setup_processV3 C rec m HLS) HS H) as [H1 H2].
    pose proof (extra_run (rJ exact_chain) _ _ _ w _ w1 G1 (fun _ _ _ h => h) (spec_processV3 C rec m HLI)
      (sp_processV3 C exact_chain (fun _ => True) (exact_take C) exact_new rec m HLX) HX H) as [_ H3].
    by apply fit_states.
  - intros s Hs. destruct (processV3_new C Hok _ _ _ _ _ _ _ Hrec H) as [->|(s0 & Hn & Hs0 & Hp)]; [by left|].
    apply elem_of_cons in Hs as [->|Hs]; [right; by rewrite Hs0|]. left. rewrite Hp in Hs.
    unfold archiveUnlessFresh in Hs. destruct (sr_fresh rec) eqn:E; [by apply elem_of_cons; right|].
    cbn [sr_archiveCurrentState sr_promoteState sr_previous] in Hs. case_match; [|done].
    by eapply (elem_of_submseteq _ _ _ Hs), sublist_submseteq, sublist_take.
Qed.

Lemma decryptPkmsg_class w bs e w' :
  reachable C w -> own_keys_ok w -> prekey_parse bs = Ok m -> run (decryptPkmsg C r d m) w = (Err e, w') ->
  e = EUntrustedIdentity r (pIdentityKey m) /\ distrusts w r (pIdentityKey m) \/ e = EInvalidKeyId /\ unknown_prekey w m \/ e = EInvalidMessage \/ e = EDuplicateMessage \/
  e = EValueError /\ (length (pIdentityKey m) <> 32 \/ length (pBaseKey m) <> 32 \/
    length (wRatchetKey (pMessage m)) <> 32 \/ (2 ^ 32 <= wCounter (pMessage m) + 1)%N \/
    exists rec s, session_at w r d = Ok rec /\ (s ∈ states rec \/ new_session C w m s) /\ bad_body C s (pMessage m)).
Proof using Hok.
  intros Hw Hown Hp He. apply prekey_parse_inv in Hp as (_ & _ & _ & _ & Hrid & _ & _ & Hp).
  assert (8 <= length (wSerialized (pMessage m))) as Hl by (pose proof (whisper_parse_length _ _ Hp); lia).
  destruct (always_readable C w Hw r d) as [rec Hr].
  unfold decryptPkmsg in He. rewrite run_bind, run_do, load_session, Hr, run_bind in He.
  unfold builder_process in He. rewrite run_bind, run_do in He. cbn [step_call] in He.
  match type of He with context [if ?b then _ else _] => destruct b eqn:ET end.
  2:{ cbn in He. injection He as <- _. left. split; [done|]. by apply untrusted_inv. }
  rewrite run_bind in He.
  pose proof (processV3_class rec w Hown Hrid) as HE. unfold outcome in HE.
  destruct (run (processV3 C rec m) w) as [[x|e1] w1] eqn:EV.
  2:{ injection He as -> ->. right. destruct HE as [[-> ?]|[-> [?|?]]]; [auto|..]; do 3 right; split; [done|auto|done|auto]. }
  destruct (processV3_fit _ _ _ _ Hw Hr EV) as [Hfit Hst].
  rewrite run_bind, run_do in He. cbn [step_call run] in He. rewrite run_bind in He.
  match type of He with context [run (decryptWithSessionRecord C x.1 (pMessage m)) ?w2] =>
    pose proof (run_record_verdict C Hok x.1 (pMessage m) w2) as HV;
    destruct (run (decryptWithSessionRecord C x.1 (pMessage m)) w2) as [[y|e2] w3] end.
  { rewrite run_bind, run_do in He. cbn [step_call] in He. destruct (x.2); [rewrite run_bind, run_do in He|]; done. }
  injection He as -> ->. cbn in HV.
  destruct (firstVerdict_class C Hok _ _ _ Hfit Hl (eq_sym HV)) as [->|[->|[-> (s & Hin & Hs)]]]; [auto..|].
  do 4 right. split; [done|]. destruct Hs as [?|[?|?]]; [auto..|]. do 4 right. exists rec, s. split_and!; [done|by apply Hst|done].
Qed.
End prekey.

(** Alice's side of a handshake. *)
Definition same_but_pos (w w' : world) : Prop := exists n, w' = w_set_pos n w.
Lemma generate_class (E : exn -> Prop) w : outcome E (generateKeyPair C) w (fun kp w' => kp_ok kp /\ same_but_pos w w').
Proof using Hok.
  unfold outcome. rewrite (run_generateKeyPair C Hok). split; [by apply kp_at_ok|]. by eexists.
Qed.
Lemma same_but_pos_trans w w1 w2 : same_but_pos w w1 -> same_but_pos w1 w2 -> same_but_pos w w2.
Proof. intros [n ->] [k ->]. by exists k. Qed.
Lemma same_but_pos_refl w : same_but_pos w w.
Proof. exists (w_pos w). by destruct w. Qed.

Lemma alice_class s a b c e f g w (E : exn -> Prop) :
  length (kp_priv a) = 32 -> length (kp_priv b) = 32 ->
  (length c <> 32 \/ length e <> 32 \/ length f <> 32 \/ (exists k, g = Some k /\ length k <> 32) -> E EValueError) ->
  outcome E (initializeSessionAsAlice C s a b c e f g) w (fun s' w' =>
    same_but_pos w w' /\ st_getSessionVersion s' = 3%N /\ ss_pendingPreKey s' = ss_pendingPreKey s).
Proof using Hok.
  intros Ha Hb HE. unfold initializeSessionAsAlice. cbv zeta.
  eapply outcome_bind; [apply generate_class|]. intros kp w' [[Hkp _] Hw]. apply outcome_lift.
  - intros s' H. split; [done|]. apply bind_ok_inv in H as (a1 & _ & H). apply bind_ok_inv in H as (a2 & _ & H).
    apply bind_ok_inv in H as (a3 & _ & H). apply bind_ok_inv in H as (a4 & _ & H).
    destruct (calculateDerivedKeys C _) as [rk ck]. apply bind_ok_inv in H as (x & _ & H).
    apply bind_ok_inv in H as (s1 & H1 & H). apply bind_ok_inv in H as (s2 & H2 & [= <-]).
    apply bind_ok_inv in H1 as (c1 & _ & [= <-]). apply bind_ok_inv in H2 as (c2 & _ & [= <-]). done.
  - intros x H.
    apply bind_err_inv in H as [H|(a1 & _ & H)]; [apply agreement_class in H as [-> ?]; auto|].
    apply bind_err_inv in H as [H|(a2 & _ & H)]; [apply agreement_class in H as [-> ?]; auto|].
    apply bind_err_inv in H as [H|(a3 & _ & H)]; [apply agreement_class in H as [-> ?]; auto|].
    apply bind_err_inv in H as [H|(a4 & _ & H)].
    { destruct g as [k|]; [|done]. apply agreement_class in H as [-> ?]; [|done]. apply HE. do 3 right. by exists k. }
    destruct (calculateDerivedKeys C _) as [rk ck] eqn:Ed. rewrite calculateDerivedKeys_eq in Ed. injection Ed as <- <-.
    destruct (decide (length f = 32)) as [Hf|Hf].
    2:{ rewrite rk_createChain_short in H by done. injection H as <-. apply HE. auto. }
    rewrite rk_createChain_ok in H by done. cbv zeta in H. rewrite bind_ok in H. cbn [fst snd] in H.
    unfold st_addReceiverChain, st_setSenderChain, ch_putChainKey in H. cbn [cIndex] in H. by rewrite !set_u32_ok in H.
Qed.

Definition bundle_error (w : world) (r : Z) (b : preKeyBundle) (e : exn) : Prop :=
  e = EUntrustedIdentity r (bu_identityKey b) /\ distrusts w r (bu_identityKey b) \/
  e = EInvalidKey /\ (forall k, bu_signedPreKey b = Some k -> ~ verifies C (bu_identityKey b) (x05 :: k) (bu_signedPreKeySignature b)) \/
  e = EValueError /\
    (length (bu_identityKey b) <> 32 \/ length (bu_signedPreKeySignature b) <> 64 \/
     (exists k, (bu_signedPreKey b = Some k \/ bu_preKey b = Some k) /\ length k <> 32) \/
     (2 ^ 31 <= bu_signedPreKeyId b)%N \/ (2 ^ 32 <= bu_registrationId b)%N \/ (exists i, bu_preKeyId b = Some i /\ 2 ^ 32 <= i)%N).

Lemma bundle_class w r d b :
  reachable C w -> own_keys_ok w -> outcome (bundle_error w r b) (processPreKeyBundle C r d b) w (fun _ _ => True).
Proof using Hok.
  intros Hw (Hid & Hreg & _). destruct (always_readable C w Hw r d) as [rec Hr].
  pose proof (archived_state _ _ _ _ Hr) as Hst.
  unfold processPreKeyBundle. eapply (outcome_bind _ _ _ _ (fun t w' => w' = w /\ (t = false -> distrusts w r (bu_identityKey b)))).
  { apply outcome_do. split; [done|]. apply untrusted_inv. }
  intros [] ? [-> Ht].
  2:{ apply outcome_raise. left. split; [done|]. by apply Ht. }
  destruct (bu_signedPreKey b) as [spk|] eqn:Es; [|apply outcome_raise; right; left; split; [done|]; by rewrite Es].
  eapply (outcome_bind _ _ _ _ (fun v w' => w' = w /\ (v = false -> ~ verifies C (bu_identityKey b) (x05 :: spk) (bu_signedPreKeySignature b)))).
  { apply outcome_lift; [intros v Hv; split; [done|]; intros ->; by apply unverified_inv|]. intros e He. apply verify_class in He as [-> [?|?]]; right; right; auto. }
  intros [] ? [-> Hv]; [|apply outcome_raise; right; left; split; [done|]; rewrite Es; intros k [= <-]; by apply Hv].
  eapply (outcome_bind _ _ _ _ (fun rec' w' => w' = w /\ rec' = rec)); [apply outcome_do; by rewrite load_session, Hr|].
  intros ? ? [-> ->].
  eapply outcome_bind; [apply generate_class|]. intros kb w1 [[Hkb _] H1].
  eapply (outcome_bind _ _ _ _ (fun k w' => w' = w1 /\ k = w_identity w)); [apply outcome_do; by destruct H1 as [n ->]|].
  intros ? ? [-> ->]. cbv zeta.
  eapply outcome_bind; [apply alice_class; [done|done|]|].
  { intros H. right. right. split; [done|]. destruct H as [?|[?|[?|(k & ? & ?)]]]; [auto|..]; right; right; left.
    - exists spk. auto.
    - exists spk. auto.
    - exists k. auto. }
  intros s w2 (H2 & _ & Hpp). apply (same_but_pos_trans _ _ _ H1) in H2. clear H1 w1.
  rewrite Hst in Hpp.
  eapply (outcome_bind _ _ _ _ (fun _ w' => w' = w2)).
  { apply outcome_lift; [done|]. intros e He. right. right. unfold st_setUnacknowledgedPreKeyMessage in He.
    apply bind_err_inv in He as [He|(z & _ & He)].
    { unfold set_i32 in He. destruct (_ <? _)%N eqn:El; [done|]. injection He as <-. apply N.ltb_ge in El. split; [done|]. do 3 right. by left. }
    apply bind_err_inv in He as [He|(? & _ & He)]; [|done].
    destruct (bu_preKey b); [|done]. destruct (bu_preKeyId b) as [i|]; [|done].
    apply bind_err_inv in He as [He|(? & _ & He)]; [|done]. apply set_u32_err in He as [-> ?].
    split; [done|]. do 5 right. by exists i. }
  intros s1 ? ->.
  eapply (outcome_bind _ _ _ _ (fun k w' => w' = w2 /\ k = w_regid w)); [apply outcome_do; by destruct H2 as [n ->]|].
  intros ? ? [-> ->].
  eapply (outcome_bind _ _ _ _ (fun _ w' => w' = w2)).
  { apply outcome_lift; [done|]. intros e He. unfold st_setLocalRegistrationId in He. by rewrite set_u32_ok in He. }
  intros s2 ? ->.
  eapply (outcome_bind _ _ _ _ (fun _ w' => w' = w2)).
  { apply outcome_lift; [done|]. intros e He. unfold st_setRemoteRegistrationId in He.
    apply bind_err_inv in He as [He|(? & _ & He)]; [|done]. apply set_u32_err in He as [-> ?]. right. right. split; [done|]. do 4 right. by left. }
  intros s3 ? ->. done.
Qed.

(** Key exchange messages. *)
Definition exchange_error (w : world) (r d : Z) (m : keyExchangeMessage) (e : exn) : Prop :=
  e = EUntrustedIdentity r (xIdentityKey m) /\ distrusts w r (xIdentityKey m) \/
  e = EInvalidKey /\ ~ verifies C (xIdentityKey m) (x05 :: xBaseKey m) (xBaseKeySignature m) \/
  e = EStaleKeyExchange /\ no_exchange w r d m \/
  (e = EValueError \/ e = EStructError) /\
    (length (xBaseKey m) <> 32 \/ length (xRatchetKey m) <> 32 \/ length (xIdentityKey m) <> 32 \/ length (xBaseKeySignature m) <> 64).

Lemma initialize_class w0 r d s a b t m w :
  length (kp_priv a) = 32 -> kp_ok b ->
  outcome (exchange_error w0 r d m) (initializeSession C s a b t (xBaseKey m) (xRatchetKey m) (xIdentityKey m)) w
    (fun s' w' => same_but_pos w w' /\ st_getSessionVersion s' = 3%N).
Proof using Hok.
  intros Ha [Hb Hb']. unfold initializeSession, isAlice.
  eapply (outcome_bind _ _ _ _ (fun _ w' => w' = w)).
  { apply outcome_lift; [done|]. intros e He. do 3 right. destruct (decide (length (xBaseKey m) = 32)) as [Hl|Hl].
    - destruct (pub_lt_spec (kp_pub b) (xBaseKey m) Hb' Hl) as (? & Ht & _). by rewrite Ht in He.
    - rewrite pub_lt_err in He by auto. injection He as <-. auto. }
  intros [] ? ->.
  - eapply outcome_mono; [apply alice_class; [done|done|]|by intros ? ? (? & ? & ?)].
    intros H. do 3 right. split; [auto|]. destruct H as [?|[?|[?|(k & ? & ?)]]]; [auto..|done].
  - apply outcome_lift.
    + intros s' H. split; [apply same_but_pos_refl|]. unfold initializeSessionAsBob in H.
      apply bind_ok_inv in H as (a1 & _ & H). apply bind_ok_inv in H as (a2 & _ & H).
      apply bind_ok_inv in H as (a3 & _ & H). apply bind_ok_inv in H as (a4 & _ & H).
      destruct (calculateDerivedKeys C _) as [rk ck]. apply bind_ok_inv in H as (s2 & H2 & [= <-]).
      apply bind_ok_inv in H2 as (c2 & _ & [= <-]). done.
    + intros e He. do 3 right. eapply bob_class in He as [-> [?|?]]; [split; auto|split; auto|done|done|done].
Qed.

Lemma kx_create_class q f b s t i e : (q < 2 ^ 27)%N -> (f < 32)%N -> kx_create 3 q f b s t i <> Err e.
Proof using.
  intros Hq Hf H. unfold kx_create in H. destruct (kx_id_split q f Hf) as (_ & _ & Hid).
  rewrite set_u32_ok in H by (rewrite Hid; lia). rewrite bind_ok in H. cbv zeta in H. by rewrite combine_vb in H.
Qed.
Lemma kx_parse_sequence bs m : kx_msg_parse bs = Ok m -> (xSequence m < 2 ^ 27)%N.
Proof using.
  destruct bs as [|b bs]; [done|]. unfold kx_msg_parse, res_rethrow. destruct (kx_parse_body (b :: bs)) as [x|] eqn:E; [|by case_match].
  intros [= ->]. unfold kx_parse_body in E. destruct (bu_split2 _ _ _) as [p0 p1]. destruct p0; [done|].
  destruct (_ <? _)%N; [done|]. destruct (_ <? _)%N; [done|]. apply bind_ok_inv in E as (k & Hk & E).
  apply kx_parse_wf in Hk. unfold kx_wf in Hk.
  destruct (kx_id k) as [id|], (kx_baseKey k), (kx_ratchetKey k), (kx_identityKey k), (kx_baseKeySignature k); try done.
  do 3 apply bind_ok_inv in E as (? & _ & E). apply Ok_inj in E as ->.
  cbn [xSequence]. cbn in Hk. rewrite N.shiftr_div_pow2. apply N.div_lt_upper_bound; [done|]. by change (2 ^ 5 * 2 ^ 27)%N with (2 ^ 32)%N.
Qed.

Lemma pending_ok s : exchange_set s -> st_hasPendingKeyExchange s = true ->
  exists i b t, st_getPendingKeyExchangeIdentityKey s = Ok i /\ st_getPendingKeyExchangeBaseKey s = Ok b /\
    st_getPendingKeyExchangeRatchetKey s = Ok t /\ length (kp_priv i) = 32 /\ kp_ok b.
Proof using.
  intros H Hp. unfold st_hasPendingKeyExchange in Hp.
  unfold st_getPendingKeyExchangeIdentityKey, st_getPendingKeyExchangeBaseKey, st_getPendingKeyExchangeRatchetKey, st_pendingKeyExchange.
  destruct (ss_pendingKeyExchange s) as [p|] eqn:E; [|done]. rewrite default_Some. cbv zeta.
  destruct (H _ E) as (H1 & H2 & H3 & H4 & (k & H5 & H5') & H6). unfold stored_keypair.
  destruct (encoded_decode _ H4) as [t ->]. destruct (encoded_decode _ H6) as [i ->]. rewrite H5, default_Some.
  change (x05 :: k) with (pub_serialize k). rewrite decodePoint_serialize by lia.
  eexists _, _, _. split_and!; [done..|by apply private_len|]. split; cbn; [by apply private_len|done].
Qed.

Lemma initiate_class w r d m :
  reachable C w -> length (kp_priv (w_identity w)) = 32 -> (xSequence m < 2 ^ 27)%N ->
  outcome (exchange_error w r d m) (processInitiate C r d m) w (fun _ _ => True).
Proof using Hok.
  intros Hw Hid Hq. destruct (always_readable C w Hw r d) as [rec Hr].
  destruct (reachable_setup C Hok w Hw r d rec Hr) as [_ (_ & _ & Hx)%rS_current].
  unfold processInitiate.
  eapply (outcome_bind _ _ _ _ (fun rec' w' => w' = w /\ rec' = rec)); [apply outcome_do; by rewrite load_session, Hr|].
  intros ? ? [-> ->].
  eapply (outcome_bind _ _ _ _ (fun v w' => w' = w /\ (v = false -> ~ verifies C (xIdentityKey m) (x05 :: xBaseKey m) (xBaseKeySignature m)))).
  { apply outcome_lift; [intros v Hv; split; [done|]; intros ->; by apply unverified_inv|].
    intros e He. apply verify_class in He as [-> [?|?]]; do 3 right; split; auto. }
  intros [] ? [-> Hv]; [|apply outcome_raise; right; left; split; [done|]; by apply Hv].
  eapply (outcome_bind _ _ _ _ (fun x w' => length (kp_priv x.1.1.1) = 32 /\ kp_ok x.1.1.2 /\ (x.2 < 32)%N)).
  { destruct (st_hasPendingKeyExchange (sr_state rec)) eqn:Ep.
    - destruct (pending_ok _ Hx Ep) as (i & b & t & -> & -> & -> & Hi & Hb). rewrite !bind_ok. by apply outcome_ret.
    - eapply (outcome_bind _ _ _ _ (fun k w' => k = w_identity w)); [by apply outcome_do|]. intros ? ? ->.
      eapply outcome_bind; [apply generate_class|]. intros kb ? [Hkb _].
      eapply outcome_bind; [apply generate_class|]. intros kt ? [Hkt _]. by apply outcome_ret. }
  intros [[[i b] t] f] w1 (Hi & Hb & Hf). cbn [fst snd] in *. cbv zeta.
  eapply outcome_bind; [by apply initialize_class|]. intros s w2 [_ Hs]. cbn beta.
  eapply (outcome_bind _ _ _ _ (fun _ _ => True)); [by apply outcome_do|]. intros _ w3 _.
  eapply (outcome_bind _ _ _ _ (fun _ _ => True)); [by apply outcome_do|]. intros _ w4 _.
  eapply (outcome_bind _ _ _ _ (fun _ _ => True)). { unfold outcome. by rewrite run_calculateSignature. }
  intros sig w5 _. apply outcome_lift; [done|]. intros e He. rewrite Hs in He. by apply kx_create_class in He.
Qed.

Lemma response_class w r d m :
  reachable C w -> kx_isInitiate m = false -> outcome (exchange_error w r d m) (processResponse C r d m) w (fun _ _ => True).
Proof using Hok.
  intros Hw Hi0. destruct (always_readable C w Hw r d) as [rec Hr].
  destruct (reachable_setup C Hok w Hw r d rec Hr) as [_ (_ & _ & Hx)%rS_current].
  unfold processResponse.
  eapply (outcome_bind _ _ _ _ (fun rec' w' => w' = w /\ rec' = rec)); [apply outcome_do; by rewrite load_session, Hr|].
  intros ? ? [-> ->]. cbv zeta.
  destruct (negb (st_hasPendingKeyExchange (sr_state rec)) || negb (st_getPendingKeyExchangeSequence (sr_state rec) =? xSequence m)%N) eqn:Eq.
  { destruct (kx_isResponseForSimultaneousInitiate m) eqn:Es; [done|]. apply outcome_raise. do 2 right. left. split; [done|].
    exists rec. split; [done|]. split; [by rewrite <- kx_initiate_bit|]. split; [by rewrite <- kx_simultaneous_bit|].
    intros p Hp. unfold st_hasPendingKeyExchange, st_getPendingKeyExchangeSequence, st_pendingKeyExchange in Eq. rewrite Hp in Eq.
    cbn in Eq. by apply negb_true_iff, N.eqb_neq in Eq. }
  apply orb_false_iff in Eq as [Ep%negb_false_iff _].
  destruct (pending_ok _ Hx Ep) as (i & b & t & -> & -> & -> & Hi & Hb).
  eapply (outcome_bind _ _ _ _ (fun x w' => w' = w /\ x = b)); [by apply outcome_ret|]. intros ? ? [-> ->].
  eapply (outcome_bind _ _ _ _ (fun x w' => w' = w /\ x = t)); [by apply outcome_ret|]. intros ? ? [-> ->].
  eapply (outcome_bind _ _ _ _ (fun x w' => w' = w /\ x = i)); [by apply outcome_ret|]. intros ? ? [-> ->].
  eapply outcome_bind; [by apply initialize_class|]. intros s w2 [_ Hv]. cbn beta.
  eapply (outcome_bind _ _ _ _ (fun v _ => v = false -> ~ verifies C (xIdentityKey m) (x05 :: xBaseKey m) (xBaseKeySignature m))).
  { apply outcome_lift; [intros v H ->; by apply unverified_inv|].
    intros e He. apply verify_class in He as [-> [?|?]]; do 3 right; split; auto. }
  intros [] ? H; [done|]. apply outcome_raise. right. left. split; [done|]. by apply H.
Qed.

Lemma exchange_class w r d m :
  reachable C w -> length (kp_priv (w_identity w)) = 32 -> (xSequence m < 2 ^ 27)%N ->
  outcome (exchange_error w r d m) (processKeyExchangeMessage C r d m) w (fun _ _ => True).
Proof using Hok.
  intros Hw Hid Hq. unfold processKeyExchangeMessage.
  eapply (outcome_bind _ _ _ _ (fun t w' => w' = w /\ (t = false -> distrusts w r (xIdentityKey m)))).
  { apply outcome_do. split; [done|]. apply untrusted_inv. }
  intros [] ? [-> Ht].
  2:{ apply outcome_raise. left. split; [done|]. by apply Ht. }
  destruct (kx_isInitiate m) eqn:Ei.
  - eapply outcome_bind; [by apply initiate_class|]. done.
  - eapply outcome_bind; [by apply response_class|]. done.
Qed.

(** Starting a key exchange never fails. *)
Lemma start_class w r d :
  reachable C w -> length (kp_priv (w_identity w)) = 32 ->
  outcome (fun _ => False) (processInitKeyExchangeMessage C r d) w (fun _ _ => True).
Proof using Hok.
  intros Hw Hid. destruct (always_readable C w Hw r d) as [rec Hr].
  unfold outcome, processInitKeyExchangeMessage. rewrite run_rethrow, run_bind.
  unfold getRandomSequence. rewrite run_do. cbn [step_call]. change (65534 =? 0)%N with false. cbv iota.
  set (q := (be_val _ mod 65534)%N). assert (q < 65534)%N as Hq by (by apply N.mod_lt).
  rewrite run_bind, (run_generateKeyPair C Hok), run_bind, (run_generateKeyPair C Hok), run_bind, run_do.
  cbn [step_call]. rewrite run_bind, (run_calculateSignature C) by done. rewrite run_bind, run_do, load_session.
  match goal with |- context [session_at ?w' r d] => change (session_at w' r d) with (session_at w r d) end.
  rewrite Hr, run_bind, run_lift. unfold st_setPendingKeyExchange. rewrite set_u32_ok by lia. rewrite bind_ok.
  rewrite run_bind, run_do. cbn [step_call]. rewrite run_lift.
  match goal with |- context [kx_create ?a ?b ?c ?e ?f ?g ?h] => destruct (kx_create a b c e f g h) eqn:E; [done|] end.
  apply kx_create_class in E; [done|lia|done].
Qed.

(** In the form of the property file. *)
Lemma bundle_errors w r d b e w' :
  reachable C w -> own_keys_ok w -> run (processPreKeyBundle C r d b) w = (Err e, w') -> bundle_error w r b e.
Proof using Hok. intros Hw Ho. exact (outcome_err _ _ _ _ _ _ (bundle_class w r d b Hw Ho)). Qed.
Lemma exchange_errors w r d bs m e w' :
  reachable C w -> own_keys_ok w -> kx_msg_parse bs = Ok m -> run (processKeyExchangeMessage C r d m) w = (Err e, w') -> exchange_error w r d m e.
Proof using Hok. intros Hw [Ho _] Hq%kx_parse_sequence. exact (outcome_err _ _ _ _ _ _ (exchange_class w r d m Hw Ho Hq)). Qed.
Lemma start_succeeds w r d :
  reachable C w -> own_keys_ok w -> exists m w', run (processInitKeyExchangeMessage C r d) w = (Ok m, w').
Proof using Hok.
  intros Hw [Ho _]. pose proof (start_class w r d Hw Ho) as H. unfold outcome in H.
  destruct (run (processInitKeyExchangeMessage C r d) w) as [[m|e] w']; [by eexists _, _|done].
Qed.
End total.

(** Bob's keys in the examples are usable. *)
From Verif Require Import Toy Sched Ex.
Definition usable (pub priv : option bytes) : bool :=
  match pub with Some (x05 :: _) => true | _ => false end && (length (default [] priv) =? 32)%nat.
Lemma usable_ok pub priv : usable pub priv = true -> (exists t, pub = Some (x05 :: t)) /\ length (default [] priv) = 32.
Proof.
  unfold usable. intros [H1 H2]%andb_prop. apply Nat.eqb_eq in H2. split; [|done].
  destruct pub as [[|[] t]|]; try done. by exists t.
Qed.
Definition usable_pr (bs : bytes) : bool :=
  match prekeyrecord_parse bs with Ok pr => usable (pr_publicKey pr) (pr_privateKey pr) | Err _ => false end.
Definition usable_spr (bs : bytes) : bool :=
  match signedprekeyrecord_parse bs with Ok pr => usable (spr_publicKey pr) (spr_privateKey pr) | Err _ => false end.
Lemma own_keys_single w i pb j sb :
  w_prekeys w = {[ i := pb ]} -> w_signed w = {[ j := sb ]} -> length (kp_priv (w_identity w)) = 32 -> w_regid w = 7%N ->
  usable_pr pb = true -> usable_spr sb = true -> own_keys_ok w.
Proof.
  intros Hp Hs Hi Hr Hpb Hsb. unfold own_keys_ok. rewrite Hp, Hs, Hr. split_and!; [done|done|..].
  - intros k bs [_ <-]%lookup_singleton_Some. unfold usable_pr in Hpb. destruct (prekeyrecord_parse pb) as [pr|]; [|done].
    exists pr. split; [done|]. by apply usable_ok.
  - intros k bs [_ <-]%lookup_singleton_Some. unfold usable_spr in Hsb. destruct (signedprekeyrecord_parse sb) as [pr|]; [|done].
    exists pr. split; [done|]. by apply usable_ok.
Qed.
Lemma bob1_own_keys : own_keys_ok bob1.
Proof.
  apply (own_keys_single bob1 5 (pr_enc bobPreKey) 9 (spr_enc bobSigned)); [reflexivity|reflexivity|..]; vm_compute; reflexivity.
Qed.
