(** What handshakes leave behind: C74. *)
From Verif Require Import PyBase Wire Protos ProtoFacts Crypto Ecc Kdf Messages State Prog Ratchet Builder Cipher.
From Verif Require Import ProgFacts StateFacts UtilFacts HelperFacts MsgFacts CipherFacts DecryptFacts SpecSession SessionProofs.
From Verif Require Import SpecUtil SpecApi InvFacts HistoryProofs ArchiveProofs SpecKeys KeyProofs HandshakeFacts EncryptProofs ConvStart SpecRatchet RatchetProofs SpecSetup.

Section setup.
Context (C : crypto) (Hok : crypto_ok C).

Lemma trusted_inv w r k t w' : run (do (CIsTrusted r k)) w = (Ok t, w') -> w' = w /\ (t = true -> trusts w r k).
Proof.
  rewrite run_do. cbn [step_call]. unfold trusts. destruct (w_trusted w !! r) as [k'|]; intros [= <- <-]; split; try done.
  - unfold pub_eqb. intros ->%bool_decide_eq_true_1. by right.
  - by left.
Qed.

Lemma asAlice_inv id base ti ts tr to w s w1 :
  run (initializeSessionAsAlice C st_new id base ti ts tr to) w = (Ok s, w1) ->
  w1 = w_set_pos (S (w_pos w)) w /\
  s = initiator_session C (kp_pub id) ti tr (kp_at C w (w_pos w))
        (x3dh C ([agree C (kp_priv id) ts; agree C (kp_priv base) ti; agree C (kp_priv base) ts]
                 ++ match to with Some k => [agree C (kp_priv base) k] | None => [] end)) None None None None.
Proof using Hok.
  unfold initializeSessionAsAlice. rewrite run_bind, (run_generateKeyPair C Hok). intros [H ->]%run_lift_inv. split; [done|].
  apply bind_ok_inv in H as (a1 & ->%agreement_inv & H).
  apply bind_ok_inv in H as (a2 & ->%agreement_inv & H).
  apply bind_ok_inv in H as (a3 & ->%agreement_inv & H).
  apply bind_ok_inv in H as (a4 & Ha4 & H).
  assert (a4 = match to with Some k => agree C (kp_priv base) k | None => [] end) as ->.
  { destruct to as [k|]; cbn; [by apply agreement_inv|by injection Ha4 as <-]. }
  set (l := [_; _; _] ++ _).
  rewrite (derived_x3dh C Hok l) in H.
  2: { change getDiscontinuityBytes with (replicate 32 xff). f_equal. unfold l. destruct to; cbn; by rewrite ?app_nil_r. }
  apply bind_ok_inv in H as (y & Hy & H). change hkdf_v3 with (N.of_nat (first_block 3)) in Hy. apply (dh_root_eq C Hok) in Hy. subst y.
  cbn [fst snd] in H.
  apply bind_ok_inv in H as (s1 & Hs1 & H). apply bind_ok_inv in H as (s2 & Hs2 & [= <-]).
  unfold st_addReceiverChain in Hs1. apply bind_ok_inv in Hs1 as (c1 & [-> _]%ch_putChainKey_inv & [= <-]).
  unfold st_setSenderChain in Hs2. apply bind_ok_inv in Hs2 as (c2 & [-> _]%ch_putChainKey_inv & [= <-]).
  done.
Qed.

Lemma asBob_inv id spk rat ti tb s :
  initializeSessionAsBob C st_new id spk rat None ti tb = Ok s ->
  s = responder_session (kp_pub id) ti (kp_pub rat) (kp_priv rat)
        (x3dh C [agree C (kp_priv spk) ti; agree C (kp_priv id) tb; agree C (kp_priv spk) tb]) None None None.
Proof using Hok.
  intros H. unfold initializeSessionAsBob in H.
  apply bind_ok_inv in H as (a1 & ->%agreement_inv & H).
  apply bind_ok_inv in H as (a2 & ->%agreement_inv & H).
  apply bind_ok_inv in H as (a3 & ->%agreement_inv & H).
  apply bind_ok_inv in H as (a4 & [= <-] & H).
  set (l := [_; _; _]).
  rewrite (derived_x3dh C Hok l) in H.
  2: { change getDiscontinuityBytes with (replicate 32 xff). f_equal. }
  apply bind_ok_inv in H as (s1 & Hs1 & [= <-]).
  apply bind_ok_inv in Hs1 as (c' & [-> _]%ch_putChainKey_inv & [= <-]). done.
Qed.

Lemma session_inv id base rat m w s w1 :
  run (initializeSession C st_new id base rat (xBaseKey m) (xRatchetKey m) (xIdentityKey m)) w = (Ok s, w1) ->
  exists n', w1 = w_set_pos n' w /\ exchange_session C w (w_pos w) id base rat m s n'.
Proof using Hok.
  unfold initializeSession. rewrite run_bind, run_lift. unfold isAlice.
  destruct (decide (length (kp_pub base) = 32 /\ length (xBaseKey m) = 32)) as [[H1 H2]|Hn].
  2: { rewrite pub_lt_err; [done|]. apply not_and_l in Hn. done. }
  destruct (pub_lt_spec _ _ H1 H2) as (t & -> & Ht). destruct t.
  - intros [-> ->]%asAlice_inv. eexists. split; [done|]. left. split_and!; [by apply Ht|done|done].
  - intros [H%asBob_inv ->]%run_lift_inv. exists (w_pos w). split; [by destruct w|]. right. split_and!; [|done|done].
    intros Hl%Ht. done.
Qed.

Lemma exchange_session_wf w n id base rat m s n' : exchange_session C w n id base rat m s n' -> ss_wf s /\ st_getSessionVersion s = 3%N.
Proof.
  intros [(_ & _ & ->)|(_ & _ & ->)]; (split; [|done]);
    unfold ss_wf, initiator_session, responder_session; cbn [ss_version ss_previousCounter ss_senderChain ss_receiverChains ss_pendingKeyExchange ss_pendingPreKey ss_remoteRegId ss_localRegId];
    cbn [wfV wfM]; split_and!; try done.
  - split; [|constructor]. cbn. lia.
  - constructor; [|constructor]. split; [|constructor]. cbn. lia.
  - split; [|constructor]. cbn. lia.
Qed.

Lemma stored_handshake w w1 r d rec s id n :
  stored_ok loaded_inv w -> session_at w r d = Ok rec -> ss_wf s -> w1 = w_set_pos n w ->
  handshaken w r d id n s rec
    (w_set_trusted (<[r := id]> (w_trusted w1)) (w_set_sessions (<[(r, d) := sr_serialize (sr_setState s (archiveUnlessFresh rec))]> (w_sessions w1)) w1)).
Proof.
  intros Hr Hrec Hwf ->. split; [|by eexists].
  pose proof (archive_wf _ (loaded_wf _ _ _ _ Hrec)) as [_ Hwfp].
  unfold session_at. cbn [w_set_trusted w_set_sessions w_sessions]. rewrite lookup_insert. rewrite StateFacts.sr_roundtrip by (by split).
  by rewrite <- archive_of_eq by (by eapply Hr).
Qed.

Lemma bundle_effect w r d b w' :
  reachable C w -> run (processPreKeyBundle C r d b) w = (Ok tt, w') ->
  exists rec spk, session_at w r d = Ok rec /\ bu_signedPreKey b = Some spk /\ trusts w r (bu_identityKey b) /\
    verifies C (bu_identityKey b) (x05 :: spk) (bu_signedPreKeySignature b) /\
    handshaken w r d (bu_identityKey b) (2 + w_pos w)
      (bundle_session C w b spk (kp_at C w (w_pos w)) (kp_at C w (1 + w_pos w))) rec w'.
Proof using Hok.
  intros Hr%(reachable_inv C) H. unfold processPreKeyBundle in H.
  apply run_bind_ok in H as (t & w0 & [-> Ht]%trusted_inv & H). destruct t; [|done].
  destruct (bu_signedPreKey b) as [spk|]; [|done].
  apply run_bind_ok in H as (v & w0 & [Hv ->]%run_lift_inv & H). destruct v; [|done].
  apply run_bind_ok in H as (rec & w0 & H0 & H). rewrite run_do, load_session in H0. injection H0 as Hrec <-.
  rewrite run_bind, (run_generateKeyPair C Hok) in H.
  apply run_bind_ok in H as (id & w0 & H0 & H). rewrite run_do in H0. injection H0 as <- <-.
  rewrite (archived_state _ _ _ _ Hrec) in H. cbv zeta in H.
  apply run_bind_ok in H as (s & w0 & [-> ->]%asAlice_inv & H).
  apply run_bind_ok in H as (s1 & w0 & [Hs1 ->]%run_lift_inv & H).
  apply run_bind_ok in H as (reg & w0 & H0 & H). rewrite run_do in H0. injection H0 as <- <-.
  apply run_bind_ok in H as (s2 & w0 & [Hs2 ->]%run_lift_inv & H).
  apply run_bind_ok in H as (s3 & w0 & [Hs3 ->]%run_lift_inv & H).
  rewrite run_bind, !run_do in H. cbn [step_call] in H. rewrite run_do in H. cbn [step_call] in H. injection H as <-.
  apply bind_ok_inv in Hs2 as (? & [-> Hreg]%set_u32_inv & [= <-]). apply bind_ok_inv in Hs3 as (? & [-> Hbreg]%set_u32_inv & [= <-]).
  unfold st_setUnacknowledgedPreKeyMessage in Hs1. apply bind_ok_inv in Hs1 as (? & [-> Hsid]%set_i32_inv & Hs1).
  cbv zeta in Hs1. apply bind_ok_inv in Hs1 as (p & Hp & [= <-]).
  assert (p = PpS (match bu_preKey b with Some _ => bu_preKeyId b | None => None end)
               (Some (x05 :: kp_pub (kp_at C w (w_pos w)))) (Some (Z.of_N (bu_signedPreKeyId b))) /\
    wfV (match bu_preKey b with Some _ => bu_preKeyId b | None => None end)) as [-> Hpid].
  { destruct (match bu_preKey b with Some _ => bu_preKeyId b | None => None end) as [i|].
    - apply bind_ok_inv in Hp as (? & [-> Hi]%set_u32_inv & [= <-]). done.
    - by injection Hp as <-. }
  exists rec, spk. split_and!; [done|done|by apply Ht|by apply verifySignature_true|].
  match goal with |- handshaken _ _ _ _ _ ?s _ _ => assert (ss_wf s) as Hwf end.
  { unfold ss_wf, bundle_session, initiator_session. cbn [ss_version ss_previousCounter ss_senderChain ss_receiverChains ss_pendingKeyExchange ss_pendingPreKey ss_remoteRegId ss_localRegId].
    cbn [wfV wfM]. split_and!; try done.
    - split; [|constructor]. cbn. lia.
    - constructor; [|constructor]. split; [|constructor]. cbn. lia.
    - split; [done|]. cbn. lia. }
  by apply (stored_handshake w (w_set_pos (2 + w_pos w) w)).
Qed.

Lemma keypair_of_iff pub priv k : stored_keypair pub priv = Ok k -> keypair_of pub priv k /\ length (kp_pub k) <= 32.
Proof.
  unfold stored_keypair. intros (p & Hp & [= <-])%bind_ok_inv. split; [split; [by apply decode_iff|done]|].
  apply decode_iff in Hp as (t & _ & ->). cbn. rewrite take_length. lia.
Qed.

Lemma signature_inv k msg w sig w1 :
  run (calculateSignature C k msg) w = (Ok sig, w1) ->
  sig = sign C (resize 64 x00 (w_tape w (w_pos w))) k msg /\ w1 = w_set_pos (S (w_pos w)) w.
Proof.
  unfold calculateSignature. rewrite run_bind, run_do. cbn [step_call]. rewrite run_lift.
  unfold calculateSignature_with, c_calculateSignature. rewrite resize_length. case_match; [|done]. by intros [= <- <-].
Qed.

Lemma message_inv w n seq flags id base rat m :
  (flags < 32)%N -> length (kp_pub base) <= 32 -> length (kp_pub rat) <= 32 ->
  kx_create 3 seq flags (kp_pub base) (sign C (resize 64 x00 (w_tape w n)) (kp_priv id) (pub_serialize (kp_pub base))) (kp_pub rat) (kp_pub id) = Ok m ->
  exchange_message C w n seq flags id base rat m.
Proof.
  intros Hf Hb Hr H. unfold exchange_message.
  assert (length (kp_pub id) = 32 -> kx_msg_parse (xSerialized m) = Ok m) as Hp.
  { intros Hi. eapply kx_roundtrip_msg; [..|exact H]; try done. lia. }
  unfold kx_create in H. apply bind_ok_inv in H as (i & _ & H). apply bind_ok_inv in H as (bs & _ & [= <-]). done.
Qed.

Lemma initiate_effect w r d m a w' :
  reachable C w -> run (processKeyExchangeMessage C r d m) w = (Ok (Some a), w') ->
  exists rec id base rat flags n s n', session_at w r d = Ok rec /\ trusts w r (xIdentityKey m) /\
    verifies C (xIdentityKey m) (x05 :: xBaseKey m) (xBaseKeySignature m) /\ N.testbit (xFlags m) 0 = true /\
    ((ss_pendingKeyExchange (sr_state rec) = None /\ id = w_identity w /\
      base = kp_at C w (w_pos w) /\ rat = kp_at C w (1 + w_pos w) /\ flags = 2%N /\ n = 2 + w_pos w) \/
     ((exists seq, started (sr_state rec) seq id base rat) /\ flags = 6%N /\ n = w_pos w)) /\
    exchange_session C w n id base rat m s n' /\
    exchange_message C w n' (xSequence m) flags id base rat a /\
    handshaken w r d (xIdentityKey m) (1 + n') s rec w'.
Proof using Hok.
  intros Hr%(reachable_inv C) H. unfold processKeyExchangeMessage in H.
  apply run_bind_ok in H as (t & w0 & [-> Ht]%trusted_inv & H). destruct t; [|done].
  destruct (kx_isInitiate m) eqn:Ei; [|by apply run_bind_ok in H as (? & ? & _ & H)].
  apply run_bind_ok in H as (x & w0 & H & [= <- <-]). unfold processInitiate in H.
  apply run_bind_ok in H as (rec & w0' & H0 & H). rewrite run_do, load_session in H0. injection H0 as Hrec <-.
  apply run_bind_ok in H as (v & w0' & [Hv ->]%run_lift_inv & H). destruct v; [|done].
  apply run_bind_ok in H as ([[[id base] rat] flags] & w1 & Hours & H).
  rewrite (archived_state _ _ _ _ Hrec) in H. cbv zeta in H.
  apply run_bind_ok in H as (s & w2 & (n' & -> & Hs)%session_inv & H).
  rewrite run_bind, run_do in H. cbn [step_call] in H. rewrite run_bind, run_do in H. cbn [step_call] in H.
  apply run_bind_ok in H as (sig & w3 & [-> ->]%signature_inv & H).
  apply run_lift_inv in H as [H ->]. destruct (exchange_session_wf _ _ _ _ _ _ _ _ Hs) as [Hwf Hver]. rewrite Hver in H.
  assert (exists n, w1 = w_set_pos n w /\ (flags < 32)%N /\ length (kp_pub base) <= 32 /\ length (kp_pub rat) <= 32 /\
    ((ss_pendingKeyExchange (sr_state rec) = None /\ id = w_identity w /\
      base = kp_at C w (w_pos w) /\ rat = kp_at C w (1 + w_pos w) /\ flags = 2%N /\ n = 2 + w_pos w) \/
     ((exists seq, started (sr_state rec) seq id base rat) /\ flags = 6%N /\ n = w_pos w))) as (n & -> & Hf & Hb & Hrt & Hor).
  { unfold st_hasPendingKeyExchange in Hours. destruct (ss_pendingKeyExchange (sr_state rec)) as [p|] eqn:Ep.
    - apply run_lift_inv in Hours as [Hours ->].
      apply bind_ok_inv in Hours as (i & Hi & Hours). apply bind_ok_inv in Hours as (b & Hb & Hours).
      apply bind_ok_inv in Hours as (t & Htt & [= <- <- <- <-]).
      unfold st_getPendingKeyExchangeIdentityKey, st_getPendingKeyExchangeBaseKey, st_getPendingKeyExchangeRatchetKey, st_pendingKeyExchange in *.
      rewrite Ep in Hi, Hb, Htt. cbn [default from_option id] in Hi, Hb, Htt.
      apply keypair_of_iff in Hi as [Hi _], Hb as [Hb Hbl], Htt as [Htt Htl].
      exists (w_pos w). split_and!; [by destruct w|done|done|done|]. right. split_and!; [|done|done].
      eexists. by exists p.
    - apply run_bind_ok in Hours as (i & w0' & H0 & Hours). rewrite run_do in H0. injection H0 as <- <-.
      rewrite run_bind, (run_generateKeyPair C Hok), run_bind, (run_generateKeyPair C Hok) in Hours.
      injection Hours as <- <- <- <- <-. exists (2 + w_pos w).
      split_and!; [done|done| | |by left].
      + rewrite (kp_at_pub_len C Hok). lia.
      + rewrite (kp_at_pub_len C Hok). lia. }
  exists rec, id, base, rat, flags, n, s, n'. split_and!.
  - done.
  - by apply Ht.
  - by apply verifySignature_true.
  - unfold kx_isInitiate, INITIATE_FLAG in Ei. apply negb_true_iff, N.eqb_neq in Ei.
    destruct (N.testbit (xFlags m) 0) eqn:Eb; [done|]. destruct Ei. change 1%N with (N.ones 1). rewrite N.land_ones.
    change (2 ^ 1)%N with 2%N. rewrite <- N.bit0_mod, Eb. done.
  - done.
  - done.
  - eapply message_inv; try done.
  - by apply (stored_handshake w (w_set_pos (1 + n') w)).
Qed.

Lemma response_effect w r d m w' :
  reachable C w -> run (processKeyExchangeMessage C r d m) w = (Ok None, w') ->
  exists rec, session_at w r d = Ok rec /\ trusts w r (xIdentityKey m) /\ N.testbit (xFlags m) 0 = false /\
    ((w' = w /\ N.testbit (xFlags m) 2 = true /\
      forall p, ss_pendingKeyExchange (sr_state rec) = Some p -> default 0%N (px_sequence p) <> xSequence m) \/
     exists id base rat s n', started (sr_state rec) (xSequence m) id base rat /\
       verifies C (xIdentityKey m) (x05 :: xBaseKey m) (xBaseKeySignature m) /\
       exchange_session C w (w_pos w) id base rat m s n' /\
       handshaken w r d (xIdentityKey m) n' s rec w').
Proof using Hok.
  intros Hr%(reachable_inv C) H. unfold processKeyExchangeMessage in H.
  apply run_bind_ok in H as (t & w0 & [-> Ht]%trusted_inv & H). destruct t; [|done].
  destruct (kx_isInitiate m) eqn:Ei; [by apply run_bind_ok in H as (? & ? & _ & H)|].
  apply run_bind_ok in H as ([] & w0 & H & [= <-]). unfold processResponse in H.
  apply run_bind_ok in H as (rec & w0' & H0 & H). rewrite run_do, load_session in H0. injection H0 as Hrec <-.
  exists rec. split_and!; [done|by apply Ht| |].
  { unfold kx_isInitiate, INITIATE_FLAG in Ei. apply negb_false_iff, N.eqb_eq in Ei. change 1%N with (N.ones 1) in Ei. rewrite N.land_ones in Ei.
    change (2 ^ 1)%N with 2%N in Ei. rewrite <- N.bit0_mod in Ei. by destruct (N.testbit _ 0). }
  cbv zeta in H. unfold st_hasPendingKeyExchange, st_getPendingKeyExchangeSequence, st_getPendingKeyExchangeIdentityKey, st_getPendingKeyExchangeBaseKey, st_getPendingKeyExchangeRatchetKey, st_pendingKeyExchange in H.
  match type of H with run (if ?c then _ else _) _ = _ => destruct c eqn:Ec end.
  - left. destruct (kx_isResponseForSimultaneousInitiate m) eqn:Es; [|done]. injection H as <-. split_and!; [done| |].
    + unfold kx_isResponseForSimultaneousInitiate, SIMULTAENOUS_INITIATE_FLAG in Es.
      apply negb_true_iff, N.eqb_neq in Es. destruct (N.testbit (xFlags m) 2) eqn:Eb; [done|]. destruct Es.
      apply N.bits_inj. intros k. rewrite N.land_spec. change 4%N with (2 ^ 2)%N. rewrite N.pow2_bits_eqb, N.bits_0.
      destruct (N.eqb_spec 2 k) as [<-|]; [by rewrite Eb|by rewrite andb_false_r].
    + intros p Hp He. rewrite Hp in Ec. cbn in Ec. rewrite He, N.eqb_refl in Ec. done.
  - right. apply orb_false_iff in Ec as [Ec1 Ec2]. apply negb_false_iff in Ec1, Ec2. apply N.eqb_eq in Ec2.
    destruct (ss_pendingKeyExchange (sr_state rec)) as [p|] eqn:Ep; [|done]. cbn [default from_option id] in *.
    apply run_bind_ok in H as (base & w0' & [[Hb _]%keypair_of_iff ->]%run_lift_inv & H).
    apply run_bind_ok in H as (rat & w0' & [[Hrt _]%keypair_of_iff ->]%run_lift_inv & H).
    apply run_bind_ok in H as (id & w0' & [[Hid _]%keypair_of_iff ->]%run_lift_inv & H).
    rewrite (archived_state _ _ _ _ Hrec) in H. cbv zeta in H.
    apply run_bind_ok in H as (s & w2 & (n' & -> & Hs)%session_inv & H).
    apply run_bind_ok in H as (v & w0' & [Hv ->]%run_lift_inv & H). destruct v; [|done].
    rewrite run_bind, !run_do in H. cbn [step_call] in H. rewrite run_do in H. cbn [step_call] in H. injection H as <-.
    exists id, base, rat, s, n'. split_and!; [by exists p|by apply verifySignature_true|done|].
    destruct (exchange_session_wf _ _ _ _ _ _ _ _ Hs) as [Hwf _].
    by apply (stored_handshake w (w_set_pos n' w)).
Qed.

Lemma start_effect w r d m w' :
  run (processInitKeyExchangeMessage C r d) w = (Ok m, w') ->
  let base := kp_at C w (1 + w_pos w) in let rat := kp_at C w (2 + w_pos w) in let id := w_identity w in
  let seq := (1 + be_val (w_tape w (w_pos w)) mod 65534)%N in
  exists rec bs, session_at w r d = Ok rec /\
    exchange_message C w (3 + w_pos w) seq 1 id base rat m /\
    session_at w' r d = Ok (SessionRecord false (start (sr_state rec) seq id base rat) (sr_previous rec)) /\
    w' = w_set_sessions (<[(r, d) := bs]> (w_sessions w)) (w_set_pos (4 + w_pos w) w).
Proof using Hok.
  intros H. cbv zeta. unfold processInitKeyExchangeMessage in H. rewrite run_rethrow in H.
  match type of H with context [run ?p w] => destruct (run p w) as [x w0] eqn:E end.
  destruct x as [m'|e]; [|by destruct (isInvalidKey e)]. injection H as -> ->.
  rewrite run_bind, run_getRandomSequence in E by done.
  rewrite run_bind, (run_generateKeyPair C Hok), run_bind, (run_generateKeyPair C Hok) in E.
  apply run_bind_ok in E as (id & w0 & H0 & E). rewrite run_do in H0. injection H0 as <- <-.
  apply run_bind_ok in E as (sig & w0 & [-> ->]%signature_inv & E).
  apply run_bind_ok in E as (rec & w0 & H0 & E). rewrite run_do, load_session in H0. injection H0 as Hrec <-.
  change (session_at w r d = Ok rec) in Hrec.
  apply run_bind_ok in E as (s & w0 & [Hs ->]%run_lift_inv & E).
  rewrite run_bind, run_do in E. cbn [step_call] in E. apply run_lift_inv in E as [Hm ->].
  apply bind_ok_inv in Hs as (q & [-> Hq]%set_u32_inv & [= <-]).
  rewrite (N.add_comm _ 1) in *.
  exists rec. eexists. split_and!; [done| | |done].
  - eapply message_inv; [..|exact Hm]; try done; cbn [Nat.add w_pos w_set_pos]; rewrite ?(kp_at_pub_len C Hok); try lia.
    all: rewrite kp_at_pub_len; [lia|done].
  - pose proof (loaded_wf _ _ _ _ Hrec) as [Hw Hwp]. destruct Hw as (W1 & W2 & W3 & W4 & W5 & W6 & W7 & W8).
    unfold session_at. cbn [w_set_pos w_set_sessions w_sessions]. rewrite lookup_insert. rewrite StateFacts.sr_roundtrip; [done|].
    split; [|done]. unfold ss_wf. cbn. split_and!; done.
Qed.
End setup.
