(** Proofs about handshakes: C10, C22 (exact exceptions), C36. *)
From Verif Require Import PyBase Wire Protos ProtoFacts Crypto Ecc Kdf Messages State Prog Ratchet Builder Cipher Helper.
From Verif Require Import ProgFacts StateFacts UtilFacts HelperFacts MsgFacts CipherFacts DecryptFacts SpecSession SessionProofs HandshakeFacts.

Section handshake.
Context (C : crypto) (Hok : crypto_ok C).

(** ** C10 *)

Lemma handshake_agrees idA baseA idB spkB ratchetB otpk w :
  genuine C idA -> genuine C baseA -> genuine C idB -> genuine C spkB -> genuine C ratchetB ->
  (forall k, otpk = Some k -> genuine C k) ->
  exists sA sB w' c sc ekA rootA ckA,
    run (initializeSessionAsAlice C st_new idA baseA (kp_pub idB) (kp_pub spkB) (kp_pub ratchetB) (kp_pub <$> otpk)) w = (Ok sA, w') /\
    initializeSessionAsBob C st_new idB spkB ratchetB otpk (kp_pub idA) (kp_pub baseA) = Ok sB /\
    ss_receiverChains sA = [c] /\ ss_senderChain sB = Some sc /\
    ch_ratchetKey c = ch_ratchetKey sc /\ ch_chainKey c = ch_chainKey sc /\ is_Some (ch_chainKey c) /\
    st_getSenderRatchetKeyPair sB = Ok ratchetB /\
    st_getSenderRatchetKeyPair sA = Ok ekA /\ genuine C ekA /\
    ss_rootKey sA = Some rootA /\ st_getSenderChainKey sA = Ok (ChainKey hkdf_v3 ckA 0) /\
    (rootB ← st_getRootKey sB; rk_createChain C rootB (kp_pub ekA) ratchetB)
      = Ok (RootKey hkdf_v3 rootA, ChainKey hkdf_v3 ckA 0).
Proof using Hok.
  intros GiA GbA GiB GsB GrB Go.
  pose proof (genuine_pub_len C Hok) as L.
  assert (length (kp_priv (kp_at C w (w_pos w))) = 32) as Hek by (by apply kp_at_priv_len).
  eexists _, _, _, _, _, (kp_at C w (w_pos w)), _, _.
  split.
  { apply (run_asAlice C Hok); [by destruct GiA|by destruct GbA|by apply L..|].
    intros k. destruct otpk as [k'|]; [|done]. intros [= <-]. apply L. by apply Go. }
  split.
  { apply asBob_ok; [by destruct GiB|by destruct GsB|by apply L..|].
    intros k ->. by destruct (Go k eq_refl). }
  rewrite (secrets_agree C Hok) by done.
  split_and!; try done.
  - unfold st_getSenderRatchetKeyPair, st_getSenderRatchetKey.
    change (default [] (ch_ratchetKey (st_senderChain (bobState (kp_pub idB) (kp_pub idA) ratchetB
       (mkdf C (secretB C idB spkB otpk (kp_pub idA) (kp_pub baseA))).1
       (mkdf C (secretB C idB spkB otpk (kp_pub idA) (kp_pub baseA))).2)))) with (pub_serialize (kp_pub ratchetB)).
    rewrite decodePoint_serialize by (rewrite L by done; lia). rewrite bind_ok. by destruct ratchetB.
  - unfold st_getSenderRatchetKeyPair, st_getSenderRatchetKey.
    match goal with |- context [decodePoint (default [] ?x) 0] => change x with (Some (pub_serialize (kp_pub (kp_at C w (w_pos w))))) end.
    rewrite default_Some, decodePoint_serialize by (rewrite kp_at_pub_len by done; lia). rewrite bind_ok. done.
  - unfold st_getRootKey.
    match goal with |- context [hkdf_createFor ?v] => change (hkdf_createFor v) with (Ok hkdf_v3) end.
    rewrite !bind_ok.
    match goal with |- context [default [] ?x] => change (default [] x) with (mkdf C (secretB C idB spkB otpk (kp_pub idA) (kp_pub baseA))).1 end.
    rewrite createChain_eq; [|by apply kp_at_pub_len|by destruct GrB].
    rewrite <- (genuine_agree C Hok (kp_at C w (w_pos w)) ratchetB); [done|by apply kp_at_genuine|done].
Qed.

(** ** C22 *)

Lemma run_initializeSession id base ratchet theirBase theirRatchet theirId w :
  kp_ok id -> kp_ok base -> kp_ok ratchet ->
  length theirBase = 32 -> length theirRatchet = 32 -> length theirId = 32 ->
  exists s w', run (initializeSession C st_new id base ratchet theirBase theirRatchet theirId) w = (Ok s, w') /\ same_stores w w'.
Proof using Hok.
  intros [H1 H1'] [H2 H2'] [H3 H3'] H4 H5 H6. unfold initializeSession, isAlice.
  destruct (pub_lt_spec (kp_pub base) theirBase) as (t & Ht & _); [done..|].
  rewrite run_bind, run_lift, Ht. destruct t.
  - eexists _, _. split; [by apply (run_asAlice C Hok)|]. apply same_stores_pos.
  - rewrite run_lift. eexists _, w. split; [by rewrite asBob_ok|done].
Qed.

Lemma kx_initiate_bad_signature r d m w rec :
  trusts w r (xIdentityKey m) -> session_at w r d = Ok rec -> kx_isInitiate m = true ->
  length (xIdentityKey m) = 32 -> length (xBaseKeySignature m) = 64 ->
  ~ verifies C (xIdentityKey m) (x05 :: xBaseKey m) (xBaseKeySignature m) ->
  run (processKeyExchangeMessage C r d m) w = (Err EInvalidKey, w).
Proof.
  intros Ht Hrec Hi H1 H2 Hv. unfold processKeyExchangeMessage.
  rewrite run_bind, run_do, trusted_true by done. rewrite Hi, run_bind. unfold processInitiate.
  rewrite run_bind, run_do, load_session, Hrec, run_bind, run_lift.
  destruct (verifySignature_spec C (xIdentityKey m) (pub_serialize (xBaseKey m)) (xBaseKeySignature m) H1 H2) as (t & -> & Hb).
  destruct t; [|done]. by destruct Hv; apply Hb.
Qed.

Lemma kx_response_bad_signature r d m w rec p kb kr ki :
  trusts w r (xIdentityKey m) -> session_at w r d = Ok rec -> kx_isInitiate m = false ->
  ss_pendingKeyExchange (sr_state rec) = Some p ->
  p = PxS (Some (xSequence m)) (Some (x05 :: kp_pub kb)) (Some (kp_priv kb)) (Some (x05 :: kp_pub kr)) (Some (kp_priv kr))
        (Some (x05 :: kp_pub ki)) (Some (kp_priv ki)) ->
  kp_ok kb -> kp_ok kr -> kp_ok ki ->
  length (xBaseKey m) = 32 -> length (xRatchetKey m) = 32 ->
  length (xIdentityKey m) = 32 -> length (xBaseKeySignature m) = 64 ->
  ~ verifies C (xIdentityKey m) (x05 :: xBaseKey m) (xBaseKeySignature m) ->
  exists w', run (processKeyExchangeMessage C r d m) w = (Err EInvalidKey, w') /\ unchanged w w'.
Proof using Hok.
  intros Ht Hrec Hi Hp -> Hkb Hkr Hki Hl1 Hl2 Hl3 Hl4 Hv. unfold processKeyExchangeMessage.
  rewrite run_bind, run_do, trusted_true by done. rewrite Hi, run_bind. unfold processResponse.
  rewrite run_bind, run_do, load_session, Hrec.
  unfold st_hasPendingKeyExchange, st_getPendingKeyExchangeSequence, st_getPendingKeyExchangeBaseKey,
    st_getPendingKeyExchangeRatchetKey, st_getPendingKeyExchangeIdentityKey, st_pendingKeyExchange.
  rewrite Hp. rewrite default_Some.
  cbn [px_sequence px_baseKey px_baseKeyPrivate px_ratchetKey px_ratchetKeyPrivate px_identityKey px_identityKeyPrivate].
  rewrite default_Some, N.eqb_refl. cbn [negb orb].
  unfold stored_keypair. rewrite !default_Some.
  change (x05 :: kp_pub kb) with (pub_serialize (kp_pub kb)).
  change (x05 :: kp_pub kr) with (pub_serialize (kp_pub kr)).
  change (x05 :: kp_pub ki) with (pub_serialize (kp_pub ki)).
  destruct Hkb as [Kb1 Kb2], Hkr as [Kr1 Kr2], Hki as [Ki1 Ki2].
  rewrite !decodePoint_serialize by lia. rewrite !bind_ok. rewrite run_bind, run_lift, run_bind, run_lift, run_bind, run_lift.
  rewrite (archived_state _ _ _ _ Hrec), run_bind.
  destruct (run_initializeSession (KeyPair (kp_pub ki) (kp_priv ki)) (KeyPair (kp_pub kb) (kp_priv kb)) (KeyPair (kp_pub kr) (kp_priv kr))
     (xBaseKey m) (xRatchetKey m) (xIdentityKey m) w) as (s & w' & Hrun & Hw'); try done.
  rewrite Hrun, run_bind, run_lift.
  destruct (verifySignature_spec C (xIdentityKey m) (pub_serialize (xBaseKey m)) (xBaseKeySignature m) Hl3 Hl4) as (t & -> & Hb).
  destruct t; [by destruct Hv; apply Hb|]. exists w'. split; [done|]. by apply unchanged_same.
Qed.

(** ** C36 *)

Lemma signed_prekey_run seed id w :
  length seed = 32 -> (id < 2 ^ 32)%N ->
  let identity := KeyPair (genPub C (genPriv C seed)) (genPriv C seed) in
  exists spr kp w', run (generateSignedPreKey C identity id) w = (Ok spr, w') /\ unchanged w w' /\
    signedprekeyrecord_getId spr = id /\ signedprekeyrecord_getKeyPair spr = Ok kp /\ genuine C kp /\
    verifies C (kp_pub identity) (x05 :: kp_pub kp) (signedprekeyrecord_getSignature spr).
Proof using Hok.
  intros Hseed Hid identity. unfold generateSignedPreKey.
  rewrite run_bind, (run_generateKeyPair C Hok).
  assert (length (kp_priv identity) = 32) as Hil by (by apply (co_priv_len C Hok)).
  rewrite run_bind, (run_calculateSignature C) by done.
  rewrite run_bind, run_do. cbn [step_call]. rewrite run_lift.
  unfold signedprekeyrecord_create. rewrite set_u32_ok by done. rewrite bind_ok.
  set (t := (_ mod _)%N). assert (t < 2 ^ 64)%N as Ht by (by apply N.mod_lt).
  unfold set_u64. rewrite (proj2 (N.ltb_lt _ _)) by done. rewrite bind_ok.
  eexists _, (kp_at C w (w_pos w)), _. split; [done|]. split_and!.
  - done.
  - done.
  - unfold signedprekeyrecord_getKeyPair, stored_keypair. cbn [spr_publicKey spr_privateKey]. rewrite !default_Some.
    rewrite decodePoint_serialize by (rewrite kp_at_pub_len by done; lia). done.
  - by apply kp_at_genuine.
  - unfold signedprekeyrecord_getSignature. cbn [spr_signature]. rewrite default_Some.
    split_and!; [by apply (co_pub_len C Hok)| |].
    + apply (co_sign_len C Hok); [|done]. apply resize_length.
    + apply (co_verify C Hok); [done|]. apply resize_length.
Qed.

(** A bundle with the generated signed prekey is accepted. *)
Lemma signed_prekey_accepted seed id w spr w' :
  length seed = 32 -> (id < 2 ^ 31)%N ->
  let identity := KeyPair (genPub C (genPriv C seed)) (genPriv C seed) in
  run (generateSignedPreKey C identity id) w = (Ok spr, w') ->
  exists kp, signedprekeyrecord_getKeyPair spr = Ok kp /\
  forall r d regid dev pid pk wA rec,
  trusts wA r (kp_pub identity) -> session_at wA r d = Ok rec ->
  length (kp_priv (w_identity wA)) = 32 -> (w_regid wA < 2 ^ 32)%N -> (regid < 2 ^ 32)%N ->
  (forall i, pid = Some i -> (i < 2 ^ 32)%N) -> (forall k, pk = Some k -> length k = 32) ->
  exists wA', run (processPreKeyBundle C r d
    (PreKeyBundle regid dev pid pk (signedprekeyrecord_getId spr) (Some (kp_pub kp))
       (signedprekeyrecord_getSignature spr) (kp_pub identity))) wA = (Ok tt, wA').
Proof using Hok.
  intros Hseed Hid identity Hrun.
  destruct (signed_prekey_run seed id w Hseed) as (spr' & kp & w1 & Hrun' & _ & Hid' & Hkp & Hg & Hv); [lia|].
  change (run (generateSignedPreKey C identity id) w = (Ok spr', w1)) in Hrun'.
  rewrite Hrun in Hrun'. injection Hrun' as <- <-. exists kp. split; [done|].
  intros r d regid dev pid pk wA rec Ht Hrec Hil Hreg Hbreg Hpid Hpk.
  eexists. eapply (run_bundle C Hok r d _ (kp_pub kp) wA rec); try done.
  - by apply (genuine_pub_len C Hok).
  - cbn [bu_signedPreKeyId]. by rewrite Hid'.
Qed.
End handshake.
