(** The exact results of the handshake functions. *)
From Verif Require Import PyBase Wire Protos ProtoFacts Crypto Ecc Kdf Messages State Prog Ratchet Builder Cipher Helper.
From Verif Require Import ProgFacts StateFacts UtilFacts HelperFacts MsgFacts CipherFacts DecryptFacts SpecSession SessionProofs.

Section handshake.
Context (C : crypto) (Hok : crypto_ok C).

(** Root and chain key of a DH ratchet step, and of the handshake secret. *)
Definition rkdf (rk shared : bytes) : bytes * bytes :=
  let okm := hkdf_deriveSecrets C hkdf_v3 shared (str "WhisperRatchet") 64 rk in (take 32 okm, take 32 (drop 32 okm)).
Definition mkdf (secret : bytes) : bytes * bytes :=
  let okm := hkdf_deriveSecrets C hkdf_v3 secret (str "WhisperText") 64 [] in (take 32 okm, take 32 (drop 32 okm)).

Lemma rkdf_lengths rk sh : length (rkdf rk sh).1 = 32 /\ length (rkdf rk sh).2 = 32.
Proof using Hok.
  unfold rkdf. cbn [fst snd]. rewrite !take_length, !drop_length, !(derive_length C Hok). lia.
Qed.
Lemma mkdf_lengths s : length (mkdf s).1 = 32 /\ length (mkdf s).2 = 32.
Proof using Hok.
  unfold mkdf. cbn [fst snd]. rewrite !take_length, !drop_length, !(derive_length C Hok). lia.
Qed.

Lemma calculateDerivedKeys_eq s :
  calculateDerivedKeys C s = (RootKey hkdf_v3 (mkdf s).1, ChainKey hkdf_v3 (mkdf s).2 0).
Proof.
  unfold calculateDerivedKeys, mkdf. unfold bu_split2. rewrite py_slice_prefix by done.
  change (32 + 32)%Z with (Z.of_nat 64). change 32%Z with (Z.of_nat 32).
  rewrite !py_slice_nonneg by lia. done.
Qed.

Lemma createChain_eq rk p kp :
  length p = 32 -> length (kp_priv kp) = 32 ->
  rk_createChain C (RootKey hkdf_v3 rk) p kp
  = Ok (RootKey hkdf_v3 (rkdf rk (agree C (kp_priv kp) p)).1, ChainKey hkdf_v3 (rkdf rk (agree C (kp_priv kp) p)).2 0).
Proof. intros. by rewrite rk_createChain_ok. Qed.

Lemma agreement_ok pub priv : length pub = 32 -> length priv = 32 -> calculateAgreement C pub priv = Ok (agree C priv pub).
Proof. intros H1 H2. unfold calculateAgreement, c_calculateAgreement. by rewrite H1, H2. Qed.

(** The handshake secrets. *)
Definition secretA (id base : keypair) (theirId theirSpk : bytes) (theirOtpk : option bytes) : bytes :=
  getDiscontinuityBytes ++ agree C (kp_priv id) theirSpk ++ agree C (kp_priv base) theirId ++
  agree C (kp_priv base) theirSpk ++ match theirOtpk with Some k => agree C (kp_priv base) k | None => [] end.
Definition secretB (id spk : keypair) (otpk : option keypair) (theirId theirBase : bytes) : bytes :=
  getDiscontinuityBytes ++ agree C (kp_priv spk) theirId ++ agree C (kp_priv id) theirBase ++
  agree C (kp_priv spk) theirBase ++ match otpk with Some k => agree C (kp_priv k) theirBase | None => [] end.

Local Notation genuine := (genuine C).

Lemma genuine_pub_len k : genuine k -> length (kp_pub k) = 32.
Proof using Hok. intros [H ->]. by apply (co_pub_len C Hok). Qed.
Lemma genuine_agree a b : genuine a -> genuine b -> agree C (kp_priv a) (kp_pub b) = agree C (kp_priv b) (kp_pub a).
Proof using Hok. intros [H1 ->] [H2 ->]. by apply (co_agree C Hok). Qed.
Lemma kp_at_genuine w n : genuine (kp_at C w n).
Proof using Hok. split; [by apply kp_at_priv_len|done]. Qed.
Lemma genuine_ok k : genuine k -> kp_ok k.
Proof using Hok. intros H. split; [by destruct H|by apply genuine_pub_len]. Qed.

Lemma secrets_agree idA baseA idB spkB otpk :
  genuine idA -> genuine baseA -> genuine idB -> genuine spkB ->
  (forall k, otpk = Some k -> genuine k) ->
  secretA idA baseA (kp_pub idB) (kp_pub spkB) (kp_pub <$> otpk)
  = secretB idB spkB otpk (kp_pub idA) (kp_pub baseA).
Proof using Hok.
  intros H1 H2 H3 H4 H5. unfold secretA, secretB.
  rewrite (genuine_agree idA spkB), (genuine_agree baseA idB), (genuine_agree baseA spkB) by done.
  do 4 f_equal. destruct otpk as [k|]; cbn; [|done]. by rewrite (genuine_agree baseA k) by auto.
Qed.

(** A sending chain structure. *)
Definition sendChain (kp : keypair) (ck : bytes) (i : N) : ch_s :=
  ChS (Some (pub_serialize (kp_pub kp))) (Some (kp_priv kp)) (Some (CkS (Some i) (Some ck))) [].

(** The states both sides start with. *)
Definition aliceState (idA idB theirRatchet ck0 : bytes) (ek : keypair) (rk1 ck1 : bytes) : ss_s :=
  SsS (Some 3%N) (Some (pub_serialize idA)) (Some (pub_serialize idB)) (Some rk1) None
    (Some (sendChain ek ck1 0)) [newChain theirRatchet (ChainKey hkdf_v3 ck0 0)] None None None None None None.
Definition bobState (idB idA : bytes) (ratchet : keypair) (rk0 ck0 : bytes) : ss_s :=
  SsS (Some 3%N) (Some (pub_serialize idB)) (Some (pub_serialize idA)) (Some rk0) None
    (Some (sendChain ratchet ck0 0)) [] None None None None None None.

Lemma run_asAlice id base theirId theirSpk theirRatchet theirOtpk w :
  length (kp_priv id) = 32 -> length (kp_priv base) = 32 -> length theirId = 32 -> length theirSpk = 32 ->
  length theirRatchet = 32 -> (forall k, theirOtpk = Some k -> length k = 32) ->
  let ek := kp_at C w (w_pos w) in
  let k0 := mkdf (secretA id base theirId theirSpk theirOtpk) in
  let k1 := rkdf k0.1 (agree C (kp_priv ek) theirRatchet) in
  run (initializeSessionAsAlice C st_new id base theirId theirSpk theirRatchet theirOtpk) w
  = (Ok (aliceState (kp_pub id) theirId theirRatchet k0.2 ek k1.1 k1.2), w_set_pos (S (w_pos w)) w).
Proof using Hok.
  intros H1 H2 H3 H4 H5 H6. cbv zeta. unfold initializeSessionAsAlice.
  rewrite run_bind, (run_generateKeyPair C Hok), run_lift.
  rewrite !agreement_ok by done. rewrite !bind_ok.
  assert (match theirOtpk with Some k => calculateAgreement C k (kp_priv base) | None => Ok [] end
          = Ok (match theirOtpk with Some k => agree C (kp_priv base) k | None => [] end)) as ->.
  { destruct theirOtpk as [k|]; [|done]. by rewrite agreement_ok by auto. }
  rewrite bind_ok, calculateDerivedKeys_eq.
  rewrite createChain_eq by (done || by apply kp_at_priv_len). done.
Qed.

Lemma asBob_ok id spk ratchet otpk theirId theirBase :
  length (kp_priv id) = 32 -> length (kp_priv spk) = 32 -> length theirId = 32 -> length theirBase = 32 ->
  (forall k, otpk = Some k -> length (kp_priv k) = 32) ->
  let k0 := mkdf (secretB id spk otpk theirId theirBase) in
  initializeSessionAsBob C st_new id spk ratchet otpk theirId theirBase
  = Ok (bobState (kp_pub id) theirId ratchet k0.1 k0.2).
Proof.
  intros H1 H2 H3 H4 H5. cbv zeta. unfold initializeSessionAsBob.
  rewrite !agreement_ok by done. rewrite !bind_ok.
  assert (match otpk with Some k => calculateAgreement C theirBase (kp_priv k) | None => Ok [] end
          = Ok (match otpk with Some k => agree C (kp_priv k) theirBase | None => [] end)) as ->.
  { destruct otpk as [k|]; [|done]. by rewrite agreement_ok by auto. }
  rewrite bind_ok, calculateDerivedKeys_eq. done.
Qed.

(** The record to which the new state is added is as good as new. *)
Lemma session_at_fresh w r d rec : session_at w r d = Ok rec -> sr_fresh rec = true -> rec = sr_new.
Proof.
  unfold session_at. destruct (w_sessions w !! (r, d)) as [bs|]; [|by intros [= <-]].
  unfold sr_deserialize. destruct bs; [by intros [= <-]|]. intros (x & Hx & [= <-])%bind_ok_inv. done.
Qed.

Lemma archived_state w r d rec : session_at w r d = Ok rec -> sr_state (archiveUnlessFresh rec) = st_new.
Proof.
  intros H. unfold archiveUnlessFresh. destruct (sr_fresh rec) eqn:E; [|done].
  by rewrite (session_at_fresh _ _ _ _ H E).
Qed.

(** processPreKeyBundle of an acceptable bundle. *)
Lemma run_bundle r d b spk w rec :
  trusts w r (bu_identityKey b) -> session_at w r d = Ok rec ->
  bu_signedPreKey b = Some spk -> verifies C (bu_identityKey b) (x05 :: spk) (bu_signedPreKeySignature b) ->
  length spk = 32 -> (forall k, bu_preKey b = Some k -> length k = 32) ->
  length (kp_priv (w_identity w)) = 32 -> (bu_signedPreKeyId b < 2 ^ 31)%N ->
  (forall i, bu_preKeyId b = Some i -> (i < 2 ^ 32)%N) ->
  (w_regid w < 2 ^ 32)%N -> (bu_registrationId b < 2 ^ 32)%N ->
  let base := kp_at C w (w_pos w) in
  let ek := kp_at C w (S (w_pos w)) in
  let k0 := mkdf (secretA (w_identity w) base (bu_identityKey b) spk (bu_preKey b)) in
  let k1 := rkdf k0.1 (agree C (kp_priv ek) spk) in
  let s := SsS (Some 3%N) (Some (pub_serialize (kp_pub (w_identity w)))) (Some (pub_serialize (bu_identityKey b))) (Some k1.1) None
    (Some (sendChain ek k1.2 0)) [newChain spk (ChainKey hkdf_v3 k0.2 0)] None
    (Some (PpS (match bu_preKey b with Some _ => bu_preKeyId b | None => None end) (Some (pub_serialize (kp_pub base)))
               (Some (Z.of_N (bu_signedPreKeyId b)))))
    (Some (bu_registrationId b)) (Some (w_regid w)) None (Some (pub_serialize (kp_pub base))) in
  run (processPreKeyBundle C r d b) w
  = (Ok tt, w_set_trusted (<[r := bu_identityKey b]> (w_trusted w))
      (w_set_sessions (<[(r, d) := sr_serialize (sr_setState s (archiveUnlessFresh rec))]> (w_sessions w))
        (w_set_pos (S (S (w_pos w))) w))).
Proof using Hok.
  intros Ht Hrec Hspk Hver Hspkl Hpk Hidl Hsid Hpid Hreg Hbreg. cbv zeta.
  unfold processPreKeyBundle. rewrite run_bind, run_do, trusted_true by done. rewrite Hspk, run_bind, run_lift.
  destruct Hver as (Hil & Hsl & Hv).
  destruct (verifySignature_spec C (bu_identityKey b) (pub_serialize spk) (bu_signedPreKeySignature b) Hil Hsl) as (t & -> & Hb).
  rewrite (proj2 Hb) by (unfold verifies; done).
  rewrite run_bind, run_do, load_session, Hrec, run_bind, (run_generateKeyPair C Hok), run_bind, run_do.
  cbn [step_call].
  rewrite (archived_state _ _ _ _ Hrec), run_bind.
  change (w_identity (w_set_pos (S (w_pos w)) w)) with (w_identity w).
  rewrite run_asAlice; try done; [|by apply kp_at_priv_len].
  rewrite run_bind, run_lift. unfold st_setUnacknowledgedPreKeyMessage.
  assert (set_i32 (bu_signedPreKeyId b) = Ok (Z.of_N (bu_signedPreKeyId b))) as ->.
  { unfold set_i32. by rewrite (proj2 (N.ltb_lt _ _)). }
  rewrite bind_ok.
  match goal with |- context [match ?o with Some i => j ← set_u32 i; @?f i j | None => ?g end] => set (o' := o) end.
  assert (o' = match bu_preKey b with Some _ => bu_preKeyId b | None => None end) as Ho' by done.
  destruct o' as [i|] eqn:Eo.
  - assert (set_u32 i = Ok i) as ->.
    { apply set_u32_ok. apply Hpid. destruct (bu_preKey b); congruence. }
    rewrite !bind_ok, run_bind, run_do. cbn [step_call].
    rewrite run_bind, run_lift. unfold st_setLocalRegistrationId.
    cbn [w_set_pos w_regid]. rewrite set_u32_ok, bind_ok by done.
    rewrite run_bind, run_lift. unfold st_setRemoteRegistrationId. rewrite set_u32_ok, bind_ok by done.
    rewrite run_bind, !run_do. cbn [step_call]. rewrite run_do. cbn [step_call]. done.
  - rewrite !bind_ok, run_bind, run_do. cbn [step_call].
    rewrite run_bind, run_lift. unfold st_setLocalRegistrationId.
    cbn [w_set_pos w_regid]. rewrite set_u32_ok, bind_ok by done.
    rewrite run_bind, run_lift. unfold st_setRemoteRegistrationId. rewrite set_u32_ok, bind_ok by done.
    rewrite run_bind, !run_do. cbn [step_call]. rewrite run_do. cbn [step_call]. done.
Qed.

(** processV3 of a message that starts a new session. *)
Lemma run_processV3 rec m w r d spr spk :
  session_at w r d = Ok rec -> ~ belongs rec (pVersion m) (pBaseKey m) ->
  step_call (CLoadSignedPreKey (pSignedPreKeyId m)) w = (Ok spr, w) ->
  signedprekeyrecord_getKeyPair spr = Ok spk ->
  forall otpk,
  match pPreKeyId m with
  | Some i => exists pr kp, step_call (CLoadPreKey i) w = (Ok pr, w) /\ prekeyrecord_getKeyPair pr = Ok kp /\ otpk = Some kp
  | None => otpk = None
  end ->
  length (kp_priv (w_identity w)) = 32 -> length (kp_priv spk) = 32 ->
  (forall k, otpk = Some k -> length (kp_priv k) = 32) ->
  length (pIdentityKey m) = 32 -> length (pBaseKey m) = 32 ->
  (w_regid w < 2 ^ 32)%N -> (pRegistrationId m < 2 ^ 32)%N ->
  let k0 := mkdf (secretB (w_identity w) spk otpk (pIdentityKey m) (pBaseKey m)) in
  let s := SsS (Some 3%N) (Some (pub_serialize (kp_pub (w_identity w)))) (Some (pub_serialize (pIdentityKey m))) (Some k0.1) None
    (Some (sendChain spk k0.2 0)) [] None None (Some (pRegistrationId m)) (Some (w_regid w)) None
    (Some (pub_serialize (pBaseKey m))) in
  run (processV3 C rec m) w
  = (Ok (sr_setState s (archiveUnlessFresh rec),
         match pPreKeyId m with Some i => if (i =? MEDIUM_MAX_VALUE)%N then None else Some i | None => None end), w).
Proof.
  intros Hrec Hb Hspr Hspk otpk Hotpk H1 H2 H3 H4 H5 H6 H7. cbv zeta.
  unfold processV3. destruct (sr_hasSessionState _ _ _) eqn:E; [by apply hasSessionState_spec in E|].
  rewrite run_bind, run_do, Hspr, run_bind, run_lift, Hspk, run_bind, run_do. cbn [step_call].
  rewrite run_bind.
  assert (run (match pPreKeyId m with
           | Some i => pr ← do (CLoadPreKey i); kp ← lift (prekeyrecord_getKeyPair pr); Ret (Some kp)
           | None => Ret None
           end) w = (Ok otpk, w)) as ->.
  { destruct (pPreKeyId m) as [i|]; [|by subst]. destruct Hotpk as (pr & kp & Hp & Hkp & ->).
    rewrite run_bind, run_do, Hp, run_bind, run_lift, Hkp. done. }
  rewrite (archived_state _ _ _ _ Hrec), run_bind, run_lift.
  rewrite asBob_ok by done.
  rewrite run_bind, run_do. cbn [step_call].
  rewrite run_bind, run_lift. unfold st_setLocalRegistrationId. rewrite set_u32_ok, bind_ok by done.
  rewrite run_bind, run_lift. unfold st_setRemoteRegistrationId. rewrite set_u32_ok, bind_ok by done.
  done.
Qed.
End handshake.
