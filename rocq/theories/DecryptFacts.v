(** Decryption with one state and with a whole record, as inversion lemmas. *)
From Verif Require Import PyBase Wire Protos ProtoFacts Crypto Ecc Kdf Messages State Prog Ratchet Builder Cipher Helper.
From Verif Require Import ProgFacts StateFacts UtilFacts HelperFacts MsgFacts CipherFacts SpecSession.

Section decrypt.
Context (C : crypto).

(** What remains after the chain was found: a function of the chain and the message. *)
Definition openWith (kdf : N) (c : ch_s) (s : ss_s) (m : whisperMessage) : res (bytes * ch_s) :=
  y ← chainTake C kdf c (wCounter m);
  remoteId ← st_getRemoteIdentityKey s;
  localId ← st_getLocalIdentityKey s;
  _ ← whisper_verifyMac C m (wVersion m) remoteId localId (mMac y.1);
  plaintext ← aes_decrypt C (mCipher y.1) (mIv y.1) (wBody m);
  Ok (plaintext, y.2).

Lemma steppedState_ids s key a b ek c :
  st_getRemoteIdentityKey (steppedState s key a b ek c) = st_getRemoteIdentityKey s /\
  st_getLocalIdentityKey (steppedState s key a b ek c) = st_getLocalIdentityKey s.
Proof. done. Qed.

Lemma decryptPure_step s m ek kdf ck s1 c j :
  st_hasSenderChain s = true -> wVersion m = st_getSessionVersion s ->
  chainStep C s (wRatchetKey m) ek = Ok (ck, s1) ->
  find_chain (wRatchetKey m) (ss_receiverChains s1) 0 = Ok (Some (c, j)) ->
  ck = ch_getChainKey kdf c ->
  decryptPure C s m ek
  = (x ← openWith kdf c s m; Ok (x.1, st_clearUnacknowledgedPreKeyMessage (st_putReceiverChain j x.2 s1))).
Proof.
  intros Hsc Hv Hstep Hf ->. unfold decryptPure, openWith. rewrite Hsc, Hv, N.eqb_refl. cbn [negb].
  rewrite Hstep, bind_ok. cbn [fst snd]. rewrite (getOrCreateMessageKeys_eq C _ _ _ _ _ _ Hf).
  destruct (chainTake C kdf c (wCounter m)) as [[mk c']|e]; [|done]. rewrite !bind_ok. cbn [fst snd].
  assert (st_getRemoteIdentityKey (st_putReceiverChain j c' s1) = st_getRemoteIdentityKey s /\
          st_getLocalIdentityKey (st_putReceiverChain j c' s1) = st_getLocalIdentityKey s) as [-> ->].
  { apply chainStep_inv in Hstep as (kdf' & c0 & j' & _ & _ & _ & [->|(_ & _ & our & x & y & _ & _ & _ & _ & ->)]); done. }
  destruct (st_getRemoteIdentityKey s) as [ri|]; [|done]. rewrite !bind_ok.
  destruct (st_getLocalIdentityKey s) as [li|]; [|done]. rewrite !bind_ok.
  destruct (whisper_verifyMac _ _ _ _ _ _) as [u|]; [|done]. rewrite !bind_ok.
  by destruct (aes_decrypt _ _ _ _).
Qed.

Lemma decryptPure_ok_inv s m ek pt s' :
  decryptPure C s m ek = Ok (pt, s') ->
  st_hasSenderChain s = true /\ wVersion m = st_getSessionVersion s /\
  exists kdf c j s1 c',
    hkdf_createFor (st_getSessionVersion s) = Ok kdf /\
    chainStep C s (wRatchetKey m) ek = Ok (ch_getChainKey kdf c, s1) /\
    find_chain (wRatchetKey m) (ss_receiverChains s1) 0 = Ok (Some (c, j)) /\
    openWith kdf c s m = Ok (pt, c') /\
    s' = st_clearUnacknowledgedPreKeyMessage (st_putReceiverChain j c' s1).
Proof.
  intros H. pose proof H as H0. unfold decryptPure in H.
  destruct (st_hasSenderChain s) eqn:Hsc; [|done]. cbn [negb] in H.
  destruct (wVersion m =? st_getSessionVersion s)%N eqn:Hv; [|done]. cbn [negb] in H. apply N.eqb_eq in Hv.
  apply bind_ok_inv in H as ([ck s1] & Hstep & _).
  pose proof (chainStep_inv C _ _ _ _ _ Hstep) as (kdf & c & j & Hkdf & Hf & -> & _).
  rewrite (decryptPure_step _ _ _ kdf _ _ c j Hsc Hv Hstep Hf eq_refl) in H0.
  apply bind_ok_inv in H0 as ([pt' c'] & Ho & [= <- <-]).
  split_and!; [done..|]. exists kdf, c, j, s1, c'. by split_and!.
Qed.

(** ** The outcome does not depend on the fresh ratchet key *)

Lemma rk_createChain_len r p k k' :
  length (kp_priv k) = 32 -> length (kp_priv k') = 32 ->
  (exists e, rk_createChain C r p k = Err e /\ rk_createChain C r p k' = Err e) \/
  (exists y y', rk_createChain C r p k = Ok y /\ rk_createChain C r p k' = Ok y' /\ cIndex y.2 = 0%N /\ cIndex y'.2 = 0%N).
Proof.
  intros H H'. unfold rk_createChain, calculateAgreement, c_calculateAgreement. rewrite H, H'. cbn [Nat.eqb].
  destruct (length p =? 32)%nat; cbn [andb].
  - right. rewrite !bind_ok. destruct (bu_split2 _ _ _), (bu_split2 _ _ _). eexists _, _. done.
  - left. eauto.
Qed.

(** Two drawn keys: both fail alike or both succeed with the same chain key. *)
Lemma chainStep_ek s key k k' :
  kp_ok k -> kp_ok k' ->
  (exists e, chainStep C s key k = Err e /\ chainStep C s key k' = Err e) \/
  (exists ck s1 s1', chainStep C s key k = Ok (ck, s1) /\ chainStep C s key k' = Ok (ck, s1') /\
     ss_receiverChains s1' = ss_receiverChains s1).
Proof.
  intros [Hk _] [Hk' _]. unfold chainStep.
  destruct (st_hasReceiverChain key s) as [[]|e]; rewrite ?bind_ok; [| |left; by eauto].
  { destruct (st_getReceiverChainKey key s) as [ck|e]; [right|left]; eauto. exists ck, s, s. done. }
  destruct (st_getRootKey s ≫= _) as [x|e]; rewrite ?bind_ok; [|left; by eauto].
  destruct (rk_createChain_len x.1 key k k' Hk Hk') as [(e & -> & ->)|(y & y' & -> & -> & Hy & Hy')]; [left; by eauto|].
  rewrite !bind_ok. unfold st_addReceiverChain.
  destruct (ch_putChainKey x.2 _) as [z|e]; [|left; by eauto]. rewrite !bind_ok.
  unfold st_getSenderChainKey.
  change (st_getSessionVersion (ss_set_receiverChains _ _)) with (st_getSessionVersion s).
  destruct (hkdf_createFor (st_getSessionVersion s)) as [kdf|e] eqn:Hkdf; [|left; by eauto]. rewrite !bind_ok.
  unfold st_setPreviousCounter.
  change (st_senderChain (ss_set_receiverChains _ _)) with (st_senderChain s).
  destruct (set_u32 _) as [pc|e]; [|left; by eauto]. rewrite !bind_ok.
  unfold st_setSenderChain, ch_putChainKey. rewrite Hy, Hy', set_u32_ok by done. rewrite !bind_ok.
  right. eexists _, _, _. split_and!; done.
Qed.

Lemma decryptPure_ek s m k k' :
  kp_ok k -> kp_ok k' -> fst <$> decryptPure C s m k = fst <$> decryptPure C s m k'.
Proof.
  intros Hk Hk'.
  destruct (st_hasSenderChain s) eqn:Hsc; [|unfold decryptPure; by rewrite Hsc].
  destruct (wVersion m =? st_getSessionVersion s)%N eqn:Hv; [|unfold decryptPure; by rewrite Hsc, Hv].
  destruct (chainStep_ek s (wRatchetKey m) k k' Hk Hk') as [(e & He & He')|(ck & s1 & s1' & H1 & H1' & Hr)].
  { unfold decryptPure. rewrite Hsc, Hv. cbn [negb]. by rewrite He, He'. }
  apply N.eqb_eq in Hv.
  pose proof (chainStep_inv C _ _ _ _ _ H1) as (kdf & c & j & Hkdf & Hf & -> & _).
  rewrite (decryptPure_step _ _ _ kdf _ _ c j Hsc Hv H1 Hf eq_refl).
  rewrite <- Hr in Hf.
  rewrite (decryptPure_step _ _ _ kdf _ _ c j Hsc Hv H1' Hf eq_refl).
  by destruct (openWith kdf c s m).
Qed.

(** The plaintext or exception of a state for a message. *)
Definition zeroKp : keypair := KeyPair (replicate 32 x00) (replicate 32 x00).
Definition verdict (s : ss_s) (m : whisperMessage) : res bytes := fst <$> decryptPure C s m zeroKp.

Lemma zeroKp_ok : kp_ok zeroKp.
Proof. done. Qed.

Lemma verdict_eq s m k : kp_ok k -> fst <$> decryptPure C s m k = verdict s m.
Proof. intros H. apply decryptPure_ek; [done|]. exact zeroKp_ok. Qed.

Lemma verdict_err s m k e : kp_ok k -> decryptPure C s m k = Err e <-> verdict s m = Err e.
Proof.
  intros H%(verdict_eq s m). rewrite <- H. destruct (decryptPure C s m k); cbn; split; congruence.
Qed.

Lemma verdict_ok s m k pt : kp_ok k -> verdict s m = Ok pt <-> exists s', decryptPure C s m k = Ok (pt, s').
Proof.
  intros H%(verdict_eq s m). rewrite <- H. destruct (decryptPure C s m k) as [[a b]|]; cbn; split.
  - intros [= ->]. eauto.
  - intros (? & [= -> ->]). done.
  - done.
  - by intros (? & ?).
Qed.

Context (Hok : crypto_ok C).

Lemma kp_at_ok w n : kp_ok (kp_at C w n).
Proof using Hok. split; [by apply kp_at_priv_len|by apply kp_at_pub_len]. Qed.

(** ** Decryption with a record *)

(** The record after state number [i] (0 is the current one) decrypted and became [s]. *)
Definition record_after (i : nat) (s : ss_s) (rec : sessionRecord) : sessionRecord :=
  match i with
  | O => sr_setState s rec
  | S i => sr_promoteState s (SessionRecord (sr_fresh rec) (sr_state rec) (delete i (sr_previous rec)))
  end.

(** All states of a record in the order they are tried. *)
Definition sr_states (rec : sessionRecord) : list ss_s := sr_state rec :: sr_previous rec.

Lemma run_decryptWithPrevious rec m i l w :
  exists w', same_stores w w' /\
  ((exists j s n, l !! j = Some s /\
      (forall k s', k < j -> l !! k = Some s' -> verdict s' m = Err EInvalidMessage) /\
      verdict s m <> Err EInvalidMessage /\
      run (decryptWithPrevious C rec m i l) w
      = (x ← decryptPure C s m (kp_at C w n); Ok (x.1, record_after (S (i + j)) x.2 rec), w')) \/
   ((forall k s', l !! k = Some s' -> verdict s' m = Err EInvalidMessage) /\
    run (decryptWithPrevious C rec m i l) w = (Err EInvalidMessage, w'))).
Proof using Hok.
  revert i w. induction l as [|s l IH]; intros i w.
  { exists w. split; [done|]. right. done. }
  cbn [decryptWithPrevious]. rewrite run_catch, run_bind.
  destruct (run_decryptWithSessionState C Hok s m w) as (w1 & Hw1 & Hrun). rewrite Hrun.
  set (ek := kp_at C w (w_pos w)) in *.
  assert (kp_ok ek) as Hek by apply kp_at_ok.
  destruct (decryptPure C s m ek) as [[pt s']|e] eqn:E.
  - exists w1. split; [done|]. left. exists 0, s, (w_pos w). split_and!.
    + done.
    + intros k ? Hk. lia.
    + rewrite (proj2 (verdict_ok s m ek pt Hek)); [done|eauto].
    + fold ek. rewrite E, Nat.add_0_r. done.
  - destruct (bool_decide_reflect (e = EInvalidMessage)) as [->|Hne].
    + destruct (IH (S i) w1) as (w' & Hw' & Hcase). exists w'. split; [by eapply same_stores_trans|].
      assert (verdict s m = Err EInvalidMessage) as Hvs by (by apply (verdict_err s m ek)).
      destruct Hcase as [(j & s0 & n & Hj & Hb & Hv & Hr)|[Hb Hr]].
      * left. exists (S j), s0, n. split_and!; [done| |done|].
        -- intros [|k] s1 Hk Hs1; [by injection Hs1 as <-|]. apply (Hb k); [lia|done].
        -- rewrite Hr. replace (i + S j) with (S i + j) by lia.
           replace (kp_at C w n) with (kp_at C w1 n); [done|]. unfold kp_at.
           destruct Hw1 as (_&_&_&_&_&_&_&->). done.
      * right. split; [|done]. intros [|k] s1 Hs1; [by injection Hs1 as <-|]. by apply (Hb k).
    + exists w1. split; [done|]. left. exists 0, s, (w_pos w). split_and!.
      * done.
      * intros k ? Hk. lia.
      * rewrite (proj1 (verdict_err s m ek e Hek) E). congruence.
      * fold ek. rewrite E. done.
Qed.

Lemma run_decryptWithSessionRecord rec m w :
  exists w', same_stores w w' /\
  ((exists j s n, sr_states rec !! j = Some s /\
      (forall k s', k < j -> sr_states rec !! k = Some s' -> verdict s' m = Err EInvalidMessage) /\
      verdict s m <> Err EInvalidMessage /\
      run (decryptWithSessionRecord C rec m) w
      = (x ← decryptPure C s m (kp_at C w n); Ok (x.1, record_after j x.2 rec), w')) \/
   ((forall k s', sr_states rec !! k = Some s' -> verdict s' m = Err EInvalidMessage) /\
    run (decryptWithSessionRecord C rec m) w = (Err EInvalidMessage, w'))).
Proof using Hok.
  unfold decryptWithSessionRecord, sr_states. rewrite run_catch, run_bind.
  destruct (run_decryptWithSessionState C Hok (sr_state rec) m w) as (w1 & Hw1 & Hrun). rewrite Hrun.
  set (ek := kp_at C w (w_pos w)) in *.
  assert (kp_ok ek) as Hek by apply kp_at_ok.
  destruct (decryptPure C (sr_state rec) m ek) as [[pt s']|e] eqn:E.
  - exists w1. split; [done|]. left. exists 0, (sr_state rec), (w_pos w). split_and!.
    + done.
    + intros k ? Hk. lia.
    + rewrite (proj2 (verdict_ok (sr_state rec) m ek pt Hek)); [done|eauto].
    + fold ek. rewrite E. done.
  - destruct (bool_decide_reflect (e = EInvalidMessage)) as [->|Hne].
    + destruct (run_decryptWithPrevious rec m 0 (sr_previous rec) w1) as (w' & Hw' & Hcase).
      exists w'. split; [by eapply same_stores_trans|].
      assert (verdict (sr_state rec) m = Err EInvalidMessage) as Hvs by (by apply (verdict_err _ m ek)).
      destruct Hcase as [(j & s0 & n & Hj & Hb & Hv & Hr)|[Hb Hr]].
      * left. exists (S j), s0, n. split_and!; [done| |done|].
        -- intros [|k] s1 Hk Hs1; [by injection Hs1 as <-|]. apply (Hb k); [lia|done].
        -- rewrite Hr. cbn [Nat.add].
           replace (kp_at C w n) with (kp_at C w1 n); [done|]. unfold kp_at.
           destruct Hw1 as (_&_&_&_&_&_&_&->). done.
      * right. split; [|done]. intros [|k] s1 Hs1; [by injection Hs1 as <-|]. by apply (Hb k).
    + exists w1. split; [done|]. left. exists 0, (sr_state rec), (w_pos w). split_and!.
      * done.
      * intros k ? Hk. lia.
      * rewrite (proj1 (verdict_err _ m ek e Hek) E). congruence.
      * fold ek. rewrite E. done.
Qed.
End decrypt.
