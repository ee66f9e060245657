(** What a decryption and an encryption leave behind: C72, C73. *)
From Verif Require Import PyBase Wire Protos ProtoFacts Crypto Ecc Kdf Messages State Prog Ratchet Builder Cipher.
From Verif Require Import ProgFacts StateFacts UtilFacts HelperFacts MsgFacts CipherFacts DecryptFacts SpecSession SessionProofs LockoutProofs.
From Verif Require Import SpecUtil SpecApi InvFacts HistoryProofs ArchiveProofs SpecKeys KeyProofs HandshakeFacts SpecEncrypt EncryptProofs FreshProofs SpecRatchet.

Section ratchet.
Context (C : crypto) (Hok : crypto_ok C).

(** ** One chain *)

Lemma stored_key_eq v key n : mk_stored (ck_messageKeys C (ChainKey (N.of_nat (first_block v)) key n)) = stored_key C v n key.
Proof using Hok.
  pose proof (keys_of_eq C Hok v key n) as H. unfold mk_stored, stored_key. rewrite <- H. cbn [to_keys k_cipher k_mac k_iv].
  by rewrite ck_messageKeys_counter.
Qed.

Lemma chainTake_read v c n mk c' :
  chainTake C (N.of_nat (first_block v)) c n = Ok (mk, c') -> chain_read C v c n c'.
Proof using Hok.
  unfold chainTake. rewrite getChainKey_eq. cbn [cIndex].
  destruct (n <? next_index c)%N eqn:E1.
  - apply N.ltb_lt in E1. destruct (take_messageKey n (ch_messageKeys c)) as [[e r]|] eqn:Et; [|done].
    intros [= _ <-]. apply take_messageKey_some in Et as (l1 & l2 & Hl & -> & Hi & Hl1).
    apply (read_stored C v c n l1 e l2); [done|done|by apply hasIndex_iff|].
    eapply Forall_impl; [exact Hl1|]. intros x. apply hasIndex_niff.
  - apply N.ltb_ge in E1. destruct (2000 <? n - next_index c)%N eqn:E2; [done|]. apply N.ltb_ge in E2.
    destruct (n + 1 <? 2 ^ 32)%N; [|done]. intros H. apply Ok_inj, (f_equal snd) in H. cbn [snd] in H. rewrite H. clear H.
    pose proof (read_ahead C v c n ltac:(lia)) as Hgo.
    match type of Hgo with chain_read _ _ _ _ ?a => match goal with |- chain_read _ _ _ _ ?b => assert (b = a) as ->; [|exact Hgo] end end.
    unfold ch_set_chainKey, ch_set_messageKeys. cbn [ch_ratchetKey ch_ratchetKeyPrivate ch_messageKeys]. f_equal.
    + do 3 f_equal. rewrite ck_next_iter. cbn [cKey cKdf cIndex]. replace (N.to_nat (n + 1 - next_index c)) with (S (N.to_nat (n - next_index c))) by lia. done.
    + f_equal. apply map_ext. intros i. rewrite ck_next_iter. cbn [cKey cKdf cIndex]. apply stored_key_eq.
Qed.

Lemma openWith_read v c s m pt c' :
  openWith C (N.of_nat (first_block v)) c s m = Ok (pt, c') -> chain_read C v c (wCounter m) c'.
Proof using Hok.
  intros H. unfold openWith in H. apply bind_ok_inv in H as ([mk c1] & Hy & H). cbn [fst snd] in H.
  do 4 (apply bind_ok_inv in H as (? & _ & H)). injection H as _ <-. by eapply chainTake_read.
Qed.

(** ** One state *)

Lemma dh_root_eq v root kp remote y :
  rk_createChain C (RootKey (N.of_nat (first_block v)) root) remote kp = Ok y ->
  y = (RootKey (N.of_nat (first_block v)) (dh_root C v root (kp_priv kp) remote),
       ChainKey (N.of_nat (first_block v)) (dh_chain C v root (kp_priv kp) remote) 0).
Proof using Hok.
  intros H. pose proof (rk_createChain_inv C _ _ _ _ H) as (Hr & Hp & _).
  destruct (dh_chain_eq C Hok v root (kp_priv kp) remote kp Hr Hp eq_refl) as (y' & Hy' & _ & Hy2).
  rewrite H in Hy'. injection Hy' as <-.
  rewrite (rk_createChain_ok C) in H by done. apply Ok_inj in H. destruct y as [y1 y2]. cbn [snd] in Hy2. subst y2.
  injection H as -> _. f_equal. f_equal. unfold dh_root. pose proof (first_block_le v). rewrite (derive_rfc C Hok) by (cbn; lia). done.
Qed.

Lemma effect s m kp pt s' :
  length (ss_receiverChains s) <= 5 -> decryptPure C s m kp = Ok (pt, s') ->
  version_of s (wVersion m) /\ decrypted_to C (wVersion m) s m kp s'.
Proof using Hok.
  intros Hl (Hsc & Hv & kdf & c & j & s1 & c' & Hkdf & Hstep & Hf & Ho & ->)%decryptPure_ok_inv.
  split; [by apply version_of_iff|].
  rewrite <- Hv in Hkdf. pose proof Hkdf as Hk2. apply createFor_inv in Hkdf as [-> Hv23].
  apply openWith_read in Ho.
  apply chainStep_inv in Hstep as (kdf' & c0 & j' & Hkdf' & Hf' & Hck & [-> | (Hnone & Hlen & our & x & y & Hour & Hx & Hy & -> & ->)]).
  - apply find_chain_some in Hf as (l1 & l2 & Hl12 & -> & Hp & Hl1).
    replace (st_clearUnacknowledgedPreKeyMessage (st_putReceiverChain (0 + length l1) c' s)) with
      (SsS (ss_version s) (ss_localIdentity s) (ss_remoteIdentity s) (ss_rootKey s) (ss_previousCounter s)
           (ss_senderChain s) (l1 ++ c' :: l2) (ss_pendingKeyExchange s) None
           (ss_remoteRegId s) (ss_localRegId s) (ss_needsRefresh s) (ss_aliceBaseKey s)).
    + apply to_known with c; [done|by apply chain_of_iff| |done].
      eapply Forall_impl; [exact Hl1|]. intros z (k & Hk & Hne). exists k. split; [by apply chain_of_iff|done].
    + unfold st_clearUnacknowledgedPreKeyMessage, st_putReceiverChain. rewrite Hl12. cbn [Nat.add].
      rewrite (insert_app_r_alt l1) by lia. rewrite Nat.sub_diag. by destruct s.
  - rewrite <- Hv, Hk2 in Hkdf'. injection Hkdf' as <-.
    clear Hf' Hck.
    pose proof (find_trim _ _ (newChain (wRatchetKey m) x.2) Hnone (newChain_pub _ _ Hlen)) as Hf2.
    change (ss_receiverChains (steppedState s (wRatchetKey m) x.2 y.1 kp y.2)) with (trimChains (ss_receiverChains s ++ [newChain (wRatchetKey m) x.2])) in Hf.
    rewrite Hf2 in Hf. injection Hf as <- <-.
    assert (kp_priv our = our_private s) as Hpriv.
    { unfold st_getSenderRatchetKeyPair, st_getSenderRatchetKey in Hour.
      apply bind_ok_inv in Hour as (pub & Hp & [= <-]). unfold st_senderChain in *. unfold our_private.
      destruct (ss_senderChain s) as [sc|]; [|done]. done. }
    apply dh_root_eq in Hx. rewrite Hpriv in Hx. subst x. cbn [fst snd] in *. apply dh_root_eq in Hy. subst y. cbn [fst snd rKey cKey cIndex] in *.
    pose proof (to_stepped C (wVersion m) s m kp c' (proj2 (no_receiving_iff _ _) Hnone) Hlen Ho) as Hgo.
    match type of Hgo with decrypted_to _ _ _ _ _ ?a => match goal with |- decrypted_to _ _ _ _ _ ?b => assert (b = a) as ->; [|exact Hgo] end end.
    set (nc := newChain _ _) in *. unfold st_clearUnacknowledgedPreKeyMessage, st_putReceiverChain, steppedState. cbn [cIndex cKey rKey].
    set (ch := trimChains _) in *.
    assert (<[length ch - 1 := c']> ch = drop (length (ss_receiverChains s) - 4) (ss_receiverChains s) ++ [c']) as E.
    { unfold ch, trimChains. rewrite app_length. cbn [length]. case_match eqn:E.
      - apply Nat.ltb_lt in E. assert (length (ss_receiverChains s) = 5) as E5 by lia. rewrite E5.
        rewrite (drop_app_le _ _ 1) by lia. change (5 - 4) with 1.
        rewrite app_length, drop_length, E5. cbn [length]. change (5 - 1 + 1 - 1) with 4.
        rewrite (insert_app_r_alt (drop 1 _)) by (rewrite drop_length; lia). rewrite drop_length, E5. done.
      - apply Nat.ltb_ge in E. replace (length (ss_receiverChains s) - 4) with 0 by lia. rewrite drop_0.
        rewrite app_length. cbn [length]. rewrite (insert_app_r_alt (ss_receiverChains s)) by lia.
        replace (length (ss_receiverChains s) + 1 - 1 - length (ss_receiverChains s)) with 0 by lia. done. }
    rewrite <- E. unfold sending, next_index, st_senderChain. destruct (ch_chainKey (default ch_empty (ss_senderChain s))); done.
Qed.

(** ** A record, with the position of the fresh key pair *)

Lemma run_state_draw s m w x w1 :
  run (decryptWithSessionState C s m) w = (x, w1) ->
  x = decryptPure C s m (kp_at C w (w_pos w)) /\ same_stores w w1 /\ w_pos w <= w_pos w1 /\
  (find_chain (wRatchetKey m) (ss_receiverChains s) 0 = Ok None -> forall a, x = Ok a -> w_pos w < w_pos w1).
Proof using Hok.
  intros H. destruct (run_decryptWithSessionState C Hok s m w) as (w' & Hw & H'). rewrite H in H'. injection H' as -> ->.
  pose proof (run_tape (decryptWithSessionState C s m) w) as [_ Ht]. rewrite H in Ht.
  split_and!; [done|done|done|].
  intros Hn a Ha. rewrite Ha in H. clear Ha. revert H. unfold decryptWithSessionState.
  destruct (negb _); [done|]. destruct (negb _); [done|].
  rewrite run_bind. unfold getOrCreateChainKey. unfold st_hasReceiverChain, st_getReceiverChain.
  rewrite run_bind, run_lift, Hn, !bind_ok, run_bind, run_lift.
  destruct (st_getRootKey s ≫= _) as [y|e]; [|done].
  rewrite run_bind, (run_generateKeyPair C Hok), run_lift.
  destruct (senderChain ← _; _) as [z|e]; [|done].
  rewrite run_lift. intros [= _ <-]. cbn. lia.
Qed.

(** Which state decrypted, and which key pair it drew. *)
Definition drawn (rec : sessionRecord) (m : whisperMessage) (w : world) (pt : bytes) (rec' : sessionRecord) (w1 : world) : Prop :=
  exists j s s' n, sr_states rec !! j = Some s /\
    (forall k x, k < j -> sr_states rec !! k = Some x -> verdict C x m = Err EInvalidMessage) /\
    decryptPure C s m (kp_at C w n) = Ok (pt, s') /\ rec' = record_after j s' rec /\ w_pos w <= n /\
    (find_chain (wRatchetKey m) (ss_receiverChains s) 0 = Ok None -> n < w_pos w1).

Lemma kp_at_same w w1 n : same_stores w w1 -> kp_at C w1 n = kp_at C w n.
Proof. intros (_&_&_&_&_&_&_&E). unfold kp_at. by rewrite E. Qed.

Lemma run_previous_draw rec m w0 l : forall i w pt rec' w1,
  same_stores w0 w -> w_pos w0 <= w_pos w ->
  (forall k x, l !! k = Some x -> sr_previous rec !! (i + k) = Some x) ->
  (forall k x, k < S i -> sr_states rec !! k = Some x -> verdict C x m = Err EInvalidMessage) ->
  run (decryptWithPrevious C rec m i l) w = (Ok (pt, rec'), w1) -> drawn rec m w0 pt rec' w1.
Proof using Hok.
  induction l as [|s l IH]; intros i w pt rec' w1 Hs Hp Hl Hb; [done|]. cbn [decryptWithPrevious]. rewrite run_catch, run_bind.
  destruct (run (decryptWithSessionState C s m) w) as [x w2] eqn:E.
  apply run_state_draw in E as (Ex & Hs2 & Hp2 & Hd). rewrite (kp_at_same _ _ _ Hs) in Ex.
  assert (sr_previous rec !! i = Some s) as Hi by (rewrite <- (Nat.add_0_r i); by apply Hl).
  destruct x as [[pt' s']|e].
  - cbn [run]. intros [= <- <- <-]. exists (S i), s, s', (w_pos w). split_and!; [done|done|done|done|done|].
    intros Hn. by eapply Hd.
  - case_bool_decide as Ee; [|done]. subst e. intros H. eapply IH; [by eapply same_stores_trans|lia| | |exact H].
    + intros k y Hy. replace (S i + k) with (i + S k) by lia. by apply Hl.
    + intros k y Hk Hy. destruct (decide (k = S i)) as [->|]; [|apply (Hb k); [lia|done]].
      change (sr_previous rec !! i = Some y) in Hy. rewrite Hi in Hy. injection Hy as <-.
      by apply (verdict_err C _ m (kp_at C w0 (w_pos w))); [apply kp_at_ok|].
Qed.

Lemma run_record_draw rec m w pt rec' w1 :
  run (decryptWithSessionRecord C rec m) w = (Ok (pt, rec'), w1) -> drawn rec m w pt rec' w1.
Proof using Hok.
  unfold decryptWithSessionRecord. rewrite run_catch, run_bind.
  destruct (run (decryptWithSessionState C (sr_state rec) m) w) as [x w2] eqn:E.
  apply run_state_draw in E as (Ex & Hs2 & Hp2 & Hd).
  destruct x as [[pt' s']|e].
  - cbn [run]. intros [= <- <- <-]. exists 0, (sr_state rec), s', (w_pos w). split_and!; [done| |done|done|done|].
    + intros k x Hk. lia.
    + intros Hn. by eapply Hd.
  - case_bool_decide as Ee; [|done]. subst e. intros H. eapply run_previous_draw; [exact Hs2|lia| | |exact H]; [done|].
    intros [|k] x Hk Hx; [|lia]. injection Hx as <-.
    by apply (verdict_err C _ m (kp_at C w (w_pos w))); [apply kp_at_ok|].
Qed.

(** ** C72 *)

Lemma drawn_read rec m w pt rec' w1 l :
  record_inv rec -> l = states rec -> drawn rec m w pt rec' w1 ->
  exists i s n, record_read C l m pt (kp_at C w n) i s rec' /\ w_pos w <= n /\ (no_receiving s (wRatchetKey m) -> n < w_pos w1).
Proof using Hok.
  intros (_ & Hl & Hi) -> (j & s & s' & n & Hj & Hb & Hd & -> & Hn & Hlt). exists j, s, n.
  split; [|split; [done|]].
  - assert (state_inv s) as (Hs & _) by (by eapply Forall_lookup_1).
    destruct (effect _ _ _ _ _ Hs Hd) as [Hv He]. split_and!; [done| | |].
    + pose proof (verdict_eq C s m _ (kp_at_ok C Hok w n)) as E. rewrite Hd in E. cbn in E. rewrite E. by apply answers_verdict.
    + intros k x Hk Hx. rewrite <- (Hb k x Hk Hx). by apply answers_verdict.
    + exists s'. split_and!; [done|done|]. change (sr_states (record_after j s' rec) = s' :: take j (sr_states rec) ++ drop (S j) (sr_states rec)).
      rewrite (record_after_states _ _ _ _ Hl Hj). by rewrite delete_take_drop.
  - intros Hno. apply Hlt. by apply no_receiving_iff.
Qed.

Lemma msg_effect w r d m pt w' :
  reachable C w -> run (decryptMsg C r d m) w = (Ok pt, w') ->
  exists rec rec' i s n, session_at w r d = Ok rec /\ session_at w' r d = Ok rec' /\
    record_read C (states rec) m pt (kp_at C w n) i s rec' /\
    w_pos w <= n /\ (no_receiving s (wRatchetKey m) -> n < w_pos w').
Proof using Hok.
  intros Hr%(reachable_inv C) H. unfold decryptMsg in H.
  apply run_bind_ok in H as (has & w0 & H0 & H). rewrite run_do in H0. injection H0 as <- <-.
  case_bool_decide as Hs; [|done].
  apply run_bind_ok in H as (rec & w0 & H0 & H). rewrite run_do, load_session in H0. injection H0 as Hrec <-.
  pose proof (proj1 (Hr _ _ _ Hrec)) as Hi.
  apply run_bind_ok in H as ([pt' rec'] & w1 & H1 & H). rewrite run_bind, run_do in H. cbn [step_call] in H.
  injection H as <- <-. cbn [fst snd].
  pose proof (pspec_run _ _ _ _ _ (pspec_decryptWithSessionRecord C _ _ rec m) H1) as Hdec.
  apply run_record_draw in H1. destruct (drawn_read _ _ _ _ _ _ _ Hi eq_refl H1) as (i & s & n & Hread & Hn & Hlt).
  exists rec, (SessionRecord false (sr_state rec') (sr_previous rec')), i, s, n. split_and!; [done| |done|done|done].
  apply session_stored. by apply (decrypted_inv C _ _ _ _ Hi Hdec).
Qed.

Lemma derived_x3dh l secret :
  secret = replicate 32 xff ++ concat l ->
  calculateDerivedKeys C secret = (RootKey hkdf_v3 (take 32 (x3dh C l)), ChainKey hkdf_v3 (drop 32 (x3dh C l)) 0).
Proof using Hok.
  intros ->. rewrite calculateDerivedKeys_eq. unfold mkdf, x3dh.
  pose proof (derive_length C Hok hkdf_v3 (replicate 32 xff ++ concat l) (ascii "WhisperText") 64 []) as Hl.
  change hkdf_v3 with (N.of_nat 1) in *. change (str "WhisperText") with (ascii "WhisperText").
  rewrite (derive_rfc C Hok) in * by (cbn; lia). cbn [fst snd]. f_equal. f_equal.
  apply take_ge. rewrite drop_length, Hl. lia.
Qed.

Lemma processV3_answering w r d rec m x w1 :
  loaded_inv rec -> session_at w r d = Ok rec -> run (processV3 C rec m) w = (Ok x, w1) ->
  (belongs rec (pVersion m) (pBaseKey m) /\ x = (rec, None) /\ w1 = w) \/
  (~ belongs rec (pVersion m) (pBaseKey m) /\
   exists s, answering C w m s /\ states x.1 = s :: archive_of rec).
Proof using Hok.
  intros Hinv Hrec. unfold processV3. destruct (sr_hasSessionState _ _ _) eqn:E.
  { intros [= <- <-]. left. by apply hasSessionState_spec in E. }
  intros H. right. split. { intros Hb%hasSessionState_spec. by rewrite Hb in E. }
  apply run_bind_ok in H as (spr & w2 & [-> (sbs & Hsb & Hspr)]%load_signed & H).
  apply run_bind_ok in H as (spk & w2 & [Hspk ->]%run_lift_inv & H).
  apply run_bind_ok in H as (id & w2 & Hid & H). rewrite run_do in Hid. injection Hid as <- <-.
  apply run_bind_ok in H as (otpk & w2 & Hotpk & H).
  assert (w2 = w /\ match pPreKeyId m with
    | Some i => exists bs pr, w_prekeys w !! i = Some bs /\ pr_parse bs = Ok pr /\ kp_priv <$> otpk = Some (default [] (pr_privateKey pr))
    | None => kp_priv <$> otpk = None end) as [-> Hot].
  { destruct (pPreKeyId m) as [i|]; [|by injection Hotpk as <- <-].
    apply run_bind_ok in Hotpk as (pr & w3 & [-> (bs & Hb & Hpr)]%load_prekey & Hotpk).
    apply run_bind_ok in Hotpk as (kp & w3 & [Hkp ->]%run_lift_inv & [= <- <-]).
    split; [done|]. exists bs, pr. split_and!; [done..|]. apply stored_keypair_inv in Hkp. cbn. by rewrite Hkp. }
  apply run_bind_ok in H as (s & w2 & [Hs ->]%run_lift_inv & H).
  apply run_bind_ok in H as (reg & w2 & Hreg & H). rewrite run_do in Hreg. injection Hreg as <- <-.
  apply run_bind_ok in H as (s1 & w2 & [Hs1 ->]%run_lift_inv & H).
  apply run_bind_ok in H as (s2 & w2 & [Hs2 ->]%run_lift_inv & H).
  injection H as <- <-. unfold states. cbn [fst sr_setState sr_state sr_previous].
  eexists. split; [|by rewrite archive_of_eq].
  rewrite (archived_state _ _ _ _ Hrec) in Hs. unfold initializeSessionAsBob in Hs.
  apply bind_ok_inv in Hs as (a1 & ->%agreement_inv & Hs).
  apply bind_ok_inv in Hs as (a2 & ->%agreement_inv & Hs).
  apply bind_ok_inv in Hs as (a3 & ->%agreement_inv & Hs).
  apply bind_ok_inv in Hs as (a4 & Ha4 & Hs).
  assert (a4 = match kp_priv <$> otpk with Some k => agree C k (pBaseKey m) | None => [] end) as ->.
  { destruct otpk as [k|]; cbn; [by apply agreement_inv|by injection Ha4 as <-]. }
  erewrite (derived_x3dh ([agree C (kp_priv spk) (pIdentityKey m); agree C (kp_priv (w_identity w)) (pBaseKey m);
    agree C (kp_priv spk) (pBaseKey m)] ++ ((fun k => agree C k (pBaseKey m)) <$> option_list (kp_priv <$> otpk)))) in Hs.
  2: { change getDiscontinuityBytes with (replicate 32 xff). f_equal. destruct otpk; cbn; by rewrite ?app_nil_r. }
  apply bind_ok_inv in Hs as (s' & Hs' & [= <-]).
  apply bind_ok_inv in Hs' as (c' & [-> _]%ch_putChainKey_inv & [= <-]).
  apply bind_ok_inv in Hs1 as (? & [-> _]%set_u32_inv & [= <-]). apply bind_ok_inv in Hs2 as (? & [-> _]%set_u32_inv & [= <-]).
  unfold signedprekeyrecord_getKeyPair, stored_keypair in Hspk. apply bind_ok_inv in Hspk as (pub & Hpub & [= <-]).
  exists sbs, spr, pub, (option_list (kp_priv <$> otpk)). split_and!; [done|done|by apply decode_iff| |].
  { destruct (pPreKeyId m) as [i|].
    - destruct Hot as (bs & pr & H1 & H2 & H3). exists bs, pr. by rewrite H3.
    - by rewrite Hot. }
  done.
Qed.

Lemma pkmsg_effect w r d m pt w' :
  reachable C w -> run (decryptPkmsg C r d m) w = (Ok pt, w') ->
  exists rec rec' l i s n, session_at w r d = Ok rec /\ session_at w' r d = Ok rec' /\
    ((belongs rec (pVersion m) (pBaseKey m) /\ l = states rec) \/
     (~ belongs rec (pVersion m) (pBaseKey m) /\ exists s0, answering C w m s0 /\ l = s0 :: archive_of rec)) /\
    record_read C l (pMessage m) pt (kp_at C w n) i s rec' /\
    w_pos w <= n /\ (no_receiving s (wRatchetKey (pMessage m)) -> n < w_pos w').
Proof using Hok.
  intros Hr%(reachable_inv C) (rec & rec1 & used & w1 & rec2 & w2 & Hrec & _ & HV & Hs1 & Hd & Hs2 & ->)%decryptPkmsg_ok.
  pose proof (Hr _ _ _ Hrec) as Hl. pose proof (processV3_inv C _ _ _ _ _ _ Hr Hl HV) as Hi1.
  pose proof (pspec_run _ _ _ _ _ (pspec_decryptWithSessionRecord C _ _ rec1 (pMessage m)) Hd) as Hdec. cbn [fst snd] in Hdec.
  pose proof (decrypted_inv C _ _ _ _ Hi1 Hdec) as Hi2.
  pose proof (run_tape (processV3 C rec m) w) as [_ Hpos]. rewrite HV in Hpos. cbn [snd] in Hpos.
  apply run_record_draw in Hd.
  set (l := states rec1). destruct (drawn_read _ _ _ _ _ _ l Hi1 eq_refl Hd) as (i & s & n & Hread & Hn & Hlt).
  exists rec, (SessionRecord false (sr_state rec2) (sr_previous rec2)), l, i, s, n. split_and!.
  - done.
  - pose proof (session_stored w2 r d rec2 (proj1 Hi2)) as Hss. by destruct used.
  - destruct (processV3_answering _ _ _ _ _ _ _ Hl Hrec HV) as [(Hb & Hx & _)|(Hb & s0 & Ha & Hx)]; [left|right; eauto].
    injection Hx as -> _. done.
  - replace (kp_at C w n) with (kp_at C (w_set_trusted (<[r := pIdentityKey m]> (w_trusted w1)) w1) n); [done|].
    change (kp_at C w1 n = kp_at C w n). by apply kp_at_same.
  - cbn in Hn. lia.
  - intros Hno%Hlt. by destruct used.
Qed.

(** ** C73 *)

Lemma advanced_to s : advanced C s = encrypted_to C s.
Proof. unfold advanced, encrypted_to, sending, st_senderChain. by destruct s. Qed.

Lemma encrypt_previous s pt ct s' :
  encryptWithState C s pt = Ok (ct, s') -> wPreviousCounter (inner ct) = default 0%N (ss_previousCounter s).
Proof.
  intros H. unfold encryptWithState in H.
  apply bind_ok_inv in H as (ck & _ & H). apply bind_ok_inv in H as (rk & _ & H). cbv zeta in H.
  apply bind_ok_inv in H as (body & _ & H). apply bind_ok_inv in H as (local & _ & H). apply bind_ok_inv in H as (remote & _ & H).
  apply bind_ok_inv in H as (wm & Hwm & H). apply bind_ok_inv in H as (ct' & Hct & H).
  apply bind_ok_inv in H as (s1 & _ & H). injection H as <- _.
  assert (wPreviousCounter wm = st_getPreviousCounter s) as E.
  { unfold whisper_create in Hwm. do 4 (apply bind_ok_inv in Hwm as (? & _ & Hwm); cbv zeta in Hwm).
    by apply Ok_inj in Hwm as ->. }
  change (default 0%N (ss_previousCounter s)) with (st_getPreviousCounter s). rewrite <- E. f_equal.
  destruct (st_hasUnacknowledgedPreKeyMessage s); [|by injection Hct as <-].
  apply bind_ok_inv in Hct as ([[a b] e] & _ & Hct). apply bind_ok_inv in Hct as (l & _ & Hct).
  apply bind_ok_inv in Hct as (sid & _ & Hct). apply bind_ok_inv in Hct as (p & Hp & [= <-]).
  cbn [inner]. pose proof (prekey_create_inv _ _ _ _ _ _ _ _ Hp) as (H1 & H2 & H3).
  rewrite prekey_create_ok in Hp by done. by injection Hp as <-.
Qed.

Lemma encrypt_effect w r d pt ct w' :
  run (encrypt C r d pt) w = (Ok ct, w') ->
  exists rec version bs, session_at w r d = Ok rec /\
    w' = w_set_sessions (<[(r, d) := bs]> (w_sessions w)) w /\
    session_at w' r d = Ok (SessionRecord false (encrypted_to C (sr_state rec)) (sr_previous rec)) /\
    version_of (sr_state rec) version /\ sends C (sr_state rec) version pt (inner ct) /\
    match ss_pendingPreKey (sr_state rec) with
    | None => ct = CTWhisper (inner ct)
    | Some p => exists base local, identity_of (pp_baseKey p) base /\ identity_of (ss_localIdentity (sr_state rec)) local /\
        names ct (pp_preKeyId p) (Z.to_N (default 0%Z (pp_signedPreKeyId p))) base local (default 0%N (ss_localRegId (sr_state rec)))
    end.
Proof using Hok.
  intros (rec & Hrec & He & Hs & Hw)%(encrypt_ok C Hok). rewrite advanced_to in Hs.
  pose proof (encrypt_previous _ _ _ _ He) as Hprev.
  apply (encryptWithState_inv C Hok) in He as (rk & local & remote & Hv & Hrk & Hn & Hl & Hrm & H1 & H2 & H3 & H4 & H5 & _ & H6).
  exists rec, (st_getSessionVersion (sr_state rec)). eexists. split_and!; [done|exact Hw|done|by apply version_of_iff| |].
  - exists local, remote. split_and!; try done. rewrite H1. apply chain_of_iff. exact Hrk.
  - destruct (ss_pendingPreKey (sr_state rec)) as [p|]; [|done].
    destruct H6 as (base & sid & Hb & Hsid & Hnm & _). exists base, local. split_and!; [by apply decode_iff|done|].
    unfold z_to_u32 in Hsid. destruct (_ <? 0)%Z; [done|]. injection Hsid as <-. done.
Qed.

Lemma after_step w r d m pt0 w1 pt ct w2 :
  reachable C w -> run (decryptMsg C r d m) w = (Ok pt0, w1) -> run (encrypt C r d pt) w1 = (Ok ct, w2) ->
  exists rec i s, session_at w r d = Ok rec /\ states rec !! i = Some s /\ answers C s m (Ok pt0) /\
    (forall k s', k < i -> states rec !! k = Some s' -> answers C s' m (Err EInvalidMessage)) /\
    (no_receiving s (wRatchetKey m) ->
     exists n, w_pos w <= n < w_pos w1 /\ wRatchetKey (inner ct) = kp_pub (kp_at C w n) /\
       wCounter (inner ct) = 0%N /\ wPreviousCounter (inner ct) = (next_index (sending s) - 1)%N).
Proof using Hok.
  intros Hr Hd He. apply msg_effect in Hd as (rec & rec1 & i & s & n & Hrec & Hrec1 & (Hi & Ha & Hb & s' & Hto & Hv & Hst) & Hn & Hlt); [|done].
  exists rec, i, s. split_and!; [done..|]. intros Hno. exists n. split; [auto|].
  apply encrypt_effect in He as (rec2 & v & bs & Hrec2 & _ & _ & _ & (local & remote & Hsend) & _).
  rewrite Hrec1 in Hrec2. injection Hrec2 as <-. cbv zeta in Hsend.
  assert (sr_state rec1 = s') as Es by (by injection Hst). rewrite Es in Hsend.
  destruct Hsend as (_ & Hch & Hc & Hp & _).
  destruct Hto as [l1 c l2 c' Hl Hc1 Hl1 _|c' remote' root root1 _ Hlen _].
  { exfalso. eapply receiving_exclusive; [|exact Hno]. by exists l1, l2. }
  cbn in Hch, Hc, Hp. split_and!; [|done|done]. destruct Hch as (t & Ht & ->). injection Ht as <-.
  apply take_ge. pose proof (kp_at_pub_len C Hok w n). lia.
Qed.
End ratchet.
