(** Which exceptions the session calls raise (C69, C70, C71). *)
From Verif Require Import PyBase Wire Protos ProtoFacts Crypto Ecc Kdf Messages State Prog Ratchet Builder Cipher Groups Helper.
From Verif Require Import ProgFacts StateFacts UtilFacts HelperFacts MsgFacts CipherFacts DecryptFacts SpecSession SessionProofs LockoutProofs SpecApi SpecKeys SpecEncrypt SpecTotal.
From Verif Require Import InvFacts HistoryProofs ArchiveProofs KeyProofs EncryptProofs ChainInv SetupInv.

(** ** Stored sessions can be read *)

Definition readable (w : world) : Prop := forall r d, exists rec, session_at w r d = Ok rec.

Section readable.
Context (L P : sessionRecord -> Prop) (Pnew : L sr_new) (Pwf : forall rec, P rec -> rec_wf rec)
  (Pfresh : forall f s l, P (SessionRecord f s l) -> L (SessionRecord false s l)).
Lemma readable_step {R} (c : call R) w : readable w -> call_ok P c -> readable (step_call c w).2.
Proof using Pwf.
  intros Hw Hc. destruct c as [| |a b rec| | | | | | | | | | | |]; try done. intros r d. unfold session_at. cbn [step_call snd w_sessions w_set_sessions].
  destruct (decide ((a, b) = (r, d))) as [->|Hn].
  - rewrite lookup_insert, StateFacts.sr_roundtrip by (by apply Pwf). eauto.
  - rewrite lookup_insert_ne by done. apply Hw.
Qed.
Lemma readable_reaches C w0 w ps : w_sessions w0 = ∅ -> (forall c, pspec L P (api C c) (fun _ => True)) -> reaches C w0 w ps -> readable w.
Proof using Pnew Pwf Pfresh.
  intros H0 Hapi. induction 1 as [|w ps c _ IH|w l1 R c k l2 H IH|w l1 p l2 _ IH|w ps m _ IH|w ps m _ IH|w ps m _ IH]; try exact IH.
  - intros r d. unfold session_at. rewrite H0, lookup_empty. eauto.
  - apply readable_step; [done|]. apply (reaches_ok L P Pnew Pwf Pfresh) in H as [_ H]; [|done|done]. by apply Forall_app in H as [_ [[H _] _]%Forall_cons].
Qed.
End readable.

Lemma always_readable C w : reachable C w -> readable w.
Proof.
  assert (forall rec, record_inv rec -> rec_wf rec) as G1 by (by intros rec [? _]).
  intros (w0 & ps & H0 & H). apply (readable_reaches _ _ loaded_inv_new G1 record_inv_fresh) in H; [done|done|]. apply spec_api.
Qed.

(** ** States as they occur *)

Definition fit (s : ss_s) : Prop := setup s /\ sJ exact_chain s /\ version_inv s /\ ss_wf s.
Lemma fit_states rec : record_inv rec -> rS rec -> rJ exact_chain rec -> Forall fit (sr_states rec).
Proof.
  intros ([W1 W2] & _ & Hi) Hs Hj. apply Forall_forall. intros s Hin. unfold rS, rJ in *. rewrite Forall_forall in Hi, Hs, Hj.
  split_and!; [by apply Hs|by apply Hj|by apply Hi|].
  apply elem_of_cons in Hin as [->|Hin]; [done|]. rewrite Forall_forall in W2. by apply W2.
Qed.

Section total.
Context (C : crypto) (Hok : crypto_ok C).

Lemma reachable_fit w r d rec : reachable C w -> session_at w r d = Ok rec -> Forall fit (sr_states rec).
Proof using Hok.
  intros Hw Hr. destruct (reachable_setup C Hok w Hw r d rec Hr) as [[Hi _] Hs].
  destruct (reachable_exact C w Hw r d rec Hr) as [_ Hx]. by apply fit_states.
Qed.

Lemma fit_version s : version_inv s -> st_hasSenderChain s = true -> st_getSessionVersion s = 3%N.
Proof.
  intros [H|[_ H]] Hsc; unfold st_getSessionVersion; [by rewrite H|]. unfold st_hasSenderChain in Hsc. by rewrite H in Hsc.
Qed.

(** ** Encryption *)

Lemma wfV_default o : wfV o -> (default 0 o < 2 ^ 32)%N.
Proof. destruct o; cbn; [done|]. intros _. lia. Qed.
Lemma next_index_wf c : ch_wf c -> (next_index c < 2 ^ 32)%N.
Proof.
  intros [H _]. unfold next_index. destruct (ch_chainKey c) as [k|]; cbn in *; [by apply wfV_default|lia].
Qed.

Lemma encrypt_exact s pt : fit s ->
  match ss_senderChain s with
  | None => encryptWithState C s pt = Err EIndexError
  | Some c => if (next_index c + 1 <? 2 ^ 32)%N then exists x, encryptWithState C s pt = Ok x
              else encryptWithState C s pt = Err EValueError
  end.
Proof using Hok.
  intros ((Hs1 & Hs2 & _) & _ & Hv & Hwf). destruct (ss_senderChain s) as [c|] eqn:E.
  2:{ unfold encryptWithState, st_getSenderChainKey.
    assert (exists kdf, hkdf_createFor (st_getSessionVersion s) = Ok kdf) as [kdf ->].
    { unfold st_getSessionVersion. destruct Hv as [->|[-> _]]; by eexists. }
    rewrite !bind_ok. unfold st_getSenderRatchetKey, st_senderChain. by rewrite E. }
  assert (st_hasSenderChain s = true) as Hsc by (unfold st_hasSenderChain; by rewrite E).
  apply fit_version in Hv; [|done]. destruct (Hs1 _ E) as (Hl & Hr & Hk & _).
  destruct (encoded_decode _ Hl) as [li Hli]. destruct (encoded_decode _ Hr) as [ri Hri]. destruct (encoded_decode _ Hk) as [ki Hki].
  unfold encryptWithState, st_getSenderChainKey, st_getSenderRatchetKey, st_getLocalIdentityKey, st_getRemoteIdentityKey, st_setSenderChainKey.
  assert (st_senderChain s = c) as -> by (unfold st_senderChain; by rewrite E).
  rewrite Hv. change (hkdf_createFor 3) with (Ok hkdf_v3). rewrite !bind_ok. cbv zeta.
  rewrite Hki, bind_ok, getChainKey_eq.
  match goal with |- context [aes_encrypt C (mCipher (ck_messageKeys C ?ck)) _ _] =>
    destruct (ck_messageKeys_lengths C Hok ck) as (L1 & L2 & L3);
    destruct (aes_roundtrip C Hok (mCipher (ck_messageKeys C ck)) (mIv (ck_messageKeys C ck)) pt) as (body & Hb & _); [done..|] end.
  rewrite Hb, bind_ok, Hli, bind_ok, Hri, bind_ok. cbn [cIndex].
  pose proof Hwf as (W1 & W2 & W3 & _ & _ & W6 & _ & W8). rewrite E in W3. cbn in W3.
  rewrite whisper_create_ok by (by (apply next_index_wf || apply wfV_default)). cbv zeta. rewrite bind_ok.
  match goal with |- context [prekey_create _ _ _ _ _ _ ?x] => set (wm := x) end.
  match goal with |- context [?x ≫= _] => lazymatch x with (if st_hasUnacknowledgedPreKeyMessage s then _ else _) => assert (exists ct, x = Ok ct) as [ct ->] end end.
  { unfold st_hasUnacknowledgedPreKeyMessage. destruct (ss_pendingPreKey s) as [p|] eqn:Ep; [|by eexists].
    destruct (Hs2 _ Ep) as [Hb1 Hb2]. unfold st_getUnacknowledgedPreKeyMessageItems. rewrite Ep, default_Some. cbv zeta.
    destruct (encoded_decode _ Hb1) as [bi ->]. rewrite !bind_ok. cbn in W6. destruct W6 as [W6 W7].
    unfold z_to_u32. rewrite (proj2 (Z.ltb_ge _ _)) by done. rewrite bind_ok.
    rewrite prekey_create_ok; [by eexists|by apply wfV_default| |done].
    destruct (pp_signedPreKeyId p); cbn in *; lia. }
  rewrite bind_ok. unfold ch_putChainKey. cbn [ck_next cIndex]. unfold set_u32. destruct (next_index c + 1 <? 2 ^ 32)%N; [|done].
  rewrite !bind_ok. by eexists.
Qed.

Lemma encrypt_outcome w r d rec pt :
  reachable C w -> session_at w r d = Ok rec ->
  match ss_senderChain (sr_state rec) with
  | None => run (encrypt C r d pt) w = (Err EIndexError, w)
  | Some c => if (next_index c + 1 <? 2 ^ 32)%N then exists ct w', run (encrypt C r d pt) w = (Ok ct, w')
              else run (encrypt C r d pt) w = (Err EValueError, w)
  end.
Proof using Hok.
  intros Hw Hr. pose proof (reachable_fit _ _ _ _ Hw Hr) as [Hf _]%Forall_cons. pose proof (encrypt_exact _ pt Hf) as H.
  unfold encrypt. rewrite run_bind, run_do, load_session, Hr, run_bind, run_lift.
  destruct (ss_senderChain (sr_state rec)) as [c|]; [|by rewrite H].
  destruct (_ <? _)%N; [|by rewrite H]. destruct H as [x ->]. rewrite run_bind, run_do. cbn [step_call run]. eauto.
Qed.

(** ** Decryption *)

Lemma find_chain_total key s : sJ exact_chain s -> exists o, find_chain key (ss_receiverChains s) 0 = Ok o.
Proof using.
  unfold sJ. generalize 0. induction (ss_receiverChains s) as [|c l IH]; intros i Hl; cbn [find_chain]; [by eexists|].
  apply Forall_cons in Hl as [(k & Hk & Hc) Hl]. rewrite Hc, default_Some. change (x05 :: k) with (pub_serialize k).
  rewrite decodePoint_serialize, bind_ok by lia. destruct (pub_eqb _ _); [by eexists|]. by apply IH.
Qed.

Lemma rk_createChain_short k p kp : length p <> 32 -> rk_createChain C k p kp = Err EValueError.
Proof using.
  intros H%Nat.eqb_neq. unfold rk_createChain, calculateAgreement, c_calculateAgreement. by rewrite H, andb_false_r.
Qed.
Lemma chainStep_total s key ek : fit s -> st_hasSenderChain s = true -> kp_ok ek ->
  (exists x, chainStep C s key ek = Ok x) \/ chainStep C s key ek = Err EValueError /\ length key <> 32.
Proof using.
  intros ((Hs1 & _) & Hx & Hv & Hwf) Hsc [Hek _]. apply fit_version in Hv; [|done].
  pose proof Hsc as Hsc'. unfold st_hasSenderChain in Hsc. destruct (ss_senderChain s) as [c|] eqn:E; [|done].
  destruct (Hs1 _ E) as (_ & _ & Hk & Hp).
  unfold chainStep, st_hasReceiverChain, st_getReceiverChain. destruct (find_chain_total key s Hx) as [[[c0 j]|] Hf]; rewrite Hf, !bind_ok.
  { left. unfold st_getReceiverChainKey. rewrite (theReceiverChain_ok _ _ _ Hf), bind_ok, Hv.
    change (hkdf_createFor 3) with (Ok hkdf_v3). rewrite !bind_ok. by eexists. }
  unfold st_getRootKey, st_getSenderRatchetKeyPair, st_getSenderRatchetKey.
  assert (st_senderChain s = c) as -> by (unfold st_senderChain; by rewrite E).
  rewrite Hv. change (hkdf_createFor 3) with (Ok hkdf_v3). rewrite !bind_ok.
  destruct (encoded_decode _ Hk) as [ki ->]. rewrite !bind_ok.
  destruct (decide (length key = 32)) as [Hlen|Hlen].
  - left. rewrite (rk_createChain_ok C _ _ (KeyPair ki _)) by (done || by apply private_len). cbv zeta. rewrite bind_ok. cbn [fst snd].
    rewrite rk_createChain_ok by done. cbv zeta. rewrite bind_ok. cbn [fst snd].
    unfold st_addReceiverChain, ch_putChainKey. cbn [cIndex]. rewrite set_u32_ok by done. rewrite !bind_ok.
    unfold st_getSenderChainKey. change (st_getSessionVersion (ss_set_receiverChains _ _)) with (st_getSessionVersion s).
    rewrite Hv. change (hkdf_createFor 3) with (Ok hkdf_v3). rewrite !bind_ok. unfold st_setPreviousCounter.
    change (st_senderChain (ss_set_receiverChains _ _)) with (st_senderChain s).
    assert (st_senderChain s = c) as -> by (unfold st_senderChain; by rewrite E). rewrite getChainKey_eq. cbn [cIndex].
    destruct Hwf as (_ & _ & W & _). rewrite E in W. apply next_index_wf in W.
    rewrite set_u32_ok by lia. rewrite !bind_ok. unfold st_setSenderChain, ch_putChainKey. cbn [cIndex]. rewrite set_u32_ok by done.
    rewrite !bind_ok. by eexists.
  - right. split; [|done]. by rewrite rk_createChain_short.
Qed.

(** Reasons for a ValueError. *)
Definition value_error (s : ss_s) (m : whisperMessage) : Prop :=
  length (wRatchetKey m) <> 32 \/ (2 ^ 32 <= wCounter m + 1)%N \/ bad_body C s m.

Lemma verdict_class s m e : fit s -> 8 <= length (wSerialized m) -> verdict C s m = Err e ->
  e = EInvalidMessage \/ e = EDuplicateMessage \/ e = EValueError /\ value_error s m.
Proof using Hok.
  intros Hf Hl He. apply (verdict_err C s m zeroKp e zeroKp_ok) in He.
  destruct (st_hasSenderChain s) eqn:Hsc; [|left; unfold decryptPure in He; rewrite Hsc in He; by injection He].
  destruct (wVersion m =? st_getSessionVersion s)%N eqn:Hv; [|left; unfold decryptPure in He; rewrite Hsc, Hv in He; by injection He].
  apply N.eqb_eq in Hv.
  destruct (chainStep_total s (wRatchetKey m) zeroKp Hf Hsc zeroKp_ok) as [[[ck s1] Hstep]|[Hstep Hlen]].
  2:{ right. right. split; [|by left]. unfold decryptPure in He. rewrite Hsc, Hv, N.eqb_refl in He. cbn [negb] in He.
    rewrite Hstep in He. by injection He. }
  pose proof (chainStep_inv C _ _ _ _ _ Hstep) as (kdf & c & j & Hkdf & Hfc & -> & _).
  rewrite (decryptPure_step C _ _ _ kdf _ _ c j Hsc Hv Hstep Hfc eq_refl) in He.
  apply bind_err_inv in He as [He|(? & _ & He)]; [|done].
  destruct Hf as ((Hs1 & _) & _ & Hvi & _). apply fit_version in Hvi; [|done]. rewrite Hvi in *.
  change (hkdf_createFor 3) with (Ok hkdf_v3) in Hkdf. injection Hkdf as <-.
  unfold openWith in He. apply bind_err_inv in He as [He|(y & Hy & He)].
  { unfold chainTake in He. destruct (_ <? _)%N; [destruct (take_messageKey _ _) as [[]|]; [done|]; injection He as <-; auto|].
    destruct (_ <? _)%N; [injection He as <-; auto|]. destruct (N.ltb_spec (wCounter m + 1) (2 ^ 32)); [done|].
    injection He as <-. right. right. split; [done|]. right. by left. }
  unfold st_hasSenderChain in Hsc. destruct (ss_senderChain s) as [sc|] eqn:E; [|done].
  destruct (Hs1 _ E) as (H1 & H2 & _). unfold st_getRemoteIdentityKey, st_getLocalIdentityKey in He.
  destruct (encoded_decode _ H1) as [li Hli]. destruct (encoded_decode _ H2) as [ri Hri]. rewrite Hri, Hli, !bind_ok in He.
  apply bind_err_inv in He as [He|([] & Hmac & He)].
  { left. unfold whisper_verifyMac in He. destruct (bu_split2 _ _ _). case_bool_decide; [done|]. by injection He. }
  apply bind_err_inv in He as [He|(? & _ & He)]; [|done].
  right. right. split; [by eapply aes_decrypt_err|]. right. right. exists (to_keys y.1), li, ri. rewrite Hv in Hmac. split_and!.
  - eapply (step_message_key C Hok s _ _ zeroKp 3 c j s1); [done|by right|exact Hstep|done|].
    by apply (chainTake_keys C Hok 3).
  - by apply decode_iff.
  - by apply decode_iff.
  - by apply authentic_iff.
  - intros pt Hpt%cbc_plain_iff. cbn [to_keys k_cipher k_iv] in Hpt. congruence.
Qed.

Lemma firstVerdict_class l m e : Forall fit l -> 8 <= length (wSerialized m) -> firstVerdict C l m = Err e ->
  e = EInvalidMessage \/ e = EDuplicateMessage \/ e = EValueError /\ exists s, s ∈ l /\ value_error s m.
Proof using Hok.
  intros Hf Hl. induction Hf as [|s l Hs _ IH]; cbn [firstVerdict]; [intros [= <-]; auto|].
  destruct (verdict C s m) as [pt|e'] eqn:E; [done|]. intros H.
  destruct (decide (e' = EInvalidMessage)) as [->|Hne].
  - destruct (IH H) as [?|[?|[? (s' & ? & ?)]]]; [auto|auto|]. right. right. split; [done|]. exists s'. split; [by right|done].
  - assert (e = e') as -> by (destruct e'; congruence).
    destruct (verdict_class _ _ _ Hs Hl E) as [?|[?|[? ?]]]; [done|auto|]. right. right. split; [done|]. exists s. split; [by left|done].
Qed.

Lemma decryptMsg_class w r d bs m e w' :
  reachable C w -> whisper_parse bs = Ok m -> run (decryptMsg C r d m) w = (Err e, w') ->
  e = ENoSession \/ e = EInvalidMessage \/ e = EDuplicateMessage \/
  e = EValueError /\ (length (wRatchetKey m) <> 32 \/ (2 ^ 32 <= wCounter m + 1)%N \/
    exists rec s, session_at w r d = Ok rec /\ s ∈ states rec /\ bad_body C s m).
Proof using Hok.
  intros Hw Hp He. assert (8 <= length (wSerialized m)) as Hl.
  { pose proof (whisper_parse_length _ _ Hp). apply whisper_parse_inv in Hp as [-> _]. lia. }
  pose proof (run_decryptMsg_fst C Hok r d m w) as H. rewrite He in H. cbn [fst] in H.
  destruct (bool_decide _); [|injection H as ->; auto].
  destruct (always_readable C w Hw r d) as [rec Hr]. rewrite Hr, bind_ok in H.
  destruct (firstVerdict_class _ _ _ (reachable_fit _ _ _ _ Hw Hr) Hl (eq_sym H)) as [?|[?|[? (s & Hin & Hs)]]]; [auto..|].
  right. right. right. split; [done|]. destruct Hs as [?|[?|?]]; [auto..|]. right. right. by exists rec, s.
Qed.

(** Any message whose ratchet key has the wrong length makes decryption with any session that
    can send raise ValueError. *)
Lemma short_key w r d rec m :
  reachable C w -> session_at w r d = Ok rec -> ss_senderChain (sr_state rec) <> None ->
  wVersion m = 3%N -> length (wRatchetKey m) <> 32 -> (run (decryptMsg C r d m) w).1 = Err EValueError.
Proof using Hok.
  intros Hw Hr Hsc Hv Hlen.
  assert (is_Some (w_sessions w !! (r, d))) as Hs.
  { unfold session_at in Hr. destruct (w_sessions w !! (r, d)); [by eexists|]. by injection Hr as <-. }
  rewrite (run_decryptMsg_fst C Hok), bool_decide_true by done. rewrite Hr, bind_ok.
  pose proof (reachable_fit _ _ _ _ Hw Hr) as [Hf _]%Forall_cons. cbn [sr_states firstVerdict].
  assert (st_hasSenderChain (sr_state rec) = true) as Hh.
  { unfold st_hasSenderChain. by destruct (ss_senderChain (sr_state rec)). }
  assert (verdict C (sr_state rec) m = Err EValueError) as ->; [|done].
  apply (verdict_err C _ m zeroKp _ zeroKp_ok).
  unfold decryptPure. rewrite Hh.
  pose proof Hf as (_ & Hx & Hvi & _). rewrite Hv, (fit_version _ Hvi Hh), N.eqb_refl. cbn [negb].
  destruct (chainStep_total _ (wRatchetKey m) zeroKp Hf Hh zeroKp_ok) as [[[ck s1] Hstep]|[-> _]]; [|done]. exfalso.
  apply chainStep_inv in Hstep as (kdf & c & j & _ & Hfc & _ & [->|(_ & Hk & _)]); [|done].
  apply find_chain_lookup in Hfc as Hc. apply find_chain_some in Hfc as (l1 & l2 & _ & _ & Hpub & _).
  unfold sJ in Hx. apply (Forall_lookup_1 _ _ _ _ Hx) in Hc as (k & Hk & Hc).
  unfold chain_pub in Hpub. rewrite Hc, default_Some in Hpub. change (x05 :: k) with (pub_serialize k) in Hpub.
  rewrite decodePoint_serialize in Hpub by lia. injection Hpub as ->. done.
Qed.
End total.
