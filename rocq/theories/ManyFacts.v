(** A record with several sessions against the conversation in several sessions (C85). *)
From Verif Require Import PyBase Wire Protos ProtoFacts Crypto Ecc Kdf Messages State Prog Ratchet Builder Cipher Helper.
From Verif Require Import ProgFacts StateFacts UtilFacts HelperFacts MsgFacts CipherFacts DecryptFacts SpecUtil SpecSession SessionProofs HandshakeFacts.
From Verif Require Import InvFacts HistoryProofs SpecKeys KeyProofs SpecEncrypt EncryptProofs Sched SpecConv ConvFacts ConvProofs SpecMany.

Section many.
Context (C : crypto) (Hok : crypto_ok C).

(** ** One state *)

Section state.
Context (r0 c0 me them : bytes) (Hme : length me = 32) (Hthem : length them = 32).

(** A message whose ratchet key the state does not know: refused, unless its MAC fits. *)
Lemma foreign ks s p m ek :
  Forall (genuine C) ks -> ss_wf s -> srel C r0 c0 me them ks s p -> kp_ok ek ->
  wVersion m = 3%N -> length (wRatchetKey m) = 32 -> (wCounter m + 1 < 2 ^ 32)%N -> 8 <= length (wSerialized m) ->
  find_chain (wRatchetKey m) (ss_receiverChains s) 0 = Ok None ->
  mac_fits C s m \/ decryptPure C s m ek = Err EInvalidMessage.
Proof using Hok Hme Hthem.
  intros Hgen Hwf Hs [Hek _] Hmv Hmk Hmc Hml Hno. set (n := p_turn p).
  destruct (srel_version C r0 c0 me them ks s p Hs) as [Hv Hsc].
  pose proof Hs as (H1 & H2 & H3 & H4 & H5 & (c & Hc1 & Hc2 & Hc3 & Hc4) & H7 & H8). fold n in H1, H5, Hc2, Hc3, Hc4, H7, H8.
  assert (genuine C (kth ks n)) as Gn by (by apply kth_genuine).
  assert (st_getSenderRatchetKeyPair s = Ok (kth ks n)) as Hour.
  { unfold st_getSenderRatchetKeyPair, st_getSenderRatchetKey, st_senderChain. rewrite Hc1, default_Some, Hc2, Hc3, !default_Some.
    rewrite decodePoint_serialize by (rewrite (genuine_pub_len C Hok _ Gn); lia). rewrite bind_ok. by destruct (kth ks n). }
  assert (hkdf_createFor (st_getSessionVersion s) = Ok hkdf_v3) as Hkdf by (by rewrite Hv).
  assert (exists x, rk_createChain C (RootKey hkdf_v3 (default [] (ss_rootKey s))) (wRatchetKey m) (kth ks n) = Ok x /\ cIndex x.2 = 0%N) as (x & Hx & Hx0).
  { rewrite (createChain_eq C); [|done|by destruct Gn]. eexists. done. }
  assert (exists y, rk_createChain C x.1 (wRatchetKey m) ek = Ok y) as (y & Hy).
  { destruct x as [[kd rk] ck]. pose proof (rk_createChain_inv C _ _ _ _ Hx) as (Hxe & _).
    unfold rk_createChain, calculateAgreement, c_calculateAgreement. rewrite Hmk, Hek. cbn [Nat.eqb andb]. rewrite bind_ok.
    destruct (bu_split2 _ _ _). eauto. }
  pose proof (chainStep_new C s _ ek _ _ x y Hno Hkdf Hour Hx Hy Hwf) as Hstep.
  set (s1 := steppedState s (wRatchetKey m) x.2 y.1 ek y.2) in *.
  set (nc := newChain (wRatchetKey m) x.2) in *.
  assert (ss_receiverChains s1 = trim5 (ss_receiverChains s ++ [nc])) as Hch by done.
  set (jj := (length (trim5 (ss_receiverChains s ++ [nc])) - 1)%nat).
  assert (find_chain (wRatchetKey m) (ss_receiverChains s1) 0 = Ok (Some (nc, jj))) as Hf1.
  { rewrite Hch. apply find_trim; [done|]. by apply newChain_pub. }
  pose proof (chainStep_inv C _ _ _ _ _ Hstep) as (kdf & c1 & j1 & Hkdf' & Hf' & Hck & _).
  rewrite Hf1 in Hf'. injection Hf' as <- <-. rewrite Hkdf in Hkdf'. injection Hkdf' as <-.
  rewrite (decryptPure_step C s m ek hkdf_v3 _ s1 nc jj Hsc) by (done || congruence).
  unfold openWith. destruct (chainTake C hkdf_v3 nc (wCounter m)) as [z|e] eqn:Ht.
  2:{ right. cbn. unfold chainTake in Ht.
    assert (cIndex (ch_getChainKey hkdf_v3 nc) = 0%N) as Hz by (rewrite <- Hck; done). rewrite Hz in Ht.
    rewrite (proj2 (N.ltb_ge _ _)) in Ht by lia. destruct (_ <? _)%N; [by injection Ht as <-|].
    rewrite (proj2 (N.ltb_lt _ _)) in Ht by done. done. }
  rewrite bind_ok.
  assert (st_getRemoteIdentityKey s = Ok them /\ st_getLocalIdentityKey s = Ok me) as [-> ->].
  { unfold st_getRemoteIdentityKey, st_getLocalIdentityKey. rewrite H3, H4, !default_Some, !decodePoint_serialize by lia. done. }
  rewrite !bind_ok. destruct (whisper_verifyMac C m (wVersion m) them me (mMac z.1)) as [[]|e] eqn:Em.
  - left. exists (to_keys z.1), me, them. rewrite Hmv in Em. split_and!.
    + eapply (step_message_key C Hok s _ _ ek 3 nc jj s1); [done|by right| |done|].
      { rewrite Hck in Hstep. exact Hstep. }
      by apply (chainTake_keys C Hok 3).
    + exists them. rewrite H4, take_ge by lia. done.
    + exists me. rewrite H3, take_ge by lia. done.
    + by apply authentic_iff.
  - right. rewrite bind_err. unfold whisper_verifyMac in Em. destruct (bu_split2 _ _ _). case_bool_decide; [done|]. by injection Em as <-.
Qed.

(** A message of the session that the state belongs to. *)
Lemma home ks s p l i pt m :
  Forall (genuine C) ks -> NoDup (kp_pub <$> ks) -> ss_wf s -> srel C r0 c0 me them ks s p ->
  mrel C r0 c0 ks them me (l, i, pt) m -> arrives ks (p_turn p) l ->
  match iopen (l, i, pt) p with
  | Ok (q, p') => forall ek, genuine C ek -> exists s', decryptPure C s m ek = Ok (q, s') /\
      srel C r0 c0 me them (if (p_turn p <? l)%nat then ks ++ [ek] else ks) s' p' /\
      ss_pendingPreKey s' = None /\ ss_aliceBaseKey s' = ss_aliceBaseKey s /\
      ((p_turn p < l)%nat -> find_chain (wRatchetKey m) (ss_receiverChains s) 0 = Ok None)
  | Err e => verdict C s m = Err e \/ ((l + 9 < p_turn p)%nat /\ mac_fits C s m)
  end.
Proof using Hok Hme Hthem.
  intros Hgen Hnd Hwf Hs Hm Hl. set (n := p_turn p) in *. unfold iopen. fold n.
  pose proof Hs as (H1 & _ & _ & _ & _ & _ & _ & Hgot). fold n in Hgot, H1.
  destruct (Nat.ltb_spec (l + 9) n) as [Hdrop|Hkeep].
  { destruct (foreign ks s p m zeroKp Hgen Hwf Hs zeroKp_ok) as [?|H].
    - by destruct Hm as (_ & ? & _).
    - destruct Hm as (Hl' & _ & -> & _). by apply (genuine_pub_len C Hok), kth_genuine.
    - by destruct Hm as (_ & _ & _ & -> & ? & _).
    - destruct Hm as (_ & _ & _ & _ & _ & _ & Hp). pose proof (whisper_parse_length _ _ Hp). lia.
    - destruct Hm as (Hl' & _ & -> & _). apply (find_new C Hok r0 c0 me them ks Hgen Hnd s p l Hs Hl'). fold n. rewrite kept_elem. lia.
    - by right.
    - left. by apply (verdict_err C s m zeroKp _ zeroKp_ok). }
  destruct Hl as [[-> Hlen]|[k Hk]].
  - assert (forall j, (S n, j) ∉ p_got p) as Hng by (intros j ?%Hgot; lia).
    rewrite bool_decide_eq_false_2 by apply Hng. rewrite next_of_none by done. rewrite N.add_0_l.
    assert (forall ek, genuine C ek -> _) as Hnew
      by (intros ek Gek; exact (new_chain C Hok r0 c0 me them ks Hgen Hnd Hme Hthem s p i pt m ek Hwf Gek Hs Hm Hlen)).
    destruct (N.ltb_spec 2000 i) as [Hi|Hi].
    + left. pose (ek := kp_at C (World ∅ ∅ ∅ ∅ zeroKp 0 ∅ (fun _ => []) 0) 0).
      destruct (Hnew ek (kp_at_genuine C Hok _ _)) as (_ & Hfar & _). apply (verdict_err C s m ek); [apply (kp_at_ok C Hok)|]. by apply Hfar.
    + intros ek Gek. destruct (Hnew ek Gek) as (Hno & _ & Hnear). destruct (Hnear Hi) as (s' & Hdec & Hpend & Hbase & Hs').
      rewrite (proj2 (Nat.ltb_lt n (S n))) by lia. exists s'. split_and!; done.
  - assert (l ∈ kept n) as Hkept by (apply kept_elem; split; [eauto|lia]).
    assert (forall ek, _) as Hold by (intros ek; exact (old_chain C Hok r0 c0 me them ks Hgen Hnd Hme Hthem s p l i pt m ek Hs Hm Hkept)).
    destruct (bool_decide_reflect ((l, i) ∈ p_got p)) as [Hg|Hg].
    { left. apply (verdict_err C s m zeroKp _ zeroKp_ok). by apply Hold. }
    destruct (N.ltb_spec (next_of l (p_got p) + 2000) i) as [Hi|Hi].
    { left. apply (verdict_err C s m zeroKp _ zeroKp_ok). by apply Hold. }
    intros ek Gek. destruct (Hold ek) as (_ & _ & Hnew). destruct (Hnew Hg Hi) as (c' & j & Hj & Hdec & Hs').
    rewrite (proj2 (Nat.ltb_ge n l)) by lia. eexists. split; [done|]. split_and!; try done. lia.
Qed.
End state.

(** ** A record *)

Lemma run_decryptWithSessionState_pos s m w pt s' w1 :
  run (decryptWithSessionState C s m) w = (Ok (pt, s'), w1) ->
  w_pos w <= w_pos w1 /\ (find_chain (wRatchetKey m) (ss_receiverChains s) 0 = Ok None -> w_pos w1 = S (w_pos w)).
Proof using Hok. intros H. split; [by apply run_stream' in H as [_ ?]|]. intros Hf. by eapply decrypt_draws. Qed.

Lemma previous_success rec m i l w j s pt :
  l !! j = Some s -> (forall k s', k < j -> l !! k = Some s' -> verdict C s' m = Err EInvalidMessage) -> verdict C s m = Ok pt ->
  exists n w1 s', decryptPure C s m (kp_at C w n) = Ok (pt, s') /\
    run (decryptWithPrevious C rec m i l) w = (Ok (pt, record_after (S (i + j)) s' rec), w1) /\
    same_stores w w1 /\ w_pos w <= n <= w_pos w1 /\
    (find_chain (wRatchetKey m) (ss_receiverChains s) 0 = Ok None -> w_pos w1 = S n).
Proof using Hok.
  revert i w j. induction l as [|t l IH]; intros i w j Hj Hb Hv; [done|].
  cbn [decryptWithPrevious]. rewrite run_catch, run_bind.
  destruct (run_decryptWithSessionState C Hok t m w) as (w1 & Hw1 & Hrun).
  set (ek := kp_at C w (w_pos w)) in *. assert (kp_ok ek) as Hek by apply (kp_at_ok C Hok).
  destruct j as [|j].
  - injection Hj as ->. apply (verdict_ok C s m ek pt Hek) in Hv as [s' Hs']. rewrite Hs' in Hrun. rewrite Hrun.
    destruct (run_decryptWithSessionState_pos _ _ _ _ _ _ Hrun) as [Hp1 Hp2].
    exists (w_pos w), w1, s'. rewrite Nat.add_0_r. split_and!; done.
  - assert (decryptPure C t m ek = Err EInvalidMessage) as He by (apply verdict_err; [done|]; apply (Hb 0); [lia|done]).
    rewrite He in Hrun. rewrite Hrun. rewrite bool_decide_eq_true_2 by done.
    destruct (IH (S i) w1 j Hj) as (n & w2 & s' & H1 & H2 & H3 & H4 & H5); [|done|].
    { intros k s' Hk. apply (Hb (S k)). lia. }
    exists n, w2, s'. assert (w_pos w <= w_pos w1) by (by apply run_stream' in Hrun as [_ ?]). split_and!; try done; try lia.
    + rewrite <- H1. f_equal. unfold kp_at. by destruct Hw1 as (_&_&_&_&_&_&_&->).
    + rewrite H2. by replace (S i + j) with (i + S j) by lia.
    + by eapply same_stores_trans.
Qed.

Lemma record_success rec m w j s pt :
  sr_states rec !! j = Some s -> (forall k s', k < j -> sr_states rec !! k = Some s' -> verdict C s' m = Err EInvalidMessage) ->
  verdict C s m = Ok pt ->
  exists n w1 s', decryptPure C s m (kp_at C w n) = Ok (pt, s') /\
    run (decryptWithSessionRecord C rec m) w = (Ok (pt, record_after j s' rec), w1) /\
    same_stores w w1 /\ w_pos w <= n <= w_pos w1 /\
    (find_chain (wRatchetKey m) (ss_receiverChains s) 0 = Ok None -> w_pos w1 = S n).
Proof using Hok.
  intros Hj Hb Hv. unfold decryptWithSessionRecord. rewrite run_catch, run_bind.
  destruct (run_decryptWithSessionState C Hok (sr_state rec) m w) as (w1 & Hw1 & Hrun).
  set (ek := kp_at C w (w_pos w)) in *. assert (kp_ok ek) as Hek by apply (kp_at_ok C Hok).
  destruct j as [|j].
  - injection Hj as <-. apply (verdict_ok C (sr_state rec) m ek pt Hek) in Hv as [s' Hs']. rewrite Hs' in Hrun. rewrite Hrun.
    destruct (run_decryptWithSessionState_pos _ _ _ _ _ _ Hrun) as [Hp1 Hp2].
    exists (w_pos w), w1, s'. split_and!; done.
  - assert (decryptPure C (sr_state rec) m ek = Err EInvalidMessage) as He by (apply verdict_err; [done|]; apply (Hb 0); [lia|done]).
    rewrite He in Hrun. rewrite Hrun. rewrite bool_decide_eq_true_2 by done.
    destruct (previous_success rec m 0 (sr_previous rec) w1 j s pt Hj) as (n & w2 & s' & H1 & H2 & H3 & H4 & H5); [|done|].
    { intros k s' Hk. apply (Hb (S k)). lia. }
    exists n, w2, s'. assert (w_pos w <= w_pos w1) by (by apply run_stream' in Hrun as [_ ?]). split_and!; try done; try lia.
    + rewrite <- H1. f_equal. unfold kp_at. by destruct Hw1 as (_&_&_&_&_&_&_&->).
    + by eapply same_stores_trans.
Qed.

Lemma record_refuses rec m w e :
  (exists j s, sr_states rec !! j = Some s /\ verdict C s m = Err e /\
     (forall k s', k < j -> sr_states rec !! k = Some s' -> verdict C s' m = Err EInvalidMessage) /\
     (e = EInvalidMessage -> forall k s', sr_states rec !! k = Some s' -> verdict C s' m = Err EInvalidMessage)) \/
  (e = EInvalidMessage /\ forall k s', sr_states rec !! k = Some s' -> verdict C s' m = Err EInvalidMessage) ->
  exists w1, run (decryptWithSessionRecord C rec m) w = (Err e, w1) /\ same_stores w w1.
Proof using Hok.
  intros H. destruct (run_decryptWithSessionRecord C Hok rec m w) as (w1 & Hsame & [(j & s & n & Hj & Hb & Hv & Hrun)|[Hb Hrun]]); exists w1.
  - split; [|done]. rewrite Hrun. destruct H as [(j' & s1 & Hj' & Hv' & Hb' & Hall)|[-> Hall]].
    2:{ by apply Hall in Hj. }
    destruct (lt_eq_lt_dec j j') as [[Hlt|<-]|Hlt].
    + destruct Hv. by eapply Hb'.
    + rewrite Hj in Hj'. injection Hj' as <-. apply (verdict_err C s m (kp_at C w n)) in Hv'; [|apply (kp_at_ok C Hok)]. by rewrite Hv'.
    + rewrite (Hb j' s1 Hlt Hj') in Hv'. injection Hv' as <-. by apply Hall in Hj.
  - split; [|done]. destruct H as [(j' & s1 & Hj' & Hv' & _)|[-> _]]; [|done].
    rewrite (Hb _ _ Hj') in Hv'. by injection Hv' as <-.
Qed.

Lemma states_after rec j s s' :
  sr_states rec !! j = Some s -> length (sr_states rec) <= 41 -> sr_states (record_after j s' rec) = s' :: delete j (sr_states rec).
Proof using.
  intros Hj Hlen. destruct j as [|j]; [done|]. cbn [record_after sr_promoteState sr_state sr_previous sr_states] in *. unfold sr_states. cbn [delete list_delete].
  unfold sr_states in Hlen. cbn [length] in Hlen. cbn in Hj. pose proof (lookup_lt_Some _ _ _ Hj). unfold sr_promoteState. cbn [sr_state sr_previous].
  rewrite (proj2 (Nat.ltb_ge _ _)); [done|]. cbn [length]. rewrite length_delete by eauto. unfold ARCHIVED_STATES_MAX_LENGTH. lia.
Qed.
End many.
