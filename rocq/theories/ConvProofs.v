(** Two devices against the conversation as it should be: C01 and the handshakes that lead
    there. *)
From Verif Require Import PyBase Wire Protos ProtoFacts Crypto Ecc Kdf Messages State Prog Ratchet Builder Cipher Helper.
From Verif Require Import ProgFacts StateFacts UtilFacts HelperFacts MsgFacts CipherFacts DecryptFacts SpecUtil SpecSession SessionProofs HandshakeFacts.
From Verif Require Import InvFacts HistoryProofs SpecKeys KeyProofs SpecEncrypt EncryptProofs Sched SpecConv ConvFacts.

(** ** The stream of random outcomes *)

Lemma run_stream {A} (p : prog A) w : w_tape (run p w).2 = w_tape w /\ w_pos w <= w_pos (run p w).2.
Proof.
  revert w. induction p as [a|e|R c k IH]; intros w; [cbn; split; [done|lia]..|].
  cbn [run]. destruct (step_call c w) as [r w'] eqn:E. destruct (IH r w') as [H1 H2]. rewrite H1.
  assert (w_tape w' = w_tape w /\ w_pos w <= w_pos w') as [H3 H4]; [|split; [done|lia]].
  destruct c; cbn [step_call] in E; repeat case_match; injection E as _ <-; cbn; split; try done; lia.
Qed.
Lemma run_stream' {A} (p : prog A) w o w' : run p w = (o, w') -> w_tape w' = w_tape w /\ w_pos w <= w_pos w'.
Proof. intros H. pose proof (run_stream p w) as Hs. by rewrite H in Hs. Qed.

Section conv.
Context (C : crypto) (Hok : crypto_ok C).

(** The key pair of a DH ratchet step is drawn first. *)
Lemma decrypt_draws s m w y w1 :
  find_chain (wRatchetKey m) (ss_receiverChains s) 0 = Ok None ->
  run (decryptWithSessionState C s m) w = (Ok y, w1) -> w_pos w1 = S (w_pos w).
Proof using Hok.
  intros Hf H. unfold decryptWithSessionState in H. destruct (negb _); [done|]. destruct (negb _); [done|].
  apply run_bind_ok in H as (x & w2 & Hx & H). apply run_lift_inv in H as [_ ->].
  unfold getOrCreateChainKey in Hx. apply run_bind_ok in Hx as (has & w3 & Hh & Hx). apply run_lift_inv in Hh as [Hh ->].
  unfold st_hasReceiverChain, st_getReceiverChain in Hh. rewrite Hf in Hh. injection Hh as <-.
  apply run_bind_ok in Hx as (z & w3 & Hz & Hx). apply run_lift_inv in Hz as [Hz ->].
  rewrite run_bind, (run_generateKeyPair C Hok) in Hx. apply run_lift_inv in Hx as [_ ->]. done.
Qed.

(** ** Decrypting with a record *)

Lemma record_ok rec m w pt s' :
  decryptPure C (sr_state rec) m (kp_at C w (w_pos w)) = Ok (pt, s') ->
  exists w1, run (decryptWithSessionRecord C rec m) w = (Ok (pt, sr_setState s' rec), w1) /\ same_stores w w1 /\
    (find_chain (wRatchetKey m) (ss_receiverChains (sr_state rec)) 0 = Ok None -> w_pos w1 = S (w_pos w)).
Proof using Hok.
  intros H. unfold decryptWithSessionRecord. rewrite run_catch, run_bind.
  destruct (run_decryptWithSessionState C Hok (sr_state rec) m w) as (w1 & Hw1 & Hrun).
  rewrite Hrun, H. exists w1. split_and!; [done|done|]. intros Hf. eapply decrypt_draws; [done|]. by rewrite Hrun, H.
Qed.

Lemma record_err rec m w e :
  decryptPure C (sr_state rec) m (kp_at C w (w_pos w)) = Err e ->
  e <> EInvalidMessage \/ alone rec = true ->
  exists w1, run (decryptWithSessionRecord C rec m) w = (Err e, w1) /\ same_stores w w1.
Proof using Hok.
  intros H He. unfold decryptWithSessionRecord. rewrite run_catch, run_bind.
  destruct (run_decryptWithSessionState C Hok (sr_state rec) m w) as (w1 & Hw1 & Hrun).
  rewrite Hrun, H. destruct (bool_decide_reflect (e = EInvalidMessage)) as [->|Hne]; [|by exists w1].
  destruct He as [?|Ha]; [done|].
  destruct (run_decryptWithPrevious C Hok rec m 0 (sr_previous rec) w1) as (w2 & Hw2 & [(j & s & n & Hj & _ & Hv & _)|[_ Hr]]).
  - destruct Hv. unfold alone in Ha. rewrite forallb_forall in Ha.
    assert (In s (sr_previous rec)) as Hin by (by apply elem_of_list_In; eapply elem_of_list_lookup_2).
    apply Ha in Hin. unfold verdict, decryptPure, st_hasSenderChain. by destruct (ss_senderChain s).
  - exists w2. split; [done|]. by eapply same_stores_trans.
Qed.

(** ** A device *)

(** What the prekey messages of a session say. *)
Record details := Details { dt_pid : option N; dt_sid : N; dt_base : bytes; dt_reg : N }.
Definition details_ok (d : details) : Prop :=
  length (dt_base d) = 32 /\ (dt_sid d < 2 ^ 31)%N /\ wfV (dt_pid d) /\ (dt_reg d < 2 ^ 32)%N.

Section device.
Context (r0 c0 : bytes) (out inn : option details) (me them : bytes) (r d : Z).
Context (Hme : length me = 32) (Hthem : length them = 32).
Context (Hout : forall x, out = Some x -> details_ok x).

(** A message on the wire. *)
Definition wrel (ks : list keypair) (det : option details) (snd rcv : bytes) (x : wire) (mg : msg) : Prop :=
  exists m, mrel C r0 c0 ks snd rcv mg m /\
    if x.1 then
      exists dt q, det = Some dt /\ prekey_parse x.2 = Ok q /\ pMessage q = m /\ pVersion q = 3%N /\
        pBaseKey q = dt_base dt /\ pIdentityKey q = snd /\ pSignedPreKeyId q = dt_sid dt /\
        pPreKeyId q = Some (default 0%N (dt_pid dt)) /\ pRegistrationId q = dt_reg dt
    else x.2 = wSerialized m.

Lemma wrel_app ks l det snd rcv x mg : wrel ks det snd rcv x mg -> wrel (ks ++ l) det snd rcv x mg.
Proof using. intros (m & Hm & H). exists m. split; [by apply mrel_app|done]. Qed.

Definition pending_ok (s : ss_s) : Prop :=
  match ss_pendingPreKey s with
  | None => True
  | Some pp => exists dt, out = Some dt /\ pp = PpS (dt_pid dt) (Some (pub_serialize (dt_base dt))) (Some (Z.of_N (dt_sid dt))) /\
                 default 0%N (ss_localRegId s) = dt_reg dt
  end.

Definition drel (ks : list keypair) (w : world) (p : party) : Prop :=
  exists rec, session_at w r d = Ok rec /\ srel C r0 c0 me them ks (sr_state rec) p /\ pending_ok (sr_state rec) /\
    alone rec = p_alone p /\
    (forall dt, inn = Some dt -> ss_aliceBaseKey (sr_state rec) = Some (pub_serialize (dt_base dt)) /\ trusts w r them).

Lemma drel_app ks l w p : drel ks w p -> drel (ks ++ l) w p.
Proof using. intros (rec & H1 & H2 & H3). exists rec. split; [done|]. split; [by apply srel_app|done]. Qed.

Lemma drel_unchanged ks w w' p : unchanged w w' -> drel ks w p -> drel ks w' p.
Proof using.
  intros (Hs & _ & _ & Ht & _) (rec & H1 & H2 & H3 & H4 & H5). exists rec. split_and!; try done.
  - by rewrite (session_at_eq w w').
  - intros dt Hdt. destruct (H5 dt Hdt) as [H6 H7]. split; [done|]. unfold trusts. by rewrite Ht.
Qed.

Lemma drel_stored ks w p : drel ks w p -> is_Some (w_sessions w !! (r, d)).
Proof using.
  intros (rec & H1 & (_ & _ & _ & _ & _ & (c & Hc & _) & _) & _). unfold session_at in H1.
  destruct (w_sessions w !! (r, d)); [eauto|]. injection H1 as <-. done.
Qed.

(** ** Sending *)

Lemma send ks w p pt :
  Forall (genuine C) ks -> drel ks w p -> (p_sent p + 1 < 2 ^ 32)%N ->
  exists ct w', run (encrypt C r d pt) w = (Ok ct, w') /\
    wrel ks out me them (ct_wire ct) (p_turn p, p_sent p, pt) /\
    drel ks w' (Party (p_turn p) (p_sent p + 1) (p_got p) (p_alone p)) /\
    w_pos w' = w_pos w /\ (forall rec, session_at w r d = Ok rec -> is_Some (ss_pendingPreKey (sr_state rec)) ->
      (ct_wire ct).1 = true /\ exists rec', session_at w' r d = Ok rec' /\ is_Some (ss_pendingPreKey (sr_state rec'))).
Proof using Hok Hme Hthem Hout.
  intros Hgen (rec & Hrec & Hs & Hp & Ha & Hin) Hsent.
  pose proof (loaded_wf _ _ _ _ Hrec) as [Hwf _].
  set (s := sr_state rec) in *. set (n := p_turn p) in *.
  pose proof Hs as (H1 & H2 & H3 & H4 & H5 & (c & Hc1 & Hc2 & Hc3 & Hc4) & H7 & H8). fold n in H1, H5, Hc2, Hc3, Hc4, H7, H8.
  set (ck := stepped C (level C r0 c0 ks n).2 (N.to_nat (p_sent p))) in *.
  assert (st_senderChain s = c) as Hsc by (unfold st_senderChain; by rewrite Hc1).
  assert (next_index c = p_sent p /\ next_key c = ck) as [Hni Hnk] by (unfold next_index, next_key; by rewrite Hc4).
  assert (length (kp_pub (kth ks n)) = 32) as Hpl by (apply (genuine_pub_len C Hok), kth_genuine; done).
  assert (exists ct, encryptWithState C s pt = Ok (ct, advanced C s)) as (ct & Henc).
  { destruct (encryptWithState C s pt) as [[ct s']|e] eqn:E.
    { pose proof (encryptWithState_inv C Hok _ _ _ _ E) as (? & ? & ? & ?). destruct_and!. subst s'. eauto. }
    exfalso. revert E. unfold encryptWithState, st_getSenderChainKey.
    destruct (srel_version C r0 c0 me them ks s p Hs) as [-> _]. change (hkdf_createFor 3) with (Ok hkdf_v3). rewrite !bind_ok.
    rewrite Hsc, getChainKey_eq, Hni, Hnk. unfold st_getSenderRatchetKey. rewrite Hsc, Hc2, default_Some.
    rewrite decodePoint_serialize by lia. rewrite bind_ok.
    set (mk := ck_messageKeys C _).
    destruct (ck_messageKeys_lengths C Hok (ChainKey hkdf_v3 ck (p_sent p))) as (L1 & L2 & L3). fold mk in L1, L2, L3.
    destruct (aes_roundtrip C Hok (mCipher mk) (mIv mk) pt L1 L3) as (body & -> & _). rewrite bind_ok.
    unfold st_getLocalIdentityKey, st_getRemoteIdentityKey. rewrite H3, H4, !default_Some.
    rewrite !decodePoint_serialize by lia. rewrite !bind_ok. cbn [cIndex].
    rewrite (whisper_create_ok C); [|lia|].
    2: { destruct Hwf as (_ & Hw & _). unfold st_getPreviousCounter. by apply wfV_default. }
    rewrite bind_ok.
    set (wm := WhisperMessage _ _ _ _ _ _). clearbody wm.
    assert (exists ct, (if st_hasUnacknowledgedPreKeyMessage s then
          items ← st_getUnacknowledgedPreKeyMessageItems s;
          let '(preKeyId, signedPreKeyId, baseKey) := items in
          localId ← Ok me;
          spid ← z_to_u32 signedPreKeyId;
          p ← prekey_create 3 (st_getLocalRegistrationId s) preKeyId spid baseKey localId wm;
          Ok (CTPreKey p)
        else Ok (CTWhisper wm)) = Ok ct) as (ct & Hct).
    { unfold st_hasUnacknowledgedPreKeyMessage, st_getUnacknowledgedPreKeyMessageItems. unfold pending_ok in Hp.
      destruct (ss_pendingPreKey s) as [pp|]; [|eauto]. destruct Hp as (dt & Hdt & -> & Hreg).
      destruct (Hout dt Hdt) as (D1 & D2 & D3 & D4). rewrite !default_Some. cbn [pp_baseKey pp_preKeyId pp_signedPreKeyId]. rewrite !default_Some.
      rewrite decodePoint_serialize by lia. rewrite !bind_ok. unfold z_to_u32.
      rewrite (proj2 (Z.ltb_ge _ _)) by lia. rewrite !bind_ok. rewrite N2Z.id.
      unfold st_getLocalRegistrationId. rewrite Hreg, prekey_create_ok by (done || lia). rewrite bind_ok. eauto. }
    rewrite Hct, bind_ok. unfold st_setSenderChainKey, ch_putChainKey. cbn [ck_next cIndex].
    rewrite set_u32_ok by lia. rewrite !bind_ok. done. }
  pose proof (encryptWithState_inv C Hok _ _ _ _ Henc) as (rk & lo & re & Hv & Hrk & Hidx & Hlo & Hre & W1 & W2 & W3 & Hseal & Hparse & _ & Hpend).
  cbv zeta in *. rewrite Hsc, Hni, Hnk in *.
  destruct (srel_version C r0 c0 me them ks s p Hs) as [Hver _]. rewrite Hver in *.
  assert (rk = kp_pub (kth ks n)) as ->.
  { unfold st_getSenderRatchetKey in Hrk. rewrite Hsc, Hc2, default_Some, decodePoint_serialize in Hrk by lia. by injection Hrk. }
  assert (lo = me /\ re = them) as [-> ->].
  { destruct Hlo as (t & Ht & ->), Hre as (u & Hu & ->). rewrite H3 in Ht. rewrite H4 in Hu. injection Ht as <-. injection Hu as <-.
    rewrite !take_ge by lia. done. }
  assert (run (encrypt C r d pt) w = (Ok ct, w_set_sessions (<[(r, d) := sr_serialize (sr_setState (advanced C s) rec)]> (w_sessions w)) w)) as Hrun.
  { unfold encrypt. rewrite run_bind, run_do, load_session, Hrec, run_bind, run_lift. fold s. rewrite Henc.
    rewrite run_bind, run_do. done. }
  pose proof (encrypt_ok C Hok _ _ _ _ _ _ Hrun) as (rec' & Hr' & _ & Hst & _).
  rewrite Hrec in Hr'. injection Hr' as <-. fold s in Hst.
  assert (mrel C r0 c0 ks me them (n, p_sent p, pt) (inner ct)) as Hm by (unfold mrel; split_and!; done).
  exists ct. eexists. split; [exact Hrun|]. split_and!.
  - exists (inner ct). split; [done|]. unfold pending_ok in Hp. destruct (ss_pendingPreKey s) as [pp|].
    + destruct Hpend as (base & sid & Hb & Hsid & _ & (q & -> & Hqv & Hq)). cbn [ct_wire fst snd].
      destruct Hp as (dt & Hdt & -> & Hreg). cbn [pp_baseKey pp_preKeyId pp_signedPreKeyId] in *. rewrite !default_Some in *.
      destruct (Hout dt Hdt) as (D1 & D2 & D3 & D4). rewrite decodePoint_serialize in Hb by lia. injection Hb as <-.
      unfold z_to_u32 in Hsid. rewrite (proj2 (Z.ltb_ge _ _)), N2Z.id in Hsid by lia. injection Hsid as <-.
      unfold st_getLocalRegistrationId in Hq. rewrite Hreg in Hq.
      assert (length (dt_base dt) <= 32) as D1' by lia. assert (length me <= 32) as Hme' by lia.
      pose proof (prekey_reparse _ _ _ _ _ _ _ D1' Hme' Hparse Hq) as Hre2.
      exists dt. eexists. split; [done|]. split; [exact Hre2|]. split_and!; done.
    + rewrite Hpend. done.
  - exists (SessionRecord false (advanced C s) (sr_previous rec)). split_and!; try done.
    unfold srel. cbn [p_turn p_sent p_got p_alone sr_state]. fold n. split_and!; try done.
    eexists. split; [done|]. rewrite Hsc, Hni, Hnk. cbn [ch_ratchetKey ch_ratchetKeyPrivate ch_chainKey ch_set_chainKey].
    split_and!; try done. replace (N.to_nat (p_sent p + 1)) with (1 + N.to_nat (p_sent p)) by lia.
    unfold ck. by rewrite <- stepped_add.
  - done.
  - intros rec' Hr' [pp Hpp]. rewrite Hrec in Hr'. injection Hr' as <-. fold s in Hpp. rewrite Hpp in Hpend.
    destruct Hpend as (base & sid & _ & _ & _ & (q & -> & _)). split; [done|].
    exists (SessionRecord false (advanced C s) (sr_previous rec)). split; [done|]. cbn [sr_state].
    change (ss_pendingPreKey (advanced C s)) with (ss_pendingPreKey s). rewrite Hpp. eauto.
Qed.
(** ** Receiving *)

Lemma decryptMsg_record w rec m :
  session_at w r d = Ok rec -> is_Some (w_sessions w !! (r, d)) ->
  run (decryptMsg C r d m) w =
  match run (decryptWithSessionRecord C rec m) w with
  | (Ok x, w1) => (Ok x.1, w_set_sessions (<[(r, d) := sr_serialize x.2]> (w_sessions w1)) w1)
  | (Err e, w1) => (Err e, w1)
  end.
Proof using.
  intros Hrec Hst. unfold decryptMsg. rewrite run_bind, run_do. cbn [step_call].
  rewrite bool_decide_eq_true_2 by done. rewrite run_bind, run_do, load_session, Hrec, run_bind.
  destruct (run (decryptWithSessionRecord C rec m) w) as [[x|e] w1]; [|done].
  rewrite run_bind, run_do. done.
Qed.

(** The state that decrypted is stored. *)
Lemma stored_drel ks w w1 rec s' p :
  session_at w r d = Ok rec -> same_stores w w1 -> ss_wf s' ->
  srel C r0 c0 me them ks s' p -> ss_pendingPreKey s' = None -> alone rec = p_alone p ->
  (forall dt, inn = Some dt -> ss_aliceBaseKey s' = Some (pub_serialize (dt_base dt)) /\ trusts w r them) ->
  let w' := w_set_sessions (<[(r, d) := sr_serialize (sr_setState s' rec)]> (w_sessions w1)) w1 in
  drel ks w' p /\ session_at w' r d = Ok (SessionRecord false s' (sr_previous rec)).
Proof using.
  intros Hrec Hsame Hwf' Hs Hp Ha Hin. cbv zeta.
  pose proof (loaded_wf _ _ _ _ Hrec) as [_ Hwf].
  assert (session_at (w_set_sessions (<[(r, d) := sr_serialize (sr_setState s' rec)]> (w_sessions w1)) w1) r d
    = Ok (SessionRecord false s' (sr_previous rec))) as Hst by (rewrite session_stored; [done|by split]).
  split; [|done]. exists (SessionRecord false s' (sr_previous rec)). split_and!; try done.
  - unfold pending_ok. cbn [sr_state]. by rewrite Hp.
  - intros dt Hdt. destruct (Hin dt Hdt) as [H1 H2]. split; [done|]. unfold trusts in *. cbn [w_set_sessions w_trusted].
    destruct Hsame as (_ & _ & _ & -> & _). done.
Qed.

(** The level of an arriving message. *)
Definition arrives (ks : list keypair) (n l : nat) : Prop := (l = S n /\ length ks = S (S n)) \/ exists k, n = S (l + 2 * k).

Lemma recv_msg ks w p l i pt m :
  Forall (genuine C) ks -> NoDup (kp_pub <$> ks) -> drel ks w p -> mrel C r0 c0 ks them me (l, i, pt) m ->
  arrives ks (p_turn p) l ->
  match ireceive (l, i, pt) p with
  | (SReceived q, p') => exists w', run (decryptMsg C r d m) w = (Ok q, w') /\
      drel (if (p_turn p <? l)%nat then ks ++ [kp_at C w (w_pos w)] else ks) w' p' /\
      ((p_turn p < l)%nat -> w_pos w' = S (w_pos w))
  | (SRaised ex, p') => p' = p /\ exists w', run (decryptMsg C r d m) w = (Err ex, w')
  | (SUnknown, p') => p' = p
  | _ => False
  end.
Proof using Hok Hme Hthem.
  intros Hgen Hnd Hd Hm Hl. pose proof (drel_stored _ _ _ Hd) as Hst.
  pose proof Hd as (rec & Hrec & Hs & Hp & Ha & Hin).
  pose proof (loaded_wf _ _ _ _ Hrec) as [Hwf _].
  rewrite (decryptMsg_record w rec m Hrec Hst).
  set (ek := kp_at C w (w_pos w)). set (n := p_turn p) in *.
  assert (genuine C ek) as Gek by (apply (kp_at_genuine C Hok)).
  unfold ireceive. fold n. destruct (Nat.ltb_spec (l + 9) n) as [Hdrop|Hkeep]; [done|].
  pose proof Hs as (_ & _ & _ & _ & _ & _ & _ & Hgot). fold n in Hgot.
  destruct Hl as [[-> Hlen]|[k Hk]].
  - (* a new chain *)
    destruct (new_chain C Hok r0 c0 me them ks Hgen Hnd Hme Hthem (sr_state rec) p i pt m ek Hwf Gek Hs Hm Hlen) as (Hno & Hfar & Hnear).
    assert (forall j, (S n, j) ∉ p_got p) as Hng by (intros j ?%Hgot; lia).
    rewrite bool_decide_eq_false_2 by apply Hng. rewrite next_of_none by done. rewrite N.add_0_l.
    destruct (N.ltb_spec 2000 i) as [Hi|Hi].
    + destruct (p_alone p) eqn:Eal; [|done]. split; [done|].
      destruct (record_err rec m w EInvalidMessage (Hfar Hi)) as (w1 & -> & _); [right; congruence|]. eauto.
    + destruct (Hnear Hi) as (s' & Hdec & Hpend & Hbase & Hs').
      destruct (record_ok rec m w pt s' Hdec) as (w1 & -> & Hsame & Hpos).
      rewrite (proj2 (Nat.ltb_lt n (S n))) by lia. cbn [fst snd].
      eexists. split; [done|]. split; [|intros _; by apply Hpos].
      eapply (stored_drel _ w w1 rec s'); try done.
      * by eapply decryptPure_wf.
      * intros dt Hdt. destruct (Hin dt Hdt). split; [by rewrite Hbase|done].
  - (* a chain that is there *)
    assert (l ∈ kept n) as Hkept by (apply kept_elem; split; [eauto|lia]).
    destruct (old_chain C Hok r0 c0 me them ks Hgen Hnd Hme Hthem (sr_state rec) p l i pt m ek Hs Hm Hkept) as (Hdup & Hfar & Hnew).
    destruct (bool_decide_reflect ((l, i) ∈ p_got p)) as [Hg|Hg].
    + split; [done|]. destruct (record_err rec m w EDuplicateMessage (Hdup Hg)) as (w1 & -> & _); [by left|]. eauto.
    + destruct (N.ltb_spec (next_of l (p_got p) + 2000) i) as [Hi|Hi].
      * destruct (p_alone p) eqn:Eal; [|done]. split; [done|].
        destruct (record_err rec m w EInvalidMessage (Hfar Hi)) as (w1 & -> & _); [right; congruence|]. eauto.
      * destruct (Hnew Hg Hi) as (c' & j & Hj & Hdec & Hs').
        destruct (record_ok rec m w pt _ Hdec) as (w1 & -> & Hsame & _).
        rewrite (proj2 (Nat.ltb_ge n l)) by lia. cbn [fst snd].
        eexists. split; [done|]. split; [|lia].
        eapply (stored_drel _ w w1 rec _ (Party n (p_sent p) ((l, i) :: p_got p) (p_alone p))); try done.
        by eapply decryptPure_wf.
Qed.

Lemma drel_trusted ks w p k : trusts w r them -> k = them -> drel ks w p -> drel ks (w_set_trusted (<[r := k]> (w_trusted w)) w) p.
Proof using.
  intros Ht -> (rec & H1 & H2 & H3 & H4 & H5). exists rec. split_and!; try done.
  intros dt Hdt. destruct (H5 dt Hdt). split; [done|]. right. cbn. by rewrite lookup_insert.
Qed.

(** A message on the wire. *)
Lemma recv ks w p l i pt x :
  Forall (genuine C) ks -> NoDup (kp_pub <$> ks) -> drel ks w p -> wrel ks inn them me x (l, i, pt) ->
  arrives ks (p_turn p) l ->
  match ireceive (l, i, pt) p with
  | (SReceived q, p') => exists w', run (receive C r d x) w = (Ok q, w') /\
      drel (if (p_turn p <? l)%nat then ks ++ [kp_at C w (w_pos w)] else ks) w' p' /\
      ((p_turn p < l)%nat -> w_pos w' = S (w_pos w))
  | (SRaised ex, p') => p' = p /\ exists w', run (receive C r d x) w = (Err ex, w') /\ drel ks w' p
  | (SUnknown, p') => p' = p /\ forall ex w', run (receive C r d x) w = (Err ex, w') -> drel ks w' p
  | _ => False
  end.
Proof using Hok Hme Hthem.
  intros Hgen Hnd Hd (m & Hm & Hx) Hl.
  assert (exists w0, run (receive C r d x) w = run (decryptMsg C r d m) w0 /\ drel ks w0 p /\ w_pos w0 = w_pos w /\
    kp_at C w0 (w_pos w0) = kp_at C w (w_pos w)) as (w0 & -> & Hd0 & Hpos & Hkp).
  { unfold receive. destruct x as [[] bs]; cbn [fst snd] in *.
    - destruct Hx as (dt & q & Hdt & Hq & <- & Hv & Hb & Hi & _).
      rewrite run_bind, run_lift, Hq. pose proof Hd as (rec & Hrec & _ & _ & _ & Hin).
      destruct (Hin dt Hdt) as [Hbase Htr].
      eexists. split; [|split; [by apply (drel_trusted ks w p (pIdentityKey q))|done]].
      apply (pkmsg_belongs C) with rec; [done| |by rewrite Hi].
      exists (sr_state rec). split; [by left|]. rewrite Hv, Hb.
      destruct Hd as (rec' & Hrec' & Hs & _). rewrite Hrec in Hrec'. injection Hrec' as <-.
      split; [by apply (srel_version C r0 c0 me them ks _ p)|done].
    - subst bs.
      assert (whisper_parse (wSerialized m) = Ok m) as Hp by (by destruct Hm as (_ & _ & _ & _ & _ & _ & ?)).
      rewrite run_bind, run_lift, Hp. exists w. done. }
  pose proof (recv_msg ks w0 p l i pt m Hgen Hnd Hd0 Hm Hl) as H. rewrite Hkp, Hpos in H.
  assert (forall ex w', run (decryptMsg C r d m) w0 = (Err ex, w') -> drel ks w' p) as Herr.
  { intros ex w' He%decryptMsg_err. by eapply drel_unchanged. }
  destruct (ireceive (l, i, pt) p) as [[| |q|ex|] p']; try done.
  - destruct H as (-> & w' & Hw'). split; [done|]. exists w'. split; [done|]. by eapply Herr.
Qed.
End device.
End conv.
