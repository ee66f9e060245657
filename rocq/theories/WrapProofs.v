(** The wrapper of a prekey message is not authenticated (C83). *)
From Verif Require Import PyBase Wire Protos ProtoFacts Crypto Ecc Kdf Messages State Prog Ratchet Builder Cipher Groups Helper.
From Verif Require Import ProgFacts StateFacts UtilFacts HelperFacts MsgFacts CipherFacts DecryptFacts SpecUtil SpecSession SessionProofs LockoutProofs SpecWrap.

(** Any such message can be sent. *)
Lemma rewrapped bs m rid pid spid ident :
  prekey_parse bs = Ok m -> (rid < 2 ^ 32)%N -> (pid < 2 ^ 32)%N -> (spid < 2 ^ 32)%N -> length ident <= 32 ->
  exists bs' m', prekey_parse bs' = Ok m' /\ pk_with rid (Some pid) spid ident m m'.
Proof.
  intros (_ & Hv & Hb & _ & _ & _ & _ & Hw)%prekey_parse_inv Hr Hp Hs Hi.
  pose proof (prekey_create_ok 3 rid (Some pid) spid (pBaseKey m) ident (pMessage m) Hr Hs Hp) as Hc.
  match type of Hc with _ = Ok ?x => set (m' := x) in * end.
  exists (pSerialized m'), m'. split; [by eapply (prekey_roundtrip rid pid spid (pBaseKey m) ident (pMessage m))|].
  by unfold pk_with.
Qed.

Section wrap.
Context (C : crypto).

(** For a known session only version, base key, identity key and the message inside count. *)
Lemma known_wrapper w r d rec m m' rid pid spid :
  session_at w r d = Ok rec -> belongs rec (pVersion m) (pBaseKey m) -> pk_with rid pid spid (pIdentityKey m) m m' ->
  run (decryptPkmsg C r d m') w = run (decryptPkmsg C r d m) w.
Proof.
  intros Hrec Hb%hasSessionState_spec (E1 & E2 & E3 & E4 & _). unfold decryptPkmsg, builder_process, processV3.
  rewrite !run_bind, !run_do, !load_session, Hrec, E1, E2, E3, E4. by rewrite Hb.
Qed.
Lemma known_unauthenticated w r d rec bs m pt w' rid pid spid :
  prekey_parse bs = Ok m -> run (decryptPkmsg C r d m) w = (Ok pt, w') ->
  session_at w r d = Ok rec -> belongs rec (pVersion m) (pBaseKey m) ->
  (rid < 2 ^ 32)%N -> (pid < 2 ^ 32)%N -> (spid < 2 ^ 32)%N ->
  exists bs' m', prekey_parse bs' = Ok m' /\ pk_with rid (Some pid) spid (pIdentityKey m) m m' /\
    run (decryptPkmsg C r d m') w = (Ok pt, w').
Proof.
  intros Hp Hrun Hrec Hb H1 H2 H3. pose proof (prekey_parse_inv _ _ Hp) as (_ & _ & _ & Hi & _).
  destruct (rewrapped _ _ rid pid spid (pIdentityKey m) Hp H1 H2 H3 Hi) as (bs' & m' & Hp' & Hm').
  exists bs', m'. split_and!; [done|done|]. rewrite <- Hrun. by eapply known_wrapper.
Qed.

Context (Hok : crypto_ok C).

(** The identity key of the wrapper is believed and saved. *)
Lemma identity_unauthenticated w r d rec bs m pt w' k :
  prekey_parse bs = Ok m -> run (decryptPkmsg C r d m) w = (Ok pt, w') ->
  session_at w r d = Ok rec -> belongs rec (pVersion m) (pBaseKey m) ->
  w_trusted w !! r = None -> length k <= 32 ->
  exists bs' m' w'', prekey_parse bs' = Ok m' /\ pk_with (pRegistrationId m) (pPreKeyId m) (pSignedPreKeyId m) k m m' /\
    run (decryptPkmsg C r d m') w = (Ok pt, w'') /\ w_trusted w'' !! r = Some k.
Proof using Hok.
  intros Hp Hrun Hrec Hb Ht Hk. pose proof (prekey_parse_inv _ _ Hp) as (_ & _ & _ & _ & Hr & Hs & (pid & Epid & Hpid) & _).
  destruct (rewrapped _ _ _ pid _ k Hp Hr Hpid Hs Hk) as (bs' & m' & Hp' & Hm'). rewrite <- Epid in Hm'.
  exists bs', m'. pose proof Hm' as (E1 & E2 & E3 & E4 & _). apply hasSessionState_spec in Hb.
  pose proof (decryptPkmsg_ok C _ _ _ _ _ _ Hrun) as (rec0 & rec1 & used & w1 & rec2 & w2 & Hrec0 & _ & Hv3 & _ & Hdec & _).
  assert (rec0 = rec) as -> by congruence. unfold processV3 in Hv3. change (x05 :: pBaseKey m) with (pub_serialize (pBaseKey m)) in Hb.
  rewrite Hb in Hv3. injection Hv3 as <- <- <-.
  unfold decryptPkmsg, builder_process, processV3. rewrite run_bind, run_do, load_session, Hrec, run_bind, run_bind, run_do.
  rewrite trusted_true by (left; done). rewrite run_bind, E1, E2, Hb. cbn [run]. rewrite run_bind, run_do. cbn [step_call run fst snd].
  rewrite run_bind, E3, E4.
  match goal with |- context [run (decryptWithSessionRecord C rec (pMessage m)) ?a] => set (w3 := a) end.
  pose proof (run_record_verdict C Hok rec (pMessage m) w3) as V. rewrite <- (run_record_verdict C Hok rec (pMessage m) (w_set_trusted (<[r:=pIdentityKey m]> (w_trusted w)) w)) in V.
  rewrite Hdec in V. destruct (run_decryptWithSessionRecord C Hok rec (pMessage m) w3) as (v3 & Hsame & Hv3).
  assert ((run (decryptWithSessionRecord C rec (pMessage m)) w3).2 = v3) as Ev by (destruct Hv3 as [(? & ? & ? & _ & _ & _ & ->)|[_ ->]]; done).
  destruct (run (decryptWithSessionRecord C rec (pMessage m)) w3) as [[[a b]|e] v] eqn:E; cbn in V; [|done]. injection V as ->.
  rewrite run_bind, run_do. cbn [step_call run fst snd]. eexists. split_and!; [done|done|done|].
  cbn in Ev. subst v3. cbn. destruct Hsame as (_ & _ & _ & Ht' & _). rewrite Ht'. cbn. by rewrite lookup_insert.
Qed.

(** ** The registration id *)

Definition reg (x : N) (s : ss_s) : ss_s := ss_set_remoteRegId (Some x) s.
Lemma reg_skip x n key : forall ck s,
  skipMessageKeys C n key ck (reg x s) = (fun y => (y.1, reg x y.2)) <$> skipMessageKeys C n key ck s.
Proof.
  induction n as [|n IH]; intros ck s; [done|]. cbn [skipMessageKeys]. unfold st_setMessageKeys, st_theReceiverChain, st_getReceiverChain.
  change (ss_receiverChains (reg x s)) with (ss_receiverChains s).
  destruct (find_chain key (ss_receiverChains s) 0) as [[[c j]|]|e]; [|done|done]. rewrite !bind_ok.
  destruct (set_u32 _); [|done]. rewrite !bind_ok. rewrite <- IH. done.
Qed.
Lemma reg_keys x s key ck n :
  getOrCreateMessageKeys C (reg x s) key ck n = (fun y => (y.1, reg x y.2)) <$> getOrCreateMessageKeys C s key ck n.
Proof.
  unfold getOrCreateMessageKeys. destruct (_ <? _)%N.
  - unfold st_hasMessageKeys, st_removeMessageKeys, st_theReceiverChain, st_getReceiverChain. change (ss_receiverChains (reg x s)) with (ss_receiverChains s).
    destruct (find_chain key (ss_receiverChains s) 0) as [[[c j]|]|e]; [|done|done]. rewrite !bind_ok.
    destruct (existsb _ _); [|done]. rewrite ?bind_ok. cbn [fst snd]. by destruct (take_messageKey _ _) as [[]|].
  - destruct (_ <? _)%N; [done|]. rewrite reg_skip. destruct (skipMessageKeys C _ key ck s) as [[ck' s']|e]; [|done].
    cbn [fmap res_fmap]. rewrite !bind_ok. cbn [fst snd]. unfold st_setReceiverChainKey, st_theReceiverChain, st_getReceiverChain.
    change (ss_receiverChains (reg x s')) with (ss_receiverChains s').
    destruct (find_chain key (ss_receiverChains s') 0) as [[[c j]|]|e]; [|done|done]. rewrite !bind_ok.
    by destruct (ch_putChainKey _ _).
Qed.
Lemma reg_step x s key ek : chainStep C (reg x s) key ek = (fun y => (y.1, reg x y.2)) <$> chainStep C s key ek.
Proof.
  unfold chainStep, st_hasReceiverChain, st_getReceiverChainKey, st_theReceiverChain, st_getReceiverChain.
  change (ss_receiverChains (reg x s)) with (ss_receiverChains s). change (st_getSessionVersion (reg x s)) with (st_getSessionVersion s).
  change (st_getRootKey (reg x s)) with (st_getRootKey s). change (st_getSenderRatchetKeyPair (reg x s)) with (st_getSenderRatchetKeyPair s).
  destruct (find_chain key (ss_receiverChains s) 0) as [[[c j]|]|e]; [| |done]; rewrite !bind_ok.
  - by destruct (hkdf_createFor _).
  - destruct (st_getRootKey s ≫= _) as [y|e]; [|done]. rewrite !bind_ok. destruct (rk_createChain _ _ _ _) as [z|e]; [|done]. rewrite !bind_ok.
    unfold st_addReceiverChain. destruct (ch_putChainKey _ _); [|done]. rewrite !bind_ok.
    unfold st_getSenderChainKey, st_setPreviousCounter, st_setSenderChain. unfold st_getSessionVersion, st_senderChain.
    cbn [ss_version ss_senderChain ss_set_receiverChains st_setRootKey ss_set_rootKey reg ss_set_remoteRegId ss_set_previousCounter].
    destruct (hkdf_createFor _); [|done]. rewrite !bind_ok. cbn [cIndex ch_getChainKey].
    destruct (set_u32 _); [|done]. rewrite !bind_ok. cbn [ss_senderChain ss_set_receiverChains st_setRootKey ss_set_rootKey reg ss_set_remoteRegId ss_set_previousCounter].
    by destruct (ch_putChainKey _ _).
Qed.
Lemma reg_verdict x s m : verdict C (reg x s) m = verdict C s m.
Proof.
  unfold verdict, decryptPure. change (st_hasSenderChain (reg x s)) with (st_hasSenderChain s).
  change (st_getSessionVersion (reg x s)) with (st_getSessionVersion s).
  destruct (negb _); [done|]. destruct (negb _); [done|]. rewrite reg_step. destruct (chainStep C s _ _) as [[ck s1]|e]; [|done].
  cbn [fmap res_fmap]. rewrite !bind_ok. cbn [fst snd]. rewrite reg_keys. destruct (getOrCreateMessageKeys C s1 _ _ _) as [[mk s2]|e]; [|done].
  cbn [fmap res_fmap]. rewrite !bind_ok. cbn [fst snd]. change (st_getRemoteIdentityKey (reg x s2)) with (st_getRemoteIdentityKey s2).
  change (st_getLocalIdentityKey (reg x s2)) with (st_getLocalIdentityKey s2).
  do 4 (match goal with |- context [?a ≫= _] => destruct a end; [|done]; rewrite !bind_ok). done.
Qed.

Definition pk_reg (rid : N) (m m' : preKeyWhisperMessage) : Prop :=
  pk_with rid (pPreKeyId m) (pSignedPreKeyId m) (pIdentityKey m) m m'.

Lemma processV3_reg rec m m' rid w rec1 used w1 :
  (rid < 2 ^ 32)%N -> pk_reg rid m m' -> run (processV3 C rec m) w = (Ok (rec1, used), w1) ->
  exists rec2, run (processV3 C rec m') w = (Ok (rec2, used), w1) /\
    (rec2 = rec1 \/ rec2 = sr_setState (reg rid (sr_state rec1)) rec1).
Proof.
  intros Hr (E1 & E2 & E3 & E4 & E5 & E6 & E7) H. unfold processV3 in *. rewrite E1, E2, E4, E5, E6, E7.
  destruct (sr_hasSessionState _ _ _). { exists rec1. injection H as <- <- <-. auto. }
  apply run_bind_ok in H as (spr & w2 & H2 & H). rewrite run_bind, H2.
  apply run_bind_ok in H as (kp & w3 & H3 & H). rewrite run_bind, H3.
  apply run_bind_ok in H as (id & w4 & H4 & H). rewrite run_bind, H4.
  apply run_bind_ok in H as (ot & w5 & H5 & H). rewrite run_bind, H5. cbv zeta in *.
  apply run_bind_ok in H as (s & w6 & H6 & H). rewrite run_bind, H6.
  apply run_bind_ok in H as (rg & w7 & H7 & H). rewrite run_bind, H7.
  apply run_bind_ok in H as (s1 & w8 & H8 & H). rewrite run_bind, H8.
  apply run_bind_ok in H as (s2 & w9 & H9 & H). rewrite run_bind.
  unfold st_setRemoteRegistrationId in *. rewrite run_lift in H9 |- *. rewrite set_u32_ok by done. rewrite bind_ok.
  destruct (set_u32 (pRegistrationId m)) as [v|]; [|done]. injection H9 as <- <-. cbn [run] in *.
  injection H as <- <- <-. eexists. split; [done|]. by right.
Qed.

Lemma registration_unauthenticated w r d bs m pt w' rid :
  prekey_parse bs = Ok m -> run (decryptPkmsg C r d m) w = (Ok pt, w') -> (rid < 2 ^ 32)%N ->
  exists bs' m' w'', prekey_parse bs' = Ok m' /\ pk_with rid (pPreKeyId m) (pSignedPreKeyId m) (pIdentityKey m) m m' /\
    run (decryptPkmsg C r d m') w = (Ok pt, w'').
Proof using Hok.
  intros Hp Hrun Hr. pose proof (prekey_parse_inv _ _ Hp) as (_ & _ & _ & Hi & _ & Hs & (pid & Epid & Hpid) & _).
  destruct (rewrapped _ _ rid pid _ (pIdentityKey m) Hp Hr Hpid Hs Hi) as (bs' & m' & Hp' & Hm'). rewrite <- Epid in Hm'.
  exists bs', m'. pose proof Hm' as (E1 & E2 & E3 & E4 & _).
  pose proof (decryptPkmsg_ok C _ _ _ _ _ _ Hrun) as (rec & rec1 & used & w1 & rec2 & w2 & Hrec & Ht & Hv3 & _ & Hdec & _).
  destruct (processV3_reg _ _ _ _ _ _ _ _ Hr Hm' Hv3) as (rec3 & Hv3' & Hrec3).
  unfold decryptPkmsg, builder_process. rewrite run_bind, run_do, load_session, Hrec, run_bind, run_bind, run_do, E4.
  rewrite trusted_true by done. rewrite run_bind, Hv3'. cbn [run]. rewrite run_bind, run_do. cbn [step_call run fst snd].
  rewrite run_bind, E3.
  match goal with |- context [run (decryptWithSessionRecord C rec3 (pMessage m)) ?a] => set (w3 := a) end.
  pose proof (run_record_verdict C Hok rec3 (pMessage m) w3) as V.
  assert (firstVerdict C (sr_states rec3) (pMessage m) = firstVerdict C (sr_states rec1) (pMessage m)) as Ev.
  { destruct Hrec3 as [->| ->]; [done|]. unfold sr_states. cbn [sr_setState sr_state sr_previous firstVerdict]. by rewrite reg_verdict. }
  rewrite Ev, <- (run_record_verdict C Hok rec1 (pMessage m) w3) in V. unfold w3 in V at 2. rewrite Hdec in V.
  destruct (run (decryptWithSessionRecord C rec3 (pMessage m)) w3) as [[[a b]|e] v] eqn:E; cbn in V; [|done]. injection V as ->.
  rewrite run_bind, run_do. cbn [step_call run fst snd].
  destruct used; [rewrite run_bind, run_do|]; eexists; split_and!; done.
Qed.
End wrap.
