(** Properties of every receiving chain of one peer device's session, kept by the calls. *)
From Verif Require Import PyBase Wire Protos ProtoFacts Crypto Ecc Kdf Messages State Prog Ratchet Builder Cipher Groups Helper.
From Verif Require Import ProgFacts StateFacts UtilFacts HelperFacts MsgFacts CipherFacts DecryptFacts SpecSession SessionProofs LockoutProofs SpecApi SpecKeys SpecEncrypt.
From Verif Require Import InvFacts HistoryProofs ArchiveProofs EncryptProofs SpecIso IsoProofs FreshProofs.

(** ** Two invariants at once, for one peer device *)

Lemma pspec_both {A} (L1 : _ -> Prop) (P1 : _ -> Prop) (L2 : _ -> Prop) (P2 : _ -> Prop) (p : prog A) Q1 Q2 :
  pspec L1 P1 p Q1 -> pspec (fun x => L1 x /\ L2 x) P2 p Q2 ->
  pspec (fun x => L1 x /\ L2 x) (fun x => P1 x /\ P2 x) p (fun a => Q1 a /\ Q2 a).
Proof.
  induction p as [a|e|T c k IH]; [done..|]. intros [Hc1 Hk1] [Hc2 Hk2]. split; [by destruct c|].
  intros x Hx. apply IH; [|by apply Hk2]. apply Hk1. destruct c; try done. destruct x; [by destruct Hx|done].
Qed.

Section peer.
Context (r d : Z) (L P : sessionRecord -> Prop).
Context (Pwf : forall rec, P rec -> rec_wf rec) (Pfresh : forall f s l, P (SessionRecord f s l) -> L (SessionRecord false s l)).
Definition peer_ok (w : world) : Prop := forall rec, session_at w r d = Ok rec -> L rec.

Lemma peer_step {R} (c : call R) w :
  of_peer r d R c -> peer_ok w -> call_ok P c -> resp_ok L c (step_call c w).1 /\ peer_ok (step_call c w).2.
Proof using Pwf Pfresh.
  intros Ho Hw Hc. destruct c; cbn [resp_ok step_call fst snd]; try (split; done).
  - split; [|done]. injection Ho as -> ->.
    change (match session_at w r d with Ok rec => L rec | Err _ => True end).
    destruct (session_at w r d) eqn:E; [by apply Hw|done].
  - split; [done|]. injection Ho as -> ->. intros rec'. unfold session_at. cbn [w_set_sessions w_sessions].
    rewrite lookup_insert, StateFacts.sr_roundtrip by (by apply Pwf). intros [= <-].
    match goal with rec : sessionRecord |- _ => destruct rec as [f s l] end. by eapply Pfresh.
Qed.
Lemma peer_run {A} (p : prog A) Q w : confined (of_peer r d) p -> pspec L P p Q -> peer_ok w -> peer_ok (run p w).2.
Proof using Pwf Pfresh.
  revert w. induction p as [a|e|R c k IH]; intros w Ho Hp Hw; [done..|].
  destruct Hp as [Hc Hk], Ho as [Ho Hok]. destruct (peer_step c w Ho Hw Hc) as [Hr Hw'].
  cbn [run]. destruct (step_call c w) as [x w']. apply IH; [done|by apply Hk|done].
Qed.
Lemma peer_crash {A} n (p : prog A) Q w :
  confined (of_peer r d) p -> pspec L P p Q -> peer_ok w -> peer_ok (run_crash n p w).2.
Proof using Pwf Pfresh.
  revert n w. induction p as [a|e|R c k IH]; intros n w Ho Hp Hw; [done..|].
  destruct Hp as [Hc Hk], Ho as [Ho Hok]. destruct n as [|n]; [done|].
  destruct (peer_step c w Ho Hw Hc) as [Hr Hw'].
  cbn [run_crash]. destruct (step_call c w) as [x w']. apply IH; [done|by apply Hk|done].
Qed.
End peer.

(** Calls that do not store the session of the peer device. *)
Section away.
Context (r d : Z) (P : forall R, call R -> Prop).
Context (HP : forall R (c : call R), P R c -> match c with CStoreSession r' d' _ => (r', d') <> (r, d) | _ => True end).
Lemma away_step {R} (c : call R) w : P R c -> session_at (step_call c w).2 r d = session_at w r d.
Proof using HP.
  intros Hc%HP. destruct c; try done. unfold session_at. cbn [step_call snd w_sessions w_set_sessions].
  by rewrite lookup_insert_ne.
Qed.
Lemma away_run {A} (p : prog A) w : confined P p -> session_at (run p w).2 r d = session_at w r d.
Proof using HP.
  revert w. induction p as [a|e|R c k IH]; intros w; [done..|]. intros [Hc Hk]. cbn [run].
  pose proof (away_step c w Hc) as H. destruct (step_call c w) as [x w']. cbn [snd] in H. rewrite <- H. by apply IH.
Qed.
Lemma away_crash {A} n (p : prog A) w : confined P p -> session_at (run_crash n p w).2 r d = session_at w r d.
Proof using HP.
  revert n w. induction p as [a|e|R c k IH]; intros n w; [done..|]. intros [Hc Hk]. destruct n as [|n]; [done|]. cbn [run_crash].
  pose proof (away_step c w Hc) as H. destruct (step_call c w) as [x w']. cbn [snd] in H. rewrite <- H. by apply IH.
Qed.
End away.

(** ** A property of all receiving chains *)

Section chains.
Context (C : crypto) (J : ch_s -> Prop) (fits : bytes -> Prop).
Context (Jtake : forall kdf c i mk c', J c -> chainTake C kdf c i = Ok (mk, c') -> J c').
Context (Jnew : forall key ck, length key = 32 -> fits key -> J (newChain key ck)).

Definition sJ (s : ss_s) : Prop := Forall J (ss_receiverChains s).
Definition rJ (rec : sessionRecord) : Prop := Forall sJ (sr_states rec).

Lemma sJ_open s m ek pt s' :
  sJ s -> decryptPure C s m ek = Ok (pt, s') ->
  (find_chain (wRatchetKey m) (ss_receiverChains s) 0 = Ok None -> length (wRatchetKey m) = 32 -> fits (wRatchetKey m)) -> sJ s'.
Proof using Jtake Jnew.
  intros Hs (Hsc & Hv & kdf & c & j & s1 & c' & Hkdf & Hstep & Hf & Ho & ->)%decryptPure_ok_inv Hno.
  destruct (openWith_inv C _ _ _ _ _ _ Ho) as (mk & Hmk).
  unfold sJ. cbn [ss_receiverChains st_clearUnacknowledgedPreKeyMessage ss_set_pendingPreKey st_putReceiverChain ss_set_receiverChains].
  assert (sJ s1) as Hs1.
  { apply chainStep_inv in Hstep as (kdf' & c0 & j' & _ & Hf' & _ & [->|(Hn & Hk & our & x & y & _ & _ & _ & Hc0 & ->)]); [done|].
    unfold sJ. cbn [steppedState ss_receiverChains ss_set_senderChain ss_set_previousCounter ss_set_receiverChains ss_set_rootKey].
    assert (Forall J (ss_receiverChains s ++ [newChain (wRatchetKey m) x.2])) as H.
    { apply Forall_app. split; [done|]. apply Forall_singleton. apply Jnew; auto. }
    unfold trimChains. case_match; [by apply Forall_drop|done]. }
  apply Forall_insert; [done|]. eapply Jtake; [|exact Hmk].
  eapply (Forall_lookup_1 _ _ _ _ Hs1). by eapply find_chain_lookup.
Qed.

Lemma rJ_set rec s : rJ rec -> sJ s -> rJ (sr_setState s rec).
Proof. intros [_ H]%Forall_cons Hs. by constructor. Qed.
Lemma rJ_current rec : rJ rec -> sJ (sr_state rec).
Proof. by intros [H _]%Forall_cons. Qed.
Lemma rJ_promote rec s : rJ rec -> sJ s -> rJ (sr_promoteState s rec).
Proof.
  intros H Hs. constructor; [done|]. unfold sr_promoteState. cbn [sr_previous].
  change (sr_state rec :: sr_previous rec) with (sr_states rec). case_match; [by apply Forall_take|done].
Qed.
Lemma sJ_empty s : ss_receiverChains s = [] -> sJ s.
Proof. unfold sJ. intros ->. constructor. Qed.
Lemma rJ_archive rec : rJ rec -> rJ (archiveUnlessFresh rec).
Proof. intros H. unfold archiveUnlessFresh. destruct (sr_fresh rec); [done|]. apply rJ_promote; [done|by apply sJ_empty]. Qed.
Lemma rJ_after rec j s : rJ rec -> sJ s -> rJ (record_after j s rec).
Proof.
  intros H Hs. destruct j as [|j]; cbn [record_after]; [by apply rJ_set|]. apply rJ_promote; [|done].
  apply Forall_cons in H as [H1 H2]. constructor; [done|]. cbn [sr_previous]. by apply Forall_delete.
Qed.
Lemma rJ_decrypted rec m pt rec' : rJ rec -> decrypted C rec m pt rec' -> fits (wRatchetKey m) -> rJ rec'.
Proof using Jtake Jnew.
  intros H (j & s & ek & s' & Hj & Hd & ->) Hne. apply rJ_after; [done|].
  eapply sJ_open; [by eapply (Forall_lookup_1 _ _ _ _ H)|done|done].
Qed.

(** ** The calls *)

Definition L2 (rec : sessionRecord) : Prop := loaded_inv rec /\ rJ rec.
Notation sp p Q := (pspec L2 rJ p Q).
Notation top := (fun _ => True).
Ltac sdo c := eapply pspec_bind; [by apply (pspec_do L2 rJ c)|].

Lemma sp_decryptMsg r d m : fits (wRatchetKey m) -> sp (decryptMsg C r d m) top.
Proof using Jtake Jnew.
  intros Hne. sdo (CContainsSession r d). intros [] _; [|done].
  eapply pspec_bind; [apply pspec_load|]. intros rec Hrec.
  eapply pspec_bind; [apply pspec_decryptWithSessionRecord|]. intros x Hx.
  eapply pspec_bind; [apply pspec_store; exact (rJ_decrypted _ _ _ _ (proj2 Hrec) Hx Hne)|]. done.
Qed.

Lemma sp_encrypt r d pt : sp (encrypt C r d pt) top.
Proof using Jtake Jnew.
  eapply pspec_bind; [apply pspec_load|]. intros rec [_ Hrec].
  eapply pspec_bind; [apply pspec_lift_eq|]. intros [ct s] Hs.
  eapply pspec_bind; [apply pspec_store|done]. cbn [fst snd].
  unfold encryptWithState in Hs. do 7 (apply bind_ok_inv in Hs as (? & _ & Hs)).
  apply bind_ok_inv in Hs as (s' & Hs' & [= _ <-]). apply rJ_set; [done|].
  apply bind_ok_inv in Hs' as (? & _ & [= <-]). by apply rJ_current.
Qed.

Lemma sp_asAlice s a b c e f g : ss_receiverChains s = [] -> fits f -> sp (initializeSessionAsAlice C s a b c e f g) sJ.
Proof using Jtake Jnew.
  intros Hs Hne. unfold initializeSessionAsAlice.
  eapply pspec_bind; [apply pspec_readonly, readonly_generateKeyPair|]. intros ek _.
  apply pspec_lift. intros s' H. do 4 (apply bind_ok_inv in H as (? & _ & H)).
  destruct (calculateDerivedKeys C _) as [rk ck].
  apply bind_ok_inv in H as (? & Hlen%rk_createChain_inv & H). apply bind_ok_inv in H as (s1 & H1 & H). apply bind_ok_inv in H as (s2 & H2 & [= <-]).
  apply bind_ok_inv in H1 as (z & [-> _]%ch_putChainKey_inv & [= <-]). apply bind_ok_inv in H2 as (? & _ & [= <-]).
  unfold sJ. cbn [st_setRootKey ss_set_rootKey ss_set_senderChain ss_set_receiverChains ss_receiverChains
    st_setLocalIdentityKey st_setRemoteIdentityKey st_setSessionVersion ss_set_localIdentity ss_set_remoteIdentity ss_set_version].
  rewrite Hs. cbn [app length Nat.ltb Nat.leb]. apply Forall_singleton. apply (Jnew f ck); [apply Hlen|done].
Qed.
Lemma sp_initializeSession s a b c e f g : ss_receiverChains s = [] -> fits f -> sp (initializeSession C s a b c e f g) sJ.
Proof using Jtake Jnew.
  intros Hs Hne. unfold initializeSession. eapply pspec_bind; [apply pspec_lift_eq|]. intros [] _; [by apply sp_asAlice|].
  apply pspec_lift. intros s' [Hs' _]%bob_chains. apply sJ_empty. by rewrite Hs'.
Qed.

Lemma archived_chains rec : loaded_inv rec -> ss_receiverChains (sr_state (archiveUnlessFresh rec)) = [].
Proof. intros H. by rewrite archived_new. Qed.

Lemma sp_processV3 rec m : L2 rec -> sp (processV3 C rec m) (fun x => rJ x.1).
Proof using Jtake Jnew.
  intros [Hrec Hsp]. unfold processV3. destruct (sr_hasSessionState _ _ _); [done|].
  sdo (CLoadSignedPreKey (pSignedPreKeyId m)). intros spr _.
  eapply pspec_bind; [apply pspec_lift_eq|]. intros spk _.
  sdo CGetIdentityKeyPair. intros id _.
  eapply (pspec_bind _ _ _ _ top).
  { destruct (pPreKeyId m) as [i|]; [|done]. sdo (CLoadPreKey i). intros pr _. eapply pspec_bind; [apply pspec_lift_eq|]. done. }
  intros otpk _. pose proof (archived_chains _ Hrec) as Hnew.
  apply rJ_archive in Hsp. set (rec' := archiveUnlessFresh rec) in *.
  eapply pspec_bind; [apply pspec_lift_eq|]. intros s Hs. cbn beta in Hs. apply bob_chains in Hs as [Hs _]. rewrite Hnew in Hs.
  sdo CGetLocalRegistrationId. intros reg _.
  eapply pspec_bind; [apply pspec_lift_eq|]. intros s1 Hs1. cbn beta in Hs1.
  eapply pspec_bind; [apply pspec_lift_eq|]. intros s2 Hs2. cbn beta in Hs2. cbn [fst].
  apply rJ_set; [done|]. apply sJ_empty.
  apply bind_ok_inv in Hs2 as (? & _ & [= <-]). by apply bind_ok_inv in Hs1 as (? & _ & [= <-]).
Qed.

Lemma sp_decryptPkmsg r d m : fits (wRatchetKey (pMessage m)) -> sp (decryptPkmsg C r d m) top.
Proof using Jtake Jnew.
  intros Hne. eapply pspec_bind; [apply pspec_load|]. intros rec Hrec.
  eapply (pspec_bind _ _ _ _ (fun x => rJ x.1)).
  { unfold builder_process. sdo (CIsTrusted r (pIdentityKey m)). intros [] _; [|done].
    eapply pspec_bind; [by apply sp_processV3|]. intros x Hx.
    sdo (CSaveIdentity r (pIdentityKey m)). done. }
  intros x Hx. eapply pspec_bind; [apply pspec_decryptWithSessionRecord|]. intros y Hy.
  eapply pspec_bind; [apply pspec_store; exact (rJ_decrypted _ _ _ _ Hx Hy Hne)|]. intros _ _.
  destruct (x.2) as [i|]; [|done]. sdo (CRemovePreKey i). done.
Qed.

Lemma sp_bundle r d b : (forall k, bu_signedPreKey b = Some k -> fits k) -> sp (processPreKeyBundle C r d b) top.
Proof using Jtake Jnew.
  intros Hne. unfold processPreKeyBundle. sdo (CIsTrusted r (bu_identityKey b)). intros [] _; [|done].
  destruct (bu_signedPreKey b) as [spk|]; [|done].
  eapply pspec_bind; [apply pspec_lift_eq|]. intros [] _; [|done].
  eapply pspec_bind; [apply pspec_load|]. intros rec [Hrec Hsp].
  eapply pspec_bind; [apply pspec_readonly, readonly_generateKeyPair|]. intros base _.
  sdo CGetIdentityKeyPair. intros id _.
  pose proof (archived_chains _ Hrec) as Hnew. apply rJ_archive in Hsp. set (rec' := archiveUnlessFresh rec) in *.
  eapply pspec_bind; [apply sp_asAlice; [done|by apply Hne]|]. intros s Hs.
  eapply pspec_bind; [apply pspec_lift_eq|]. intros s1 Hs1. cbn beta in Hs1.
  sdo CGetLocalRegistrationId. intros reg _.
  eapply pspec_bind; [apply pspec_lift_eq|]. intros s2 Hs2. cbn beta in Hs2.
  eapply pspec_bind; [apply pspec_lift_eq|]. intros s3 Hs3. cbn beta in Hs3.
  eapply pspec_bind; [apply pspec_store|intros _ _; by apply (pspec_do L2 rJ (CSaveIdentity _ _))].
  apply rJ_set; [done|].
  apply bind_ok_inv in Hs3 as (? & _ & [= <-]). apply bind_ok_inv in Hs2 as (? & _ & [= <-]).
  apply bind_ok_inv in Hs1 as (? & _ & Hs1). by apply bind_ok_inv in Hs1 as (? & _ & [= <-]).
Qed.

Lemma sp_kx r d m : fits (xRatchetKey m) -> sp (processKeyExchangeMessage C r d m) top.
Proof using Jtake Jnew.
  intros Hne. unfold processKeyExchangeMessage. sdo (CIsTrusted r (xIdentityKey m)). intros [] _; [|done].
  destruct (kx_isInitiate m).
  - eapply (pspec_bind _ _ _ _ top); [|done]. unfold processInitiate. eapply pspec_bind; [apply pspec_load|]. intros rec [Hrec Hsp].
    eapply pspec_bind; [apply pspec_lift_eq|]. intros [] _; [|done].
    eapply (pspec_bind _ _ _ _ top); [apply pspec_readonly; apply readonly_if; ro|].
    intros [[[id base] rat] fl] _. pose proof (archived_chains _ Hrec) as Hnew.
    apply rJ_archive in Hsp. set (rec' := archiveUnlessFresh rec) in *.
    eapply pspec_bind; [by apply sp_initializeSession|]. intros s Hs.
    eapply pspec_bind; [apply pspec_store; by apply rJ_set|]. intros _ _.
    sdo (CSaveIdentity r (xIdentityKey m)). intros _ _.
    eapply pspec_bind; [apply pspec_readonly, readonly_calculateSignature|]. intros sig _. by apply pspec_lift.
  - eapply (pspec_bind _ _ _ _ top); [|done]. unfold processResponse. eapply pspec_bind; [apply pspec_load|]. intros rec [Hrec Hsp].
    destruct (_ || _); [by destruct (kx_isResponseForSimultaneousInitiate m)|].
    do 3 (eapply pspec_bind; [apply pspec_lift_eq|]; intros ? _). pose proof (archived_chains _ Hrec) as Hnew.
    apply rJ_archive in Hsp. set (rec' := archiveUnlessFresh rec) in *.
    eapply pspec_bind; [by apply sp_initializeSession|]. intros s Hs.
    eapply pspec_bind; [apply pspec_lift_eq|]. intros [] _; [|done].
    eapply pspec_bind; [apply pspec_store; by apply rJ_set|]. intros _ _.
    by apply (pspec_do L2 rJ (CSaveIdentity _ _)).
Qed.

Lemma sp_initKx r d : sp (processInitKeyExchangeMessage C r d) top.
Proof using Jtake Jnew.
  unfold processInitKeyExchangeMessage. apply pspec_rethrow.
  eapply pspec_bind; [by apply (pspec_do L2 rJ (CRandrange _))|]. intros q _.
  eapply pspec_bind; [apply pspec_readonly, readonly_generateKeyPair|]. intros base _.
  eapply pspec_bind; [apply pspec_readonly, readonly_generateKeyPair|]. intros rat _.
  sdo CGetIdentityKeyPair. intros id _.
  eapply pspec_bind; [apply pspec_readonly, readonly_calculateSignature|]. intros sig _.
  eapply pspec_bind; [apply pspec_load|]. intros rec [_ Hrec].
  eapply pspec_bind; [apply pspec_lift_eq|]. intros s Hs. cbn beta in Hs.
  eapply pspec_bind; [apply pspec_store|intros _ _; by apply pspec_lift].
  apply rJ_set; [done|]. apply bind_ok_inv in Hs as (? & _ & [= <-]). by apply rJ_current.
Qed.


Lemma peer_J {A} (p : prog A) r d w :
  confined (of_peer r d) p -> pspec loaded_inv record_inv p top -> sp p top -> stored_ok loaded_inv w ->
  (forall rec, session_at w r d = Ok rec -> rJ rec) ->
  (forall rec, session_at (run p w).2 r d = Ok rec -> rJ rec) /\ forall k rec, session_at (run_crash k p w).2 r d = Ok rec -> rJ rec.
Proof.
  intros Hp H1 H2 Hw Hg.
  assert (forall rec, (record_inv rec /\ rJ rec) -> rec_wf rec) as G1 by (by intros rec [[? _] _]).
  assert (forall f s l, (record_inv (SessionRecord f s l) /\ rJ (SessionRecord f s l)) -> L2 (SessionRecord false s l)) as G2.
  { intros f s l [Ha Hb]. split; [|done]. by eapply record_inv_fresh. }
  pose proof (pspec_both _ _ _ _ _ _ _ H1 H2) as H.
  assert (peer_ok r d L2 w) as Hl by (intros rec Hrec; split; [by eapply Hw|by apply Hg]).
  split; [intros rec Hrec|intros k rec Hrec].
  - by apply (peer_run r d L2 _ G1 G2 p _ w Hp H Hl rec).
  - by apply (peer_crash r d L2 _ G1 G2 k p _ w Hp H Hl rec).
Qed.
End chains.

(** ** Every receiving chain has a ratchet key of 32 bytes *)

Definition exact_chain (c : ch_s) : Prop := exists k, length k = 32 /\ ch_ratchetKey c = Some (x05 :: k).

Section exactness.
Context (C : crypto).
Lemma exact_take kdf c i mk c' : exact_chain c -> chainTake C kdf c i = Ok (mk, c') -> exact_chain c'.
Proof.
  intros (k & Hl & Hk) H. exists k. split; [done|]. rewrite <- Hk. unfold chainTake in H. destruct (_ <? _)%N.
  - destruct (take_messageKey _ _) as [[]|]; [|done]. by injection H as _ <-.
  - destruct (_ <? _)%N; [done|]. destruct (_ <? _)%N; [|done]. by injection H as _ <-.
Qed.
Lemma exact_new key ck : length key = 32 -> True -> exact_chain (newChain key ck).
Proof. intros H _. by exists key. Qed.

Notation xspec p := (pspec loaded_inv record_inv p (fun _ => True)).
Lemma exact_api c : pspec (L2 exact_chain) (rJ exact_chain) (api C c) (fun _ => True).
Proof.
  pose proof exact_take as T. pose proof exact_new as N.
  destruct c; cbn [api]; try (eapply pspec_bind; [|done]).
  - by eapply (sp_bundle C exact_chain (fun _ => True)).
  - by eapply (sp_initKx C exact_chain (fun _ => True)).
  - by eapply (sp_kx C exact_chain (fun _ => True)).
  - by eapply (sp_encrypt C exact_chain (fun _ => True)).
  - by eapply (sp_decryptMsg C exact_chain (fun _ => True)).
  - by eapply (sp_decryptPkmsg C exact_chain (fun _ => True)).
  - apply pspec_nostore, nostore_group_create.
  - apply pspec_nostore, nostore_group_process.
  - apply pspec_nostore, nostore_group_encrypt.
  - apply pspec_nostore, nostore_group_decrypt.
Qed.
Lemma reachable_exact w : reachable C w -> stored_ok (L2 exact_chain) w.
Proof.
  assert (L2 exact_chain sr_new) as G0.
  { split; [apply loaded_inv_new|]. constructor; [|constructor]. by apply sJ_empty. }
  assert (forall rec, (record_inv rec /\ rJ exact_chain rec) -> rec_wf rec) as G1 by (by intros rec [[? _] _]).
  assert (forall f s l, (record_inv (SessionRecord f s l) /\ rJ exact_chain (SessionRecord f s l)) -> L2 exact_chain (SessionRecord false s l)) as G2.
  { intros f s l [Ha Hb]. split; [|done]. by eapply record_inv_fresh. }
  intros (w0 & ps & H0 & H). apply (reaches_ok _ _ G0 G1 G2) in H as [H _]; [done|done|]. intros c.
  eapply pspec_mono; [apply (pspec_both _ _ _ _ _ _ _ (spec_api C c) (exact_api c))|done].
Qed.

Lemma exact_none key s : sJ exact_chain s -> length key = 32 ->
  (find_chain key (ss_receiverChains s) 0 = Ok None <-> forall c, c ∈ ss_receiverChains s -> ch_ratchetKey c <> Some (x05 :: key)).
Proof.
  unfold sJ. rewrite Forall_forall. intros Hx Hl. split.
  - intros Hn c Hc Hk. apply find_chain_none in Hn. rewrite Forall_forall in Hn. destruct (Hn _ Hc) as (k & Hk1 & Hk2).
    unfold chain_pub in Hk1. rewrite Hk, default_Some in Hk1. change (x05 :: ?k) with (pub_serialize k) in Hk1.
    rewrite decodePoint_serialize in Hk1 by lia. congruence.
  - intros H. apply find_chain_none. apply Forall_forall. intros c Hc. destruct (Hx c Hc) as (k & Hkl & Hk). exists k.
    split; [|intros ->; by apply (H c)]. unfold chain_pub. rewrite Hk, default_Some. apply decodePoint_serialize. lia.
Qed.
End exactness.
