(** Every state that can send has all the fields that sending and receiving read. *)
From Verif Require Import PyBase Wire Protos ProtoFacts Crypto Ecc Kdf Messages State Prog Ratchet Builder Cipher Groups Helper.
From Verif Require Import ProgFacts StateFacts UtilFacts HelperFacts MsgFacts CipherFacts DecryptFacts SpecSession SessionProofs LockoutProofs SpecApi SpecKeys SpecEncrypt.
From Verif Require Import InvFacts HistoryProofs ArchiveProofs EncryptProofs ChainInv.

(** A public key as it is stored. *)
Definition encoded (o : option bytes) : Prop := exists k, o = Some (x05 :: k).
(** A private key as it is stored. *)
Definition private (o : option bytes) : Prop := exists k, o = Some k /\ length k = 32.

Definition sender_set (s : ss_s) : Prop := forall c, ss_senderChain s = Some c ->
  encoded (ss_localIdentity s) /\ encoded (ss_remoteIdentity s) /\ encoded (ch_ratchetKey c) /\ private (ch_ratchetKeyPrivate c).
Definition prekey_set (s : ss_s) : Prop := forall p, ss_pendingPreKey s = Some p ->
  encoded (pp_baseKey p) /\ (0 <= default 0 (pp_signedPreKeyId p))%Z.
Definition exchange_set (s : ss_s) : Prop := forall p, ss_pendingKeyExchange s = Some p ->
  private (px_ratchetKeyPrivate p) /\ private (px_baseKeyPrivate p) /\ private (px_identityKeyPrivate p) /\
  encoded (px_ratchetKey p) /\ (exists k, px_baseKey p = Some (x05 :: k) /\ length k = 32) /\ encoded (px_identityKey p).
Definition setup (s : ss_s) : Prop := sender_set s /\ prekey_set s /\ exchange_set s.

Definition rS (rec : sessionRecord) : Prop := Forall setup (sr_states rec).
Definition LS (rec : sessionRecord) : Prop := loaded_inv rec /\ rS rec.

Lemma setup_new : setup st_new.
Proof. by split_and!. Qed.
Lemma rS_set rec s : rS rec -> setup s -> rS (sr_setState s rec).
Proof. intros [_ H]%Forall_cons Hs. by constructor. Qed.
Lemma rS_current rec : rS rec -> setup (sr_state rec).
Proof. by intros [H _]%Forall_cons. Qed.
Lemma rS_promote rec s : rS rec -> setup s -> rS (sr_promoteState s rec).
Proof.
  intros H Hs. constructor; [done|]. unfold sr_promoteState. cbn [sr_previous].
  change (sr_state rec :: sr_previous rec) with (sr_states rec). case_match; [by apply Forall_take|done].
Qed.
Lemma rS_archive rec : rS rec -> rS (archiveUnlessFresh rec).
Proof. intros H. unfold archiveUnlessFresh. destruct (sr_fresh rec); [done|]. apply rS_promote; [done|apply setup_new]. Qed.
Lemma rS_after rec j s : rS rec -> setup s -> rS (record_after j s rec).
Proof.
  intros H Hs. destruct j as [|j]; cbn [record_after]; [by apply rS_set|]. apply rS_promote; [|done].
  apply Forall_cons in H as [H1 H2]. constructor; [done|]. cbn [sr_previous]. by apply Forall_delete.
Qed.

(** ** The state functions *)

Lemma encoded_pub k : encoded (Some (pub_serialize k)).
Proof. by exists k. Qed.
Lemma encoded_decode o : encoded o -> exists k, decodePoint (default [] o) 0 = Ok k.
Proof. intros [k ->]. rewrite default_Some. unfold decodePoint. cbn. by eexists. Qed.
Lemma private_len o : private o -> length (default [] o) = 32.
Proof. by intros (k & -> & H). Qed.

(** Set up with the identities, but nothing else yet. *)
Definition ids (s : ss_s) : Prop :=
  encoded (ss_localIdentity s) /\ encoded (ss_remoteIdentity s) /\ prekey_set s /\ exchange_set s.
Lemma ids_sender kp c s s' : ids s -> length (kp_priv kp) = 32 -> st_setSenderChain kp c s = Ok s' -> setup s'.
Proof.
  intros (H1 & H2 & H3 & H4) Hl (x & [-> _]%ch_putChainKey_inv & [= <-])%bind_ok_inv.
  split_and!; [|done|done]. intros c' [= <-]. split_and!; [done|done|apply encoded_pub|]. by exists (kp_priv kp).
Qed.
Lemma ids_add k c s s' : ids s -> st_addReceiverChain k c s = Ok s' -> ids s'.
Proof. intros H. by intros (x & _ & [= <-])%bind_ok_inv. Qed.

Section setup.
Context (C : crypto).

Lemma setup_open s m ek pt s' : setup s -> decryptPure C s m ek = Ok (pt, s') -> setup s'.
Proof.
  intros Hs (Hsc & Hv & kdf & c & j & s1 & c' & Hkdf & Hstep & Hf & Ho & ->)%decryptPure_ok_inv.
  assert (setup s1) as (H1 & H2 & H3).
  { apply chainStep_inv in Hstep as (kdf' & c0 & j' & _ & Hf' & _ & [->|(Hn & Hk & our & x & y & _ & _ & Hy & Hc0 & ->)]); [done|].
    apply rk_createChain_inv in Hy as (_ & Hl & _). destruct Hs as (H1 & H2 & H3). split_and!; [|done|done].
    unfold st_hasSenderChain in Hsc. destruct (ss_senderChain s) as [c1|] eqn:E; [|done].
    destruct (H1 _ E) as (Ha & Hb & _). intros c2 [= <-]. split_and!; [done|done|apply encoded_pub|]. by exists (kp_priv ek). }
  split_and!; done.
Qed.
Lemma rS_decrypted rec m pt rec' : rS rec -> decrypted C rec m pt rec' -> rS rec'.
Proof.
  intros H (j & s & ek & s' & Hj & Hd & ->). apply rS_after; [done|].
  eapply setup_open; [by eapply (Forall_lookup_1 _ _ _ _ H)|done].
Qed.

Lemma bob_setup s a b c d e f s' :
  prekey_set s -> exchange_set s -> length (kp_priv c) = 32 -> initializeSessionAsBob C s a b c d e f = Ok s' -> setup s'.
Proof.
  intros H1 H2 Hl H. unfold initializeSessionAsBob in H. do 4 (apply bind_ok_inv in H as (? & _ & H)).
  destruct (calculateDerivedKeys C _) as [rk ck].
  apply bind_ok_inv in H as (s2 & Hs2 & [= <-]). apply ids_sender in Hs2; [done| |done].
  split_and!; [apply encoded_pub|apply encoded_pub|done|done].
Qed.

(** Both roles of the prekey handshake use the signed prekey itself as ratchet key. *)
Lemma bob_prekey_len s a b d e f s' : initializeSessionAsBob C s a b b d e f = Ok s' -> length (kp_priv b) = 32.
Proof.
  intros (? & H & _)%bind_ok_inv. unfold calculateAgreement, c_calculateAgreement in H.
  destruct (length (kp_priv b) =? 32)%nat eqn:E; [by apply Nat.eqb_eq in E|done].
Qed.

(** ** The calls *)

Context (Hok : crypto_ok C).
Notation sp p Q := (pspec LS rS p Q).
Notation top := (fun _ => True).
Ltac sdo c := eapply pspec_bind; [by apply (pspec_do LS rS c)|].

Lemma sp_generate : sp (generateKeyPair C) kp_ok.
Proof using Hok.
  unfold generateKeyPair. sdo (CUrandom 32). intros x _. apply pspec_lift. intros k H. unfold keypair_of_rand in H.
  apply bind_ok_inv in H as (p & Hp & H). apply bind_ok_inv in H as (q & Hq & [= <-]).
  unfold c_generatePrivateKey in Hp. destruct (length x =? 32)%nat eqn:E; [|done]. injection Hp as <-.
  unfold c_generatePublicKey in Hq. destruct (length (genPriv C x) =? 32)%nat eqn:E'; [|done]. injection Hq as <-. apply Nat.eqb_eq in E, E'.
  split; cbn [kp_priv kp_pub]; [done|by apply (co_pub_len C Hok)].
Qed.
Lemma sp_signature k m : sp (calculateSignature C k m) (fun _ => length k = 32).
Proof using.
  unfold calculateSignature. sdo (CUrandom 64). intros x _. apply pspec_lift. intros sig H.
  unfold calculateSignature_with, c_calculateSignature in H. destruct (length x =? 64)%nat; [|done].
  destruct (length k =? 32)%nat eqn:E; [|done]. by apply Nat.eqb_eq.
Qed.

Lemma setup_decryptMsg r d m : sp (decryptMsg C r d m) top.
Proof using.
  sdo (CContainsSession r d). intros [] _; [|done].
  eapply pspec_bind; [apply pspec_load|]. intros rec Hrec.
  eapply pspec_bind; [apply pspec_decryptWithSessionRecord|]. intros x Hx.
  eapply pspec_bind; [apply pspec_store; exact (rS_decrypted _ _ _ _ (proj2 Hrec) Hx)|]. done.
Qed.

Lemma setup_encrypt r d pt : sp (encrypt C r d pt) top.
Proof using.
  eapply pspec_bind; [apply pspec_load|]. intros rec [_ Hrec].
  eapply pspec_bind; [apply pspec_lift_eq|]. intros [ct s] Hs.
  eapply pspec_bind; [apply pspec_store|done]. cbn [fst snd]. pose proof Hs as Hsc%encryptWithState_chain.
  unfold encryptWithState in Hs. do 7 (apply bind_ok_inv in Hs as (? & _ & Hs)).
  apply bind_ok_inv in Hs as (s' & Hs' & [= _ <-]). apply rS_set; [done|].
  apply bind_ok_inv in Hs' as (? & [-> _]%ch_putChainKey_inv & [= <-]). apply rS_current in Hrec as (H1 & H2 & H3).
  unfold st_hasSenderChain in Hsc. unfold st_senderChain. destruct (ss_senderChain (sr_state rec)) as [c|] eqn:E; [|done].
  split_and!; [|done|done]. intros c' [= <-]. exact (H1 _ E).
Qed.

Lemma setup_asAlice s a b c e f g : prekey_set s -> exchange_set s -> sp (initializeSessionAsAlice C s a b c e f g) setup.
Proof using Hok.
  intros H0 H0'. unfold initializeSessionAsAlice.
  eapply pspec_bind; [apply sp_generate|]. intros ek [Hek _].
  apply pspec_lift. intros s' H. do 4 (apply bind_ok_inv in H as (? & _ & H)).
  destruct (calculateDerivedKeys C _) as [rk ck].
  apply bind_ok_inv in H as (? & _ & H). apply bind_ok_inv in H as (s1 & H1 & H). apply bind_ok_inv in H as (s2 & H2 & [= <-]).
  apply ids_add in H1; [|split_and!; [apply encoded_pub|apply encoded_pub|done|done]].
  by apply ids_sender in H2.
Qed.
Lemma setup_initializeSession s a b c e f g :
  prekey_set s -> exchange_set s -> length (kp_priv c) = 32 -> sp (initializeSession C s a b c e f g) setup.
Proof using Hok.
  intros H0 H0' Hl. unfold initializeSession. eapply pspec_bind; [apply pspec_lift_eq|]. intros [] _; [by apply setup_asAlice|].
  apply pspec_lift. intros s' Hs'. by apply bob_setup in Hs'.
Qed.

Lemma setup_archived rec : loaded_inv rec -> prekey_set (sr_state (archiveUnlessFresh rec)) /\ exchange_set (sr_state (archiveUnlessFresh rec)).
Proof. intros H. by rewrite archived_new. Qed.

Lemma setup_processV3 rec m : LS rec -> sp (processV3 C rec m) (fun x => rS x.1).
Proof using.
  intros [Hrec Hsp]. unfold processV3. destruct (sr_hasSessionState _ _ _); [done|].
  sdo (CLoadSignedPreKey (pSignedPreKeyId m)). intros spr _.
  eapply pspec_bind; [apply pspec_lift_eq|]. intros spk _.
  sdo CGetIdentityKeyPair. intros id _.
  eapply (pspec_bind _ _ _ _ top).
  { destruct (pPreKeyId m) as [i|]; [|done]. sdo (CLoadPreKey i). intros pr _. eapply pspec_bind; [apply pspec_lift_eq|]. done. }
  intros otpk _. pose proof (setup_archived _ Hrec) as [Hn1 Hn2].
  apply rS_archive in Hsp. set (rec' := archiveUnlessFresh rec) in *.
  eapply pspec_bind; [apply pspec_lift_eq|]. intros s Hs. cbn beta in Hs. pose proof Hs as Hl%bob_prekey_len.
  apply bob_setup in Hs; [|done..].
  sdo CGetLocalRegistrationId. intros reg _.
  eapply pspec_bind; [apply pspec_lift_eq|]. intros s1 Hs1. cbn beta in Hs1.
  eapply pspec_bind; [apply pspec_lift_eq|]. intros s2 Hs2. cbn beta in Hs2. cbn [fst].
  apply rS_set; [done|].
  apply bind_ok_inv in Hs2 as (? & _ & [= <-]). by apply bind_ok_inv in Hs1 as (? & _ & [= <-]).
Qed.

Lemma setup_decryptPkmsg r d m : sp (decryptPkmsg C r d m) top.
Proof using.
  eapply pspec_bind; [apply pspec_load|]. intros rec Hrec.
  eapply (pspec_bind _ _ _ _ (fun x => rS x.1)).
  { unfold builder_process. sdo (CIsTrusted r (pIdentityKey m)). intros [] _; [|done].
    eapply pspec_bind; [by apply setup_processV3|]. intros x Hx.
    sdo (CSaveIdentity r (pIdentityKey m)). done. }
  intros x Hx. eapply pspec_bind; [apply pspec_decryptWithSessionRecord|]. intros y Hy.
  eapply pspec_bind; [apply pspec_store; exact (rS_decrypted _ _ _ _ Hx Hy)|]. intros _ _.
  destruct (x.2) as [i|]; [|done]. sdo (CRemovePreKey i). done.
Qed.

Lemma setup_unacknowledged i j k s s' :
  setup s -> st_setUnacknowledgedPreKeyMessage i j k s = Ok s' -> setup s'.
Proof using.
  intros (H1 & H2 & H3) H. unfold st_setUnacknowledgedPreKeyMessage in H. apply bind_ok_inv in H as (z & Hz & H).
  apply bind_ok_inv in H as (p & Hp & [= <-]). split_and!; [done| |done]. intros p' [= <-].
  assert (0 <= z)%Z as Hz'.
  { unfold set_i32 in Hz. destruct (j <? 2 ^ 31)%N; [|done]. injection Hz as <-. lia. }
  destruct i as [i|]; [apply bind_ok_inv in Hp as (? & _ & [= <-])|injection Hp as <-]; (split; [apply encoded_pub|done]).
Qed.

Lemma setup_bundle r d b : sp (processPreKeyBundle C r d b) top.
Proof using Hok.
  unfold processPreKeyBundle. sdo (CIsTrusted r (bu_identityKey b)). intros [] _; [|done].
  destruct (bu_signedPreKey b) as [spk|]; [|done].
  eapply pspec_bind; [apply pspec_lift_eq|]. intros [] _; [|done].
  eapply pspec_bind; [apply pspec_load|]. intros rec [Hrec Hsp].
  eapply pspec_bind; [apply pspec_readonly, readonly_generateKeyPair|]. intros base _.
  sdo CGetIdentityKeyPair. intros id _.
  pose proof (setup_archived _ Hrec) as [Hn1 Hn2]. apply rS_archive in Hsp. set (rec' := archiveUnlessFresh rec) in *.
  eapply pspec_bind; [by apply setup_asAlice|]. intros s Hs.
  eapply pspec_bind; [apply pspec_lift_eq|]. intros s1 Hs1. cbn beta in Hs1.
  sdo CGetLocalRegistrationId. intros reg _.
  eapply pspec_bind; [apply pspec_lift_eq|]. intros s2 Hs2. cbn beta in Hs2.
  eapply pspec_bind; [apply pspec_lift_eq|]. intros s3 Hs3. cbn beta in Hs3.
  eapply pspec_bind; [apply pspec_store|intros _ _; by apply (pspec_do LS rS (CSaveIdentity _ _))].
  apply rS_set; [done|]. apply setup_unacknowledged in Hs1; [|done].
  apply bind_ok_inv in Hs3 as (? & _ & [= <-]). by apply bind_ok_inv in Hs2 as (? & _ & [= <-]).
Qed.

Lemma pending_len s rat : exchange_set s -> st_hasPendingKeyExchange s = true ->
  st_getPendingKeyExchangeRatchetKey s = Ok rat -> length (kp_priv rat) = 32.
Proof using.
  intros H Hp Hr. unfold st_hasPendingKeyExchange in Hp. unfold st_getPendingKeyExchangeRatchetKey, st_pendingKeyExchange in Hr.
  destruct (ss_pendingKeyExchange s) as [p|] eqn:E; [|done]. rewrite default_Some in Hr.
  apply bind_ok_inv in Hr as (? & _ & [= <-]). apply private_len. by destruct (H _ E).
Qed.

Lemma setup_kx r d m : sp (processKeyExchangeMessage C r d m) top.
Proof using Hok.
  unfold processKeyExchangeMessage. sdo (CIsTrusted r (xIdentityKey m)). intros [] _; [|done].
  destruct (kx_isInitiate m).
  - eapply (pspec_bind _ _ _ _ top); [|done]. unfold processInitiate. eapply pspec_bind; [apply pspec_load|]. intros rec [Hrec Hsp].
    eapply pspec_bind; [apply pspec_lift_eq|]. intros [] _; [|done].
    pose proof (rS_current _ Hsp) as (_ & _ & Hx).
    eapply (pspec_bind _ _ _ _ (fun x => length (kp_priv x.1.2) = 32)).
    { destruct (st_hasPendingKeyExchange (sr_state rec)) eqn:Hp; cbn [negb].
      - apply pspec_lift. intros [[[? ?] ?] ?] H. do 2 (apply bind_ok_inv in H as (? & _ & H)).
        apply bind_ok_inv in H as (rat & Hrat & [= <- <- <- <-]). cbn [fst snd]. by eapply pending_len.
      - sdo CGetIdentityKeyPair. intros id _. eapply pspec_bind; [apply pspec_readonly, readonly_generateKeyPair|]. intros base _.
        eapply pspec_bind; [apply sp_generate|]. intros rat [Hrat _]. done. }
    intros [[[id base] rat] fl] Hl. cbn [fst snd] in Hl. pose proof (setup_archived _ Hrec) as [Hn1 Hn2].
    apply rS_archive in Hsp. set (rec' := archiveUnlessFresh rec) in *.
    eapply pspec_bind; [by apply setup_initializeSession|]. intros s Hs.
    eapply pspec_bind; [apply pspec_store; by apply rS_set|]. intros _ _.
    sdo (CSaveIdentity r (xIdentityKey m)). intros _ _.
    eapply pspec_bind; [apply pspec_readonly, readonly_calculateSignature|]. intros sig _. by apply pspec_lift.
  - eapply (pspec_bind _ _ _ _ top); [|done]. unfold processResponse. eapply pspec_bind; [apply pspec_load|]. intros rec [Hrec Hsp].
    destruct (_ || _) eqn:Ho; [by destruct (kx_isResponseForSimultaneousInitiate m)|].
    pose proof (rS_current _ Hsp) as (_ & _ & Hx).
    eapply pspec_bind; [apply pspec_lift_eq|]. intros base _.
    eapply pspec_bind; [apply pspec_lift_eq|]. intros rat Hrat. cbn beta in Hrat.
    eapply pspec_bind; [apply pspec_lift_eq|]. intros id _.
    assert (length (kp_priv rat) = 32) as Hl.
    { eapply pending_len; [done| |done]. apply orb_false_iff in Ho as [Ho _]. by apply negb_false_iff in Ho. }
    pose proof (setup_archived _ Hrec) as [Hn1 Hn2].
    apply rS_archive in Hsp. set (rec' := archiveUnlessFresh rec) in *.
    eapply pspec_bind; [by apply setup_initializeSession|]. intros s Hs.
    eapply pspec_bind; [apply pspec_lift_eq|]. intros [] _; [|done].
    eapply pspec_bind; [apply pspec_store; by apply rS_set|]. intros _ _.
    by apply (pspec_do LS rS (CSaveIdentity _ _)).
Qed.

Lemma setup_initKx r d : sp (processInitKeyExchangeMessage C r d) top.
Proof using Hok.
  unfold processInitKeyExchangeMessage. apply pspec_rethrow.
  eapply pspec_bind; [by apply (pspec_do LS rS (CRandrange _))|]. intros q _.
  eapply pspec_bind; [apply sp_generate|]. intros base [Hb1 Hb2].
  eapply pspec_bind; [apply sp_generate|]. intros rat [Hrat _].
  sdo CGetIdentityKeyPair. intros id _.
  eapply pspec_bind; [apply sp_signature|]. intros sig Hid.
  eapply pspec_bind; [apply pspec_load|]. intros rec [_ Hrec].
  eapply pspec_bind; [apply pspec_lift_eq|]. intros s Hs. cbn beta in Hs.
  eapply pspec_bind; [apply pspec_store|intros _ _; by apply pspec_lift].
  apply rS_set; [done|]. apply bind_ok_inv in Hs as (? & _ & [= <-]). apply rS_current in Hrec as (H1 & H2 & _).
  split_and!; [done|done|]. intros p [= <-].
  split_and!; [by exists (kp_priv rat)|by exists (kp_priv base)|by exists (kp_priv id)|apply encoded_pub|by exists (kp_pub base)|apply encoded_pub].
Qed.

Lemma setup_api c : sp (api C c) top.
Proof using Hok.
  destruct c; cbn [api]; try (eapply pspec_bind; [|done]).
  - apply setup_bundle.
  - apply setup_initKx.
  - apply setup_kx.
  - apply setup_encrypt.
  - apply setup_decryptMsg.
  - apply setup_decryptPkmsg.
  - apply pspec_nostore, nostore_group_create.
  - apply pspec_nostore, nostore_group_process.
  - apply pspec_nostore, nostore_group_encrypt.
  - apply pspec_nostore, nostore_group_decrypt.
Qed.

Lemma reachable_setup w : reachable C w -> stored_ok LS w.
Proof using Hok.
  assert (LS sr_new) as G0.
  { split; [apply loaded_inv_new|]. constructor; [apply setup_new|constructor]. }
  assert (forall rec, (record_inv rec /\ rS rec) -> rec_wf rec) as G1 by (by intros rec [[? _] _]).
  assert (forall f s l, (record_inv (SessionRecord f s l) /\ rS (SessionRecord f s l)) -> LS (SessionRecord false s l)) as G2.
  { intros f s l [Ha Hb]. split; [|done]. by eapply record_inv_fresh. }
  intros (w0 & ps & H0 & H). apply (reaches_ok _ _ G0 G1 G2) in H as [H _]; [done|done|]. intros c.
  eapply pspec_mono; [apply (pspec_both _ _ _ _ _ _ _ (spec_api C c) (setup_api c))|done].
Qed.
End setup.
