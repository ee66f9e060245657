(** A decrypted message is only decrypted again after its ratchet key is introduced anew: C49. *)
From Verif Require Import PyBase Wire Protos ProtoFacts Crypto Ecc Kdf Messages State Prog Ratchet Builder Cipher Groups Helper.
From Verif Require Import ProgFacts StateFacts UtilFacts HelperFacts MsgFacts CipherFacts DecryptFacts SpecSession SessionProofs LockoutProofs SpecApi SpecKeys SpecEncrypt.
From Verif Require Import InvFacts HistoryProofs ArchiveProofs EncryptProofs SpecIso IsoProofs FreshProofs ChainInv SpecTwice.

(** ** The invariant: the message key is gone *)

Section spent.
Context (C : crypto) (K : bytes) (n : N).

Definition spent (c : ch_s) : Prop :=
  ch_ratchetKey c = Some (x05 :: K) -> (n < ch_idx c)%N /\ Forall (fun x => mk_idx x <> n) (ch_messageKeys c).
Notation sspent := (sJ spent).
Notation rspent := (rJ spent).

Lemma sspent_holds s : sspent s <-> ~ holds_key s K n.
Proof.
  unfold sJ, holds_key. rewrite Forall_forall. split.
  - intros H (c & Hc & Hk & Hh). destruct (H c Hc Hk) as [H1 H2]. destruct Hh as [Hle|(k & Hin & Hkn)].
    + unfold ch_idx in H1. lia.
    + rewrite Forall_forall in H2. by apply (H2 k).
  - intros H c Hc Hk. split.
    + apply N.nle_gt. intros Hle. apply H. exists c. split_and!; [done|done|by left].
    + apply Forall_forall. intros x Hx E. apply H. exists c. split_and!; [done|done|right; by exists x].
Qed.
Lemma rspent_holds rec : rspent rec <-> forall s, s ∈ states rec -> ~ holds_key s K n.
Proof. unfold rJ. rewrite Forall_forall. by setoid_rewrite sspent_holds. Qed.

Lemma spent_take kdf c i mk c' : spent c -> chainTake C kdf c i = Ok (mk, c') -> spent c'.
Proof.
  intros Hs H. unfold chainTake in H. change (cIndex (ch_getChainKey kdf c)) with (ch_idx c) in H.
  destruct (N.ltb_spec i (ch_idx c)) as [L|L].
  - destruct (take_messageKey i (ch_messageKeys c)) as [[m r]|] eqn:E; [|done]. injection H as <- <-.
    apply take_messageKey_sublist in E as (E1 & E2 & _). intros Hk. destruct (Hs Hk) as [H1 H2]. split; [done|].
    cbn [ch_messageKeys ch_set_messageKeys]. by eapply sublist_Forall'.
  - destruct (2000 <? i - ch_idx c)%N; [done|]. destruct (i + 1 <? 2 ^ 32)%N; [|done]. injection H as _ <-.
    intros Hk. destruct (Hs Hk) as [H1 H2]. split; [change (n < i + 1)%N; lia|].
    cbn [ch_messageKeys ch_set_messageKeys ch_set_chainKey]. apply Forall_app. split; [done|].
    apply (skipped_forall C (fun x => x <> n)%N). intros j Hj. cbn [cIndex ch_getChainKey]. fold (ch_idx c). lia.
Qed.
Lemma spent_other key ck : length key = 32 -> key <> K -> spent (newChain key ck).
Proof. intros _ Hne. unfold spent, newChain. cbn [ch_ratchetKey]. unfold pub_serialize. congruence. Qed.

Lemma spent_open s m ek pt s' :
  sspent s -> decryptPure C s m ek = Ok (pt, s') -> (wRatchetKey m = K -> chain_for s K) -> sspent s'.
Proof.
  intros Hs Hd Hno. eapply (sJ_open C spent (fun k => k <> K)); [apply spent_take|apply spent_other|exact Hs|exact Hd|].
  intros Hn Hk E. destruct (Hno E) as (c1 & Hc1 & Hr1). apply find_chain_none in Hn. rewrite Forall_forall in Hn.
  destruct (Hn _ Hc1) as (k & Hk1 & Hk2). unfold chain_pub in Hk1. rewrite Hr1, default_Some in Hk1.
  change (x05 :: ?k) with (pub_serialize k) in Hk1. rewrite <- E in Hk1.
  rewrite decodePoint_serialize in Hk1 by lia. congruence.
Qed.

(** A state that has the chain does not open the message. *)
Lemma spent_closed s m ek x :
  state_inv s -> sspent s -> wRatchetKey m = K -> wCounter m = n -> chain_for s K -> decryptPure C s m ek <> Ok x.
Proof.
  intros (_ & _ & Hd & _) Hs Hk Hn (c0 & Hc0 & Hr0) H. destruct x as [pt s'].
  apply decryptPure_ok_inv in H as (Hsc & Hv & kdf & c & j & s1 & c' & Hkdf & Hstep & Hf & Ho & ->).
  destruct (openWith_inv C _ _ _ _ _ _ Ho) as (mk & Hmk).
  assert (length K <= 32 -> chain_pub c0 = Ok K) as Hp0.
  { intros HK. unfold chain_pub. rewrite Hr0, default_Some. apply decodePoint_serialize. lia. }
  apply chainStep_inv in Hstep as (kdf' & c1 & j' & _ & Hf' & _ & [->|(Hno & Hl & _)]).
  - rewrite Hf in Hf'. injection Hf' as <- <-.
    apply find_chain_some in Hf as (l1 & l2 & Hl & _ & Hp & Hl1). rewrite Hk in *.
    assert (chain_pub c0 = Ok K) as Hp'.
    { apply Hp0. by eapply decodePoint_length. }
    assert (c0 = c) as ->.
    { rewrite Hl in Hc0, Hd. rewrite fmap_app, fmap_cons in Hd. apply NoDup_app in Hd as (_ & Hd1 & Hd2).
      apply elem_of_app in Hc0 as [Hc'|Hc'].
      - rewrite Forall_forall in Hl1. destruct (Hl1 _ Hc') as (k & Hk' & Hk''). congruence.
      - apply elem_of_cons in Hc' as [|Hc']; [done|]. apply NoDup_cons in Hd2 as [Hd2 _].
        destruct Hd2. rewrite Hp, <- Hp'. by apply elem_of_list_fmap_1. }
    unfold sJ in Hs. rewrite Forall_forall in Hs. destruct (Hs c Hc0 Hr0) as [H1 H2].
    unfold chainTake in Hmk. change (cIndex (ch_getChainKey kdf c)) with (ch_idx c) in Hmk.
    rewrite Hn, (proj2 (N.ltb_lt _ _)) in Hmk by done.
    rewrite (proj2 (take_messageKey_none _ _)) in Hmk; [done|].
    eapply Forall_impl; [exact H2|]. intros y Hy. unfold mk_hasIndex. by apply N.eqb_neq.
  - apply find_chain_none in Hno. rewrite Forall_forall in Hno. destruct (Hno _ Hc0) as (k & Hk1 & Hk2).
    rewrite Hk in *. rewrite Hp0 in Hk1 by lia. congruence.
Qed.

(** ** One step of a history *)

Context (Hok : crypto_ok C) (r d : Z).

Definition gone (w : world) : Prop := forall rec, session_at w r d = Ok rec -> rspent rec.

Lemma gone_eq w w' : session_at w' r d = session_at w r d -> gone w -> gone w'.
Proof. intros E H rec. rewrite E. apply H. Qed.
Lemma gone_sessions w w' : w_sessions w' = w_sessions w -> gone w -> gone w'.
Proof. intros E. apply gone_eq. by apply session_at_eq. Qed.

Lemma peer_gone {A} (p : prog A) w :
  confined (of_peer r d) p -> pspec loaded_inv record_inv p (fun _ => True) -> pspec (L2 spent) rspent p (fun _ => True) ->
  stored_ok loaded_inv w -> gone w -> gone (run p w).2 /\ forall k, gone (run_crash k p w).2.
Proof. apply peer_J. Qed.

(** A message call that decrypts. *)
Lemma gone_msg m w pt w' :
  stored_ok loaded_inv w -> gone w -> no_step C r d K w m -> run (decryptMsg C r d m) w = (Ok pt, w') -> gone w'.
Proof using Hok.
  intros Hw Hg Hno H. pose proof H as (rec & rec' & Hs & Hrec & Hd & w1 & Hsame & E)%decryptMsg_ok.
  pose proof (order_msg C Hok r d m w rec Hw Hs Hrec) as Ho. rewrite H in Ho.
  destruct Ho as [(i & s & Hi & Hb & Ha & Hne & Hp)|[_ ?]]; [|done].
  destruct (Hp pt eq_refl) as (s' & w2 & Hs' & rec2 & Hrec2 & Hst).
  intros rec3. rewrite Hrec2. intros [= <-]. unfold rJ. change (sr_states rec2) with (states rec2). rewrite Hst.
  pose proof (Hg _ Hrec) as Hr. unfold rJ in Hr. change (sr_states rec) with (states rec) in Hr.
  constructor; [|apply Forall_app; split; [by apply Forall_take|by apply Forall_drop]].
  destruct (run (decryptWithSessionState C s m) w2) as [o w3] eqn:E2. cbn [fst] in Hs'. subst o.
  destruct (pspec_run _ _ _ _ _ (pspec_decryptWithSessionState C _ _ s m) E2) as (ek & Hek).
  eapply spent_open; [by eapply (Forall_lookup_1 _ _ _ _ Hr)|exact Hek|].
  intros Hk. eapply Hno; [done|done|]. exists i, pt. split_and!; [done|done|]. exact Hb.
Qed.

Lemma gone_oneshot {A} (p : prog A) w : oneshot p -> gone w -> (forall a w', run p w = (Ok a, w') -> gone w') ->
  gone (run p w).2 /\ forall k, gone (run_crash k p w).2.
Proof.
  intros Ho Hg Hrun. assert (gone (run p w).2) as H1.
  { destruct (run p w) as [[a|e] w'] eqn:E; [by eapply Hrun|]. eapply gone_sessions; [by eapply oneshot_err|done]. }
  split; [done|]. intros k. pose proof (oneshot_crash _ k w Ho) as Hc. cbv zeta in Hc.
  destruct Hc as [Hc|(a & wf & Ha & Hc)]; [by eapply gone_sessions|]. eapply gone_sessions; [exact Hc|by eapply Hrun].
Qed.

Lemma oneshot_msg m : oneshot (decryptMsg C r d m).
Proof.
  unfold decryptMsg. apply oneshot_bind; [by apply nostore_do|]. intros []; [|done].
  apply oneshot_bind; [by apply nostore_do|]. intros rec.
  apply oneshot_bind; [apply readonly_nostore, readonly_decryptWithSessionRecord|]. intros x. by apply oneshot_store.
Qed.
Lemma oneshot_pkmsg m : oneshot (decryptPkmsg C r d m).
Proof.
  unfold decryptPkmsg. apply oneshot_bind; [by apply nostore_do|]. intros rec.
  apply oneshot_bind.
  { unfold builder_process. apply nostore_bind; [by apply nostore_do|]. intros []; [|done].
    apply nostore_bind; [apply readonly_nostore, readonly_processV3|]. intros x.
    apply nostore_bind; [by apply nostore_do|done]. }
  intros x. apply oneshot_bind; [apply readonly_nostore, readonly_decryptWithSessionRecord|]. intros y.
  apply oneshot_store. destruct (x.2); [|done]. split; [done|]. intros w. exact I.
Qed.

Lemma gone_call w c : stored_ok loaded_inv w -> gone w -> no_new_chain C r d K w c ->
  gone (run (api C c) w).2 /\ forall k, gone (run_crash k (api C c) w).2.
Proof using Hok.
  intros Hw Hg Hc.
  assert (forall A (p : prog A) r' d', peerCall C r' d' A p -> (r', d') <> (r, d) -> gone (run p w).2 /\ forall k, gone (run_crash k p w).2) as Hother.
  { intros A p r' d' Hp%peer_confined Hne.
    assert (forall R (x : call R), of_peer r' d' R x -> match x with CStoreSession r2 d2 _ => (r2, d2) <> (r, d) | _ => True end) as HP.
    { intros R x. destruct x; try done. cbn. by intros ->. }
    split; [|intros k]; (eapply gone_eq; [|exact Hg]); [by eapply away_run|by eapply away_crash]. }
  assert (forall A (p : prog A) n', groupCall C n' A p -> gone (run p w).2 /\ forall k, gone (run_crash k p w).2) as Hgroup.
  { intros A p n' Hp%group_confined.
    assert (forall R (x : call R), of_group n' R x -> match x with CStoreSession r2 d2 _ => (r2, d2) <> (r, d) | _ => True end) as HP.
    { intros R x. by destruct x. }
    split; [|intros k]; (eapply gone_eq; [|exact Hg]); [by eapply away_run|by eapply away_crash]. }
  assert (forall A (p : prog A), gone (run p w).2 /\ (forall k, gone (run_crash k p w).2) ->
    gone (run (_ ← p; Ret tt) w).2 /\ forall k, gone (run_crash k (_ ← p; Ret tt) w).2) as Hthen.
  { intros A p [H1 H2]. split.
    - rewrite (run_map p (fun _ => tt)). done.
    - intros k. rewrite (run_crash_map k p (fun _ => tt)). done. }
  destruct c as [r' d' x|r' d'|r' d' m|r' d' pt|r' d' m|r' d' m|g|g m|g pt|g x]; cbn [api no_new_chain] in *.
  1: destruct (decide ((r', d') = (r, d))) as [[= -> ->]|Hne]; [|by eapply Hother; [constructor|]].
  2-6: apply Hthen; destruct (decide ((r', d') = (r, d))) as [[= -> ->]|Hne]; [|by eapply Hother; [constructor|]].
  - apply peer_gone; [apply (peer_confined C), peer_bundle|apply spec_bundle|eapply (sp_bundle C spent (fun k => k <> K)); [apply spent_take|apply spent_other|]; intros k Hk ->; by apply Hc|done|done].
  - apply peer_gone; [apply (peer_confined C), peer_init|apply spec_initKx|eapply (sp_initKx C spent (fun k => k <> K)); [apply spent_take|apply spent_other]|done|done].
  - apply peer_gone; [apply (peer_confined C), peer_kx|apply spec_kx|eapply (sp_kx C spent (fun k => k <> K)); [apply spent_take|apply spent_other|]; by apply Hc|done|done].
  - apply peer_gone; [apply (peer_confined C), peer_encrypt|apply spec_encrypt|eapply (sp_encrypt C spent (fun k => k <> K)); [apply spent_take|apply spent_other]|done|done].
  - apply gone_oneshot; [apply oneshot_msg|done|]. intros a w'. apply gone_msg; [done|done|by apply Hc].
  - destruct (Hc eq_refl) as [Hno Hb]. destruct (decide (wRatchetKey (pMessage m) = K)) as [E|E].
    + apply gone_oneshot; [apply oneshot_pkmsg|done|]. intros a w' H.
      pose proof H as (rec & rec1 & used & w1 & rec2 & w2 & Hrec & Ht & _)%decryptPkmsg_ok.
      rewrite (pkmsg_belongs C _ _ _ _ _ Hrec (Hb E _ Hrec) Ht) in H. eapply gone_msg; [| | |exact H]; done.
    + apply peer_gone; [apply (peer_confined C), peer_pkmsg|apply spec_decryptPkmsg|eapply (sp_decryptPkmsg C spent (fun k => k <> K)); [apply spent_take|apply spent_other|done]|done|done].
  - apply Hthen. eapply Hgroup. constructor.
  - eapply Hgroup. constructor.
  - apply Hthen. eapply Hgroup. constructor.
  - apply Hthen. eapply Hgroup. constructor.
Qed.

Lemma tame_step w w' : tame C r d K w w' -> step C w w'.
Proof. intros []; by constructor. Qed.
Lemma tame_gone w w' : rtc (tame C r d K) w w' -> stored_ok loaded_inv w -> gone w -> stored_ok loaded_inv w' /\ gone w'.
Proof using Hok.
  induction 1 as [w|w w1 w' H _ IH]; [done|]. intros Hw Hg.
  apply IH; [eapply (step_keeps C); [by eapply tame_step|done]|].
  destruct H as [c Hc|c k Hc|m|m|m]; [by apply gone_call|by apply gone_call|done|done|done].
Qed.

(** Accepted once more only by a state without the chain. *)
Lemma gone_again m w pt w' :
  stored_ok loaded_inv w -> gone w -> wRatchetKey m = K -> wCounter m = n -> run (decryptMsg C r d m) w = (Ok pt, w') ->
  exists rec s, session_at w r d = Ok rec /\ opens C rec m s /\ ~ chain_for s K.
Proof using Hok.
  intros Hw Hg Hk Hn H. pose proof H as (rec & rec' & Hs & Hrec & Hd & w1 & Hsame & E)%decryptMsg_ok.
  pose proof (order_msg C Hok r d m w rec Hw Hs Hrec) as Ho. rewrite H in Ho.
  destruct Ho as [(i & s & Hi & Hb & Ha & Hne & Hp)|[_ ?]]; [|done].
  exists rec, s. split_and!; [done|exists i, pt; split_and!; [done|done|exact Hb]|]. intros Hc.
  destruct (Hp pt eq_refl) as (s' & w2 & Hs' & _).
  destruct (run (decryptWithSessionState C s m) w2) as [o w3] eqn:E2. cbn [fst] in Hs'. subst o.
  destruct (pspec_run _ _ _ _ _ (pspec_decryptWithSessionState C _ _ s m) E2) as (ek & Hek).
  pose proof (Hg _ Hrec) as Hr. destruct (Hw _ _ _ Hrec) as [(_ & _ & Hi2) _].
  eapply spent_closed; [by eapply (Forall_lookup_1 _ _ _ _ Hi2)|by eapply (Forall_lookup_1 _ _ _ _ Hr)|done|done|done|exact Hek].
Qed.
Lemma gone_again_pkmsg m w pt w' :
  stored_ok loaded_inv w -> gone w -> wRatchetKey (pMessage m) = K -> wCounter (pMessage m) = n ->
  run (decryptPkmsg C r d m) w = (Ok pt, w') ->
  exists rec, session_at w r d = Ok rec /\
    (~ belongs rec (pVersion m) (pBaseKey m) \/ exists s, opens C rec (pMessage m) s /\ ~ chain_for s K).
Proof using Hok.
  intros Hw Hg Hk Hn H. pose proof H as (rec & rec1 & used & w1 & rec2 & w2 & Hrec & Ht & _)%decryptPkmsg_ok.
  exists rec. split; [done|].
  destruct (sr_hasSessionState (pVersion m) (pub_serialize (pBaseKey m)) rec) eqn:E.
  - right. apply hasSessionState_spec in E. rewrite (pkmsg_belongs C _ _ _ _ _ Hrec E Ht) in H.
    apply gone_again in H as (rec' & s & Hrec' & Hs); [|done|done|done|done].
    assert (rec' = rec) as -> by (change (session_at w r d = Ok rec') in Hrec'; congruence). by exists s.
  - left. intros Hb%hasSessionState_spec. congruence.
Qed.
End spent.

(** ** The statements over histories *)
Section final.
Context (C : crypto) (Hok : crypto_ok C).

(** No archived state has a receiving chain of the ratchet key. *)
Lemma never_again_msg r d m w pt w1 w2 pt' w3 :
  reachable C w -> run (decryptMsg C r d m) w = (Ok pt, w1) ->
  (forall rec s, session_at w1 r d = Ok rec -> s ∈ sr_previous rec -> ~ chain_for s (wRatchetKey m)) ->
  rtc (tame C r d (wRatchetKey m)) w1 w2 -> run (decryptMsg C r d m) w2 = (Ok pt', w3) ->
  exists rec s, session_at w2 r d = Ok rec /\ opens C rec m s /\ ~ chain_for s (wRatchetKey m).
Proof using Hok.
  intros Hr H1 Hold Ht H2.
  destruct (hist_erased_msg C w r d m pt w1 Hr H1) as (rec1 & Hrec1 & _ & He).
  assert (gone (wRatchetKey m) (wCounter m) r d w1) as Hg.
  { intros rec. rewrite Hrec1. intros [= <-]. apply rspent_holds. apply He. intros s Hs c Hc Hk.
    apply (Hold _ _ Hrec1 Hs). by exists c. }
  apply reachable_inv in Hr. assert (stored_ok loaded_inv w1) as Hw1.
  { pose proof (proj1 (run_keeps _ _ w (spec_decryptMsg C r d m) Hr)) as H. by rewrite H1 in H. }
  destruct (tame_gone _ _ _ Hok _ _ _ _ Ht Hw1 Hg) as [Hw2 Hg2].
  by eapply gone_again.
Qed.
Lemma never_again_pkmsg r d bs m w pt w1 w2 pt' w3 :
  reachable C w -> prekey_parse bs = Ok m -> run (decryptPkmsg C r d m) w = (Ok pt, w1) ->
  (forall rec s, session_at w1 r d = Ok rec -> s ∈ sr_previous rec -> ~ chain_for s (wRatchetKey (pMessage m))) ->
  rtc (tame C r d (wRatchetKey (pMessage m))) w1 w2 -> run (decryptPkmsg C r d m) w2 = (Ok pt', w3) ->
  exists rec, session_at w2 r d = Ok rec /\
    (~ belongs rec (pVersion m) (pBaseKey m) \/ exists s, opens C rec (pMessage m) s /\ ~ chain_for s (wRatchetKey (pMessage m))).
Proof using Hok.
  intros Hr Hbs H1 Hold Ht H2.
  destruct (hist_erased_pkmsg C w r d bs m pt w1 Hr Hbs H1) as (rec1 & Hrec1 & _ & He).
  assert (gone (wRatchetKey (pMessage m)) (wCounter (pMessage m)) r d w1) as Hg.
  { intros rec. rewrite Hrec1. intros [= <-]. apply rspent_holds. apply He. intros s Hs c Hc Hk.
    apply (Hold _ _ Hrec1 Hs). by exists c. }
  apply reachable_inv in Hr. assert (stored_ok loaded_inv w1) as Hw1.
  { pose proof (proj1 (run_keeps _ _ w (spec_decryptPkmsg C r d m) Hr)) as H. by rewrite H1 in H. }
  destruct (tame_gone _ _ _ Hok _ _ _ _ Ht Hw1 Hg) as [Hw2 Hg2].
  by eapply gone_again_pkmsg.
Qed.
End final.
