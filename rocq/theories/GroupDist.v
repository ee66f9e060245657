(** Distribution messages and the future limit of group messages: C32, C33. *)
From Verif Require Import PyBase Wire Protos ProtoFacts Crypto Ecc Kdf Messages State Prog Groups Helper.
From Verif Require Import ProgFacts StateFacts UtilFacts HelperFacts MsgFacts SpecSession SpecGroup GroupFacts SessionProofs GroupProofs GroupSched.

Section dist.
Context (C : crypto) (Hok : crypto_ok C).

Lemma run_encrypt_gen w name s rest it id ck seed m pt :
  senderkey_at w name = Ok (s :: rest) -> (id < 2 ^ 32)%N -> length seed = 32 ->
  it <= m -> (N.of_nat (S m) < 2 ^ 32)%N ->
  sends_as s id m (gkey C it ck m) (genPriv C seed) ->
  exists b w' s', run (group_encrypt C name pt) w = (Ok b, w') /\
    gmessage C it id ck (genPub C (genPriv C seed)) m pt b /\
    senderkey_at w' name = Ok (s' :: rest) /\ sends_as s' id (S m) (gkey C it ck (S m)) (genPriv C seed).
Proof using Hok.
  intros Hs Hid Hseed Hit Hm (E1 & E2 & sp & E3).
  assert (sks_getKeyId s = id) as H1 by (unfold sks_getKeyId; by rewrite E1).
  assert (sks_getSenderChainKey s = SenderChainKey (N.of_nat m) (gkey C it ck m)) as H2
    by (unfold sks_getSenderChainKey; by rewrite E2).
  assert (sks_getSigningKeyPrivate s = genPriv C seed) as H3 by (unfold sks_getSigningKeyPrivate; by rewrite E3).
  assert (length (genPriv C seed) = 32) as Hpl by (by apply (co_priv_len C Hok)).
  unfold group_encrypt. rewrite run_rethrow, run_bind, run_do, load_senderkey, Hs.
  rewrite run_bind, run_lift. cbn [first_state]. rewrite H1, H2, H3, gstate_mk.
  destruct (gmk_lengths C Hok it ck m) as [L1 L2].
  destruct (aes_roundtrip C Hok (smCipher (gmk C it ck m)) (smIv (gmk C it ck m)) pt L2 L1) as (ct & Hct & _).
  rewrite run_bind, run_lift, Hct. rewrite run_bind, run_lift.
  change (smIteration (gmk C it ck m)) with (N.of_nat m).
  rewrite sk_tosign_ok by (done || lia).
  rewrite run_bind, run_calculateSignature by done.
  rewrite run_bind, run_lift, gstate_next by done. unfold sks_setSenderChainKey. cbn [scIteration scKey].
  rewrite set_u32_ok by done. rewrite bind_ok.
  rewrite run_bind, run_do. cbn [step_call run].
  set (s' := st_set_senderChainKey _ _).
  eexists _, _, s'. split; [done|]. split_and!.
  - eexists ct, _. split_and!; [done|done| | |].
    + apply (co_sign_len C Hok); [apply resize_length|done].
    + by apply (co_pub_len C Hok).
    + apply (co_verify C Hok); [done|apply resize_length].
  - change (s' :: rest) with (put_state 0 s' (s :: rest)).
    apply (senderkey_stored (w_set_pos (S (w_pos w)) w)).
    apply senderkey_wf in Hs as [Hw Hr]%Forall_cons. constructor; [|done].
    destruct Hw as (W1 & W2 & W3 & W4). unfold st_wf, s'. cbn. by split_and!.
  - split_and!; [done|done|by exists sp].
Qed.

Lemma run_sendAll name rest it id ck seed pts : forall w s m,
  senderkey_at w name = Ok (s :: rest) -> (id < 2 ^ 32)%N -> length seed = 32 ->
  it <= m -> (N.of_nat (m + length pts) < 2 ^ 32)%N ->
  sends_as s id m (gkey C it ck m) (genPriv C seed) ->
  exists bs w', run (sendAll C name pts) w = (Ok bs, w') /\
    forall i pt b, pts !! i = Some pt -> bs !! i = Some b ->
      gmessage C it id ck (genPub C (genPriv C seed)) (m + i) pt b.
Proof using Hok.
  induction pts as [|p pts IH]; intros w s m Hs Hid Hseed Hit Hb Hsa; cbn [sendAll].
  { exists [], w. split; [done|]. intros i pt b Hi. by rewrite lookup_nil in Hi. }
  cbn [length] in Hb.
  destruct (run_encrypt_gen w name s rest it id ck seed m p Hs Hid Hseed Hit ltac:(lia) Hsa) as (b & w1 & s1 & Hr & Hg & Hs1 & Hsa1).
  destruct (IH w1 s1 (S m) Hs1 Hid Hseed ltac:(lia) ltac:(lia) Hsa1) as (bs & w2 & Hr2 & Hg2).
  exists (b :: bs), w2. rewrite run_bind, Hr, run_bind, Hr2. split; [done|].
  intros [|i] pt b'; cbn.
  - intros [= <-] [= <-]. by rewrite Nat.add_0_r.
  - intros Hi Hb'. replace (m + S i) with (S m + i) by lia. eauto.
Qed.

Lemma distribution_effective name rec d w it seed nameS wS s rest pts bs wS' i pt b :
  senderkey_at w name = Ok rec ->
  (dId d < 2 ^ 32)%N -> dIteration d = N.of_nat it -> length seed = 32 ->
  dSignatureKey d = genPub C (genPriv C seed) ->
  (forall s, s ∈ rec -> sks_getKeyId s <> dId d) ->
  senderkey_at wS nameS = Ok (s :: rest) -> sends_as s (dId d) it (dChainKey d) (genPriv C seed) ->
  (N.of_nat (it + length pts) < 2 ^ 32)%N ->
  run (sendAll C nameS pts) wS = (Ok bs, wS') -> pts !! i = Some pt -> bs !! i = Some b ->
  exists w', run (group_process name d) w = (Ok tt, w') /\ (run (group_decrypt C name b) w').1 = Ok pt.
Proof using Hok.
  intros Hr Hid Hit Hseed Hpub Hfresh HsS Hsa Hb Hsend Hi Hbs.
  set (id := dId d) in *. set (ck := dChainKey d) in *. set (pub := genPub C (genPriv C seed)) in *.
  assert (gkey C it ck it = ck) as Hck by (unfold gkey; by rewrite Nat.sub_diag).
  assert (sends_as s id it (gkey C it ck it) (genPriv C seed)) as Hsa' by (by rewrite Hck).
  destruct (run_sendAll nameS rest it id ck seed pts wS s it HsS Hid Hseed ltac:(lia) Hb Hsa') as (bs' & w' & Hrun & Hg).
  rewrite Hrun in Hsend. injection Hsend as -> _. specialize (Hg i pt b Hi Hbs). fold pub in Hg.
  unfold group_process. rewrite run_bind, run_do, load_senderkey, Hr, run_bind, run_lift.
  unfold sks_create. fold id ck. rewrite Hit, Hpub. rewrite !set_u32_ok by (done || lia). rewrite !bind_ok, run_do. cbn [step_call].
  eexists. split; [done|].
  replace (StS _ _ _ _) with (gstate C it id ck pub None it []) by (unfold gstate; by rewrite Hck).
  assert (i < length pts) as Hil by (by eapply lookup_lt_Some).
  rewrite run_group_decrypt, senderkey_stored.
  2:{ apply Forall_app. split; [by eapply senderkey_wf|]. constructor; [|constructor]. apply gstate_wf; [done|lia|constructor]. }
  rewrite (groupOpen_key C Hok it id ck pub None it [] (it + i) pt b rec [] (S (it + i)) (seq it (it + i - it)));
    [|done|lia|done|done|apply (getSenderKey_ahead C it id ck pub None it []); lia].
  by destruct rec.
Qed.

(** However far ahead a message is, it is accepted (C32). *)
Lemma future_accepted name S M n pt : 
  w_senderkeys S !! name = None -> w_senderkeys M !! name = None -> (N.of_nat n + 3 < 2 ^ 32)%N ->
  last (gplay C name (GCreate :: GJoin 0 0 :: replicate n (GSend pt) ++ [GSend pt; GDeliver 0 n]) (GNet S [M] [] [])).1
  = Some (GReceived pt).
Proof using Hok.
  intros HS HM Hn. rewrite group_refines; [|done|done|by repeat constructor|].
  2:{ cbn [length]. rewrite app_length, replicate_length. cbn [length]. lia. }
  cbn [iplay iact]. cbn [lookup list_lookup i_members i_dists i_sent length replicate].
  assert (forall k sent, last (iplay (replicate k (GSend pt) ++ [GSend pt; GDeliver 0 n]) (Ideal sent [0] [Some (0, [])]))
     = last (iplay [GSend pt; GDeliver 0 n] (Ideal (sent ++ replicate k pt) [0] [Some (0, [])]))) as H.
  { intros k. induction k as [|k IH]; intros sent; [by rewrite app_nil_r|].
    cbn [replicate app iplay iact]. cbn [i_sent i_dists i_members].
    destruct (iplay (replicate k _ ++ _) (Ideal (sent ++ [pt]) _ _)) as [|x l] eqn:E.
    - exfalso. apply (f_equal length) in E. destruct k; cbn [replicate app iplay iact] in E; discriminate E.
    - rewrite !last_cons_cons, <- E, IH, <- app_assoc. reflexivity. }
  set (L := iplay (replicate n _ ++ _) _). assert (last L = Some (GReceived pt)) as HL.
  { unfold L. cbn. rewrite H. cbn [app iplay iact i_sent i_dists i_members lookup list_lookup].
    replace ((replicate n pt ++ [pt]) !! n) with (Some pt).
    2:{ rewrite lookup_app_r by (by rewrite replicate_length). by rewrite replicate_length, Nat.sub_diag. }
    rewrite !bool_decide_eq_false_2; [done|by apply not_elem_of_nil|lia]. }
  destruct L; [done|]. by rewrite !last_cons_cons.
Qed.

(** A distribution message for a key id already stored is ignored (C33). *)
Lemma redistribution_ignored' name S M pt :
  w_senderkeys S !! name = None -> w_senderkeys M !! name = None ->
  (gplay C name [GCreate; GSend pt; GCreate; GJoin 0 1; GJoin 0 0; GDeliver 0 0] (GNet S [M] [] [])).1
  = [GCreated; GSent; GCreated; GJoined; GJoined; GRaised EDuplicateMessage].
Proof using Hok. intros HS HM. by rewrite group_refines; [|done|done|by repeat constructor|]. Qed.
End dist.

Definition redistribution_ignored C name S M pt (Hok : crypto_ok C) := redistribution_ignored' C Hok name S M pt.
