(** How much a sender key record keeps, and creating a sender key twice: C56 to C58. *)
From Verif Require Import PyBase Wire Protos ProtoFacts Crypto Ecc Kdf Messages State Prog Builder Cipher Groups.
From Verif Require Import ProgFacts StateFacts UtilFacts MsgFacts HelperFacts SpecSession SpecGroup SpecApi SpecCrash CrashProofs GroupFacts GroupProofs GroupSched SpecGroupHist GroupHistProofs GroupHistProofs2.

(** ** C56 *)

Section growth.
Context (C : crypto).

Lemma getSenderKey_kept s n k s' : getSenderKey C s n = Ok (k, s') ->
  if (n <? chain_at s)%N then
    chain_at s' = chain_at s /\ exists l1 l2, kept s = l1 ++ n :: l2 /\ kept s' = l1 ++ l2
  else chain_at s' = (n + 1)%N /\ kept s' = kept s ++ ((fun i => chain_at s + N.of_nat i)%N <$> seq 0 (N.to_nat (n - chain_at s))).
Proof using.
  unfold getSenderKey. rewrite chain_at_iter. destruct (N.ltb_spec n (chain_at s)) as [Hn|Hn].
  - destruct (sks_hasSenderMessageKey n s); [|done].
    unfold sks_removeSenderMessageKey. destruct (take_senderMessageKey n (st_senderMessageKeys s)) as [[m r]|] eqn:Ht; [|done].
    intros [= _ <-]. apply take_inv in Ht as (l1 & l2 & Hl & -> & Hm). split; [done|].
    exists ((fun k => default 0%N (smk_iteration k)) <$> l1), ((fun k => default 0%N (smk_iteration k)) <$> l2).
    unfold kept. rewrite Hl. cbn [st_senderMessageKeys st_set_senderMessageKeys]. by rewrite !fmap_app, fmap_cons, Hm.
  - destruct (2000 <? _)%Z eqn:Hz; [done|]. intros ([c1 s1] & H1 & H)%bind_ok_inv.
    apply bind_ok_inv in H as (s2 & [_ ->]%set_chain_inv & Hs2%Ok_inj). injection Hs2 as _ ->. cbn [fst snd] in *.
    apply skip_inv in H1 as (I1 & I2 & I3 & I4 & I5 & I6). rewrite chain_at_iter in I1, I6. split; [|done].
    change (scIteration (sck_next C c1) = n + 1)%N. cbn [sck_next scIteration]. lia.
Qed.

(** What one message does to the stored keys of the state it is for. *)
Lemma group_decrypt_kept n w b pt w1 :
  run (group_decrypt C n b) w = (Ok pt, w1) ->
  exists m l1 s s' l2, sk_msg_parse b = Ok m /\ senderkey_at w n = Ok (l1 ++ s :: l2) /\ senderkey_at w1 n = Ok (l1 ++ s' :: l2) /\
    default 0%N (st_senderKeyId s) = gKeyId m /\
    (if (gIteration m <? chain_at s)%N then
      chain_at s' = chain_at s /\ exists k1 k2, kept s = k1 ++ gIteration m :: k2 /\ kept s' = k1 ++ k2
    else chain_at s' = (gIteration m + 1)%N /\
    kept s' = kept s ++ ((fun i => chain_at s + N.of_nat i)%N <$> seq 0 (N.to_nat (gIteration m - chain_at s)))).
Proof using.
  rewrite run_group_decrypt. destruct (senderkey_at w n) as [[|s0 rest]|e] eqn:Hs; [done| |done].
  destruct (groupOpen C (s0 :: rest) b) as [x|] eqn:Ho; [|done]. intros [= _ <-].
  apply groupOpen_inv in Ho as (m & i & s & k & s' & Hm & Hi & Hk & Hx).
  apply find_state_some in Hi as (j & -> & Hj & Hid & _). rewrite Nat.add_0_l in Hx.
  exists m, (take j (s0 :: rest)), s, s', (drop (S j) (s0 :: rest)).
  split; [done|]. split; [by rewrite take_drop_middle|]. split; [|split; [done|by eapply getSenderKey_kept]].
  rewrite senderkey_stored.
  - rewrite Hx, insert_take_drop by (by eapply lookup_lt_Some). done.
  - rewrite Hx. apply (moves_wf (s0 :: rest)); [|by eapply senderkey_wf].
    eapply moves_put; [done|]. by eapply getSenderKey_adv.
Qed.

(** ** C57 *)

Lemma group_process_adds n m w rec w' :
  senderkey_at w n = Ok rec -> run (group_process n m) w = (Ok tt, w') ->
  exists s, senderkey_at w' n = Ok (rec ++ [s]) /\ default 0%N (st_senderKeyId s) = dId m /\ chain_at s = dIteration m.
Proof using.
  intros Hr. unfold group_process. rewrite run_bind, run_do, load_senderkey, Hr. rewrite run_bind, run_lift.
  destruct (sks_create _ _ _ _ _) as [s|] eqn:Hs; [|done]. rewrite run_do. cbn [step_call]. intros [= <-]. exists s.
  split; [|by apply sks_create_inv in Hs as (_ & _ & ->)].
  apply senderkey_stored, Forall_app. split; [by eapply senderkey_wf|]. apply Forall_singleton. by eapply sks_create_wf.
Qed.

Lemma group_process_runs n m w rec :
  senderkey_at w n = Ok rec -> (dId m < 2 ^ 32)%N -> (dIteration m < 2 ^ 32)%N -> (run (group_process n m) w).1 = Ok tt.
Proof using.
  intros Hr H1 H2. unfold group_process. rewrite run_bind, run_do, load_senderkey, Hr. rewrite run_bind, run_lift.
  unfold sks_create. by rewrite !set_u32_ok by done.
Qed.

Lemma group_states_grow n m k w rec :
  senderkey_at w n = Ok rec -> (dId m < 2 ^ 32)%N -> (dIteration m < 2 ^ 32)%N ->
  exists w' rec', later C w w' /\ senderkey_at w' n = Ok rec' /\ length rec' = length rec + k.
Proof using.
  intros Hr H1 H2. revert w rec Hr. induction k as [|k IH]; intros w rec Hr; [exists w, rec; split; [apply rtc_refl|split; [done|lia]]|].
  pose proof (group_process_runs n m w rec Hr H1 H2) as Hrun.
  destruct (run (group_process n m) w) as [o w1] eqn:E. cbn [fst] in Hrun. subst o.
  destruct (group_process_adds n m w rec w1 Hr E) as (s & Hs & _).
  destruct (IH w1 _ Hs) as (w' & rec' & Hl & Hr' & Hlen). exists w', rec'. split; [|split; [done|]].
  - eapply rtc_l; [|done]. pose proof (step_call_ends C w (AGroupProcess n m)) as Hst. cbn [api] in Hst. by rewrite E in Hst.
  - rewrite Hlen, app_length. cbn [length]. lia.
Qed.

(** ** C58 *)

Definition describe (rec : list st_s) : res senderKeyDistributionMessage :=
  s ← first_state rec;
  pub ← sks_getSigningKeyPublic s;
  skd_create (sks_getKeyId s) (scIteration (sks_getSenderChainKey s)) (scKey (sks_getSenderChainKey s)) pub.

Lemma run_group_create_known n w s rec :
  senderkey_at w n = Ok (s :: rec) ->
  run (group_create C n) w = (match describe (s :: rec) with Ok m => Ok m | Err e => Err (if isKeyException e then EAssertionError else e) end, w).
Proof using.
  intros Hr. unfold group_create. rewrite run_rethrow, run_bind, run_do, load_senderkey, Hr. rewrite run_bind, run_ret, run_lift.
  change (s0 ← first_state (s :: rec); _) with (describe (s :: rec)). by destruct (describe (s :: rec)).
Qed.

Lemma group_create_again n w m w1 : run (group_create C n) w = (Ok m, w1) -> run (group_create C n) w1 = (Ok m, w1).
Proof using.
  intros H. destruct (senderkey_at w n) as [[|s rec]|e] eqn:Hr.
  - unfold group_create in H. rewrite run_rethrow, run_bind, run_do, load_senderkey, Hr in H.
    case_match eqn:E. destruct r as [m'|e]; [|done]. injection H as -> ->.
    apply run_bind_ok in E as (rec & w2 & E1 & E2). rewrite run_lift in E2. injection E2 as E2 <-.
    apply run_bind_ok in E1 as (id & w3 & _ & E1). apply run_bind_ok in E1 as (ck & w4 & _ & E1). apply run_bind_ok in E1 as (kp & w5 & _ & E1).
    apply run_bind_ok in E1 as (s & w6 & E3 & E1). rewrite run_lift in E3. injection E3 as E3 <-.
    rewrite run_bind, run_do in E1. cbn [step_call run] in E1. injection E1 as <- <-.
    rewrite (run_group_create_known n _ s []).
    + change (describe [s] = Ok m) in E2. by rewrite E2.
    + apply senderkey_stored. apply Forall_singleton. by eapply sks_create_wf.
  - rewrite (run_group_create_known n w s rec Hr) in H. injection H as H <-. rewrite (run_group_create_known n w s rec Hr). by rewrite H.
  - unfold group_create in H. rewrite run_rethrow, run_bind, run_do, load_senderkey, Hr in H. done.
Qed.
End growth.

(** ** C56: no limit *)

Section limit.
Context (C : crypto) (Hok : crypto_ok C) (name : senderKeyName).

(** The ideal state after a schedule. *)
Fixpoint ifinal (l : list gaction) (s : ideal) : ideal :=
  match l with [] => s | a :: l => ifinal l (iact a s).2 end.

Lemma gplay_inv id ck0 seed (Hid : (id < 2 ^ 32)%N) (Hseed : length seed = 32) l : forall n s,
  ginv C name id ck0 seed n s -> (N.of_nat (length (i_sent s) + length l) < 2 ^ 32)%N ->
  ginv C name id ck0 seed (gplay C name l n).2 (ifinal l s).
Proof using Hok.
  induction l as [|a l IH]; intros n s Hinv Hb; [done|]. cbn [length] in Hb. cbn [gplay ifinal].
  destruct (gact_ok C Hok name id ck0 seed Hid Hseed a n s Hinv ltac:(lia)) as (H1 & H2 & H3).
  destruct (gact C name a n) as [e n1]. cbn [fst snd] in *. specialize (IH n1 _ H2 ltac:(lia)).
  by destruct (gplay C name l n1) as [es n2].
Qed.

Lemma ifinal_sends n pt : forall sent m, ifinal (replicate n (GSend pt)) (Ideal sent [0] m) = Ideal (sent ++ replicate n pt) [0] m.
Proof using.
  induction n as [|n IH]; intros sent m; [by rewrite app_nil_r|]. cbn [replicate ifinal iact fst snd i_sent i_dists i_members].
  rewrite IH, <- app_assoc. done.
Qed.
Lemma ifinal_app l1 l2 s : ifinal (l1 ++ l2) s = ifinal l2 (ifinal l1 s).
Proof using. revert s. induction l1 as [|a l1 IH]; intros s; [done|]. apply IH. Qed.

Lemma stored_unbounded S M n pt :
  w_senderkeys S !! name = None -> w_senderkeys M !! name = None -> (N.of_nat n + 3 < 2 ^ 32)%N ->
  exists M' s rest, g_M (gplay C name (GCreate :: GJoin 0 0 :: replicate n (GSend pt) ++ [GSend pt; GDeliver 0 n]) (GNet S [M] [] [])).2 = [M'] /\
    senderkey_at M' name = Ok (s :: rest) /\ length (st_senderMessageKeys s) = n.
Proof using Hok.
  intros HS HM Hn. set (l := GJoin 0 0 :: _). cbn [gplay gact g_S].
  destruct (group_first_create C Hok name S HS) as (id & ck0 & seed & d & w' & Hid & Hseed & -> & Hd & Hs).
  cbn [g_M g_dists g_msgs app]. set (g := GNet _ _ _ _).
  pose proof (gplay_inv id ck0 seed Hid Hseed l g (Ideal [] [0] [None])) as H.
  destruct (gplay C name l g) as [es n2]. cbn [fst snd] in *. destruct H as [_ _ _ _ _ H].
  - split; cbn [g_S g_M g_dists g_msgs i_sent i_dists i_members g]; try (by exists []); try done.
    + cbn. by rewrite Hd.
    + constructor; [done|constructor].
    + by repeat constructor.
  - unfold l. cbn [i_sent length]. rewrite app_length, replicate_length. cbn [length]. lia.
  - assert (ifinal l (Ideal [] [0] [None]) = Ideal (replicate (n + 1) pt) [0] [Some (0, [n])]) as E.
    { unfold l. cbn [ifinal]. change (iact (GJoin 0 0) (Ideal [] [0] [None])).2 with (Ideal [] [0] [Some (0, [])]).
      rewrite ifinal_app, ifinal_sends. cbn [app ifinal iact fst snd i_sent i_dists i_members lookup list_lookup].
      replace ((replicate n pt ++ [pt]) !! n) with (Some pt).
      2:{ rewrite lookup_app_r by (by rewrite replicate_length). by rewrite replicate_length, Nat.sub_diag. }
      rewrite !bool_decide_eq_false_2; [|by apply not_elem_of_nil|lia]. cbn [orb fst snd insert list_insert].
      by rewrite replicate_add. }
    rewrite E in H. cbn [i_members i_sent] in H. inversion H as [|M' ? Ms ? Hm Hnil EM]. subst. inversion Hnil. subst.
    destruct Hm as (m & l1 & rest & Hst & Hb & Hnd & Hl & Hseen). rewrite Forall_singleton in Hseen. rewrite replicate_length in Hb.
    assert (m = n + 1) as -> by lia. eexists M', _, rest. split; [done|]. split; [exact Hst|].
    cbn [gstate st_senderMessageKeys]. rewrite fmap_length.
    assert (l1 ≡ₚ seq 0 n) as Hp.
    { apply NoDup_Permutation; [done|apply NoDup_seq|]. intros i. rewrite Hl, elem_of_seq, elem_of_list_singleton. lia. }
    by rewrite Hp, seq_length.
Qed.
End limit.
