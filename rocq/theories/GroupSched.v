(** Any schedule of a group behaves as the ideal one (C29), and consequences. *)
From Verif Require Import PyBase Wire Protos ProtoFacts Crypto Ecc Kdf Messages State Prog Groups Helper.
From Verif Require Import ProgFacts StateFacts UtilFacts HelperFacts MsgFacts SpecSession SpecGroup GroupFacts SessionProofs GroupProofs.

Section sched.
Context (C : crypto) (Hok : crypto_ok C) (name : senderKeyName).

(** The fixed data of a sender: id, first chain key, and the seed of its signing key. *)
Context (id : N) (ck0 seed : bytes).
Definition spriv : bytes := genPriv C seed.
Definition spub : bytes := genPub C spriv.

Notation gstate := (gstate C 0 id ck0 spub).
Notation gkey := (gkey C 0 ck0).

Definition dserial (b : nat) : bytes :=
  x33 :: skd_enc (SkdS (Some id) (Some (N.of_nat b)) (Some (gkey b)) (Some (pub_serialize spub))).

Definition member_ok (sent : nat) (w : world) (mem : option (nat * list nat)) : Prop :=
  match mem with
  | None => w_senderkeys w !! name = None
  | Some (b, seen) => exists m l rest,
      senderkey_at w name = Ok (gstate None m l :: rest) /\ b <= m <= sent /\ NoDup l /\
      (forall i, i ∈ l <-> b <= i < m /\ i ∉ seen) /\ Forall (fun i => i < m) seen
  end.

Record ginv (n : gnet) (s : ideal) : Prop := Ginv {
  gi_sender : exists rest, senderkey_at (g_S n) name = Ok (gstate (Some spriv) (length (i_sent s)) [] :: rest);
  gi_dists : g_dists n = dserial <$> i_dists s;
  gi_base : Forall (fun b => b <= length (i_sent s)) (i_dists s);
  gi_len : length (g_msgs n) = length (i_sent s);
  gi_msgs : forall i pt b, i_sent s !! i = Some pt -> g_msgs n !! i = Some b -> gmessage C 0 id ck0 spub i pt b;
  gi_members : Forall2 (member_ok (length (i_sent s))) (g_M n) (i_members s) }.

Context (Hid : (id < 2 ^ 32)%N) (Hseed : length seed = 32).

Lemma spriv_len : length spriv = 32.
Proof using Hok Hseed. by apply (co_priv_len C Hok). Qed.
Lemma spub_len : length spub = 32.
Proof using Hok Hseed. apply (co_pub_len C Hok). apply spriv_len. Qed.

Lemma member_ok_mono a b w mem : a <= b -> member_ok a w mem -> member_ok b w mem.
Proof.
  intros Hab. destruct mem as [[j seen]|]; cbn [member_ok]; [|done].
  intros (m & l & rest & H1 & H2 & H3 & H4 & H5). exists m, l, rest. split_and!; try done; lia.
Qed.

Lemma st_wf_gstate priv m l : (N.of_nat m < 2 ^ 32)%N -> Forall (fun i => i < m) l -> st_wf (gstate priv m l).
Proof using Hid Hseed.
  intros Hm Hl. apply gstate_wf; [done..|]. eapply Forall_impl; [exact Hl|]. cbn. intros x Hx. lia.
Qed.

(** ** The sender *)

Lemma run_create_again w m rest :
  senderkey_at w name = Ok (gstate (Some spriv) m [] :: rest) -> (N.of_nat m < 2 ^ 32)%N ->
  exists d, run (group_create C name) w = (Ok d, w) /\ dSerialized d = dserial m.
Proof using Hok Hid Hseed.
  intros Hs Hm. unfold group_create. rewrite run_rethrow, run_bind, run_do, load_senderkey, Hs.
  rewrite run_bind. cbn [run]. rewrite run_lift. cbn [first_state]. rewrite bind_ok.
  unfold sks_getSigningKeyPublic. cbn [GroupProofs.gstate st_senderSigningKey]. rewrite default_Some. cbn [ssk_public]. rewrite default_Some.
  change (x05 :: spub) with (pub_serialize spub). rewrite decodePoint_serialize by (rewrite spub_len; lia).
  rewrite bind_ok, gstate_chain. cbn [scIteration scKey].
  change (sks_getKeyId _) with id. rewrite skd_create_ok by done. eauto.
Qed.

Lemma run_send w m rest pt :
  senderkey_at w name = Ok (gstate (Some spriv) m [] :: rest) -> (N.of_nat (S m) < 2 ^ 32)%N ->
  exists b w', run (group_encrypt C name pt) w = (Ok b, w') /\ gmessage C 0 id ck0 spub m pt b /\
    senderkey_at w' name = Ok (gstate (Some spriv) (S m) [] :: rest).
Proof using Hok Hid Hseed.
  intros Hs Hm. unfold group_encrypt. rewrite run_rethrow, run_bind, run_do, load_senderkey, Hs.
  rewrite run_bind, run_lift. cbn [first_state]. rewrite gstate_chain, gstate_mk.
  destruct (gmk_lengths C Hok 0 ck0 m) as [H1 H2].
  destruct (aes_roundtrip C Hok (smCipher (gmk C 0 ck0 m)) (smIv (gmk C 0 ck0 m)) pt H2 H1) as (ct & Hct & _).
  rewrite run_bind, run_lift, Hct. rewrite run_bind, run_lift.
  change (sks_getKeyId _) with id. change (smIteration (gmk C 0 ck0 m)) with (N.of_nat m).
  rewrite sk_tosign_ok by (done || lia).
  change (sks_getSigningKeyPrivate _) with spriv.
  rewrite run_bind, run_calculateSignature by apply spriv_len.
  rewrite run_bind, run_lift, gstate_next by lia. unfold sks_setSenderChainKey. cbn [scIteration scKey].
  rewrite set_u32_ok by done. rewrite bind_ok.
  change (st_set_senderChainKey _ _) with (gstate (Some spriv) (S m) []).
  rewrite run_bind, run_do. cbn [step_call put_state]. cbn [run].
  eexists _, _. split; [done|]. split.
  - exists ct, (sign C (resize 64 x00 (w_tape w (w_pos w))) spriv (x33 :: sk_enc (SkS (Some id) (Some (N.of_nat m)) (Some ct)))).
    split_and!; [done|done| |apply spub_len|].
    + apply (co_sign_len C Hok); [apply resize_length|apply spriv_len].
    + apply (co_verify C Hok); [done|apply resize_length].
  - apply senderkey_wf in Hs as [_ Hr]%Forall_cons.
    change (gstate (Some spriv) (S m) [] :: rest) with (put_state 0 (gstate (Some spriv) (S m) []) (gstate (Some spriv) m [] :: rest)).
    apply (senderkey_stored (w_set_pos (S (w_pos w)) w)). constructor; [|done]. apply st_wf_gstate; [done|constructor].
Qed.

(** ** Members *)

Lemma run_join w b sent mem :
  member_ok sent w mem -> b <= sent -> (N.of_nat sent < 2 ^ 32)%N ->
  exists w', run (m ← lift (skd_msg_parse (dserial b)); group_process name m) w = (Ok tt, w') /\
    member_ok sent w' (match mem with None => Some (b, []) | Some x => Some x end).
Proof using Hok Hid Hseed.
  intros Hm Hb Hsent. rewrite run_bind, run_lift.
  assert (skd_msg_parse (dserial b) = Ok (SenderKeyDistributionMessage id (N.of_nat b) (gkey b) spub (dserial b))) as ->.
  { apply (skd_roundtrip_msg id (N.of_nat b) (gkey b) spub (SenderKeyDistributionMessage id (N.of_nat b) (gkey b) spub (dserial b))); [rewrite spub_len; lia|].
    apply skd_create_ok; [done|lia]. }
  unfold group_process. rewrite run_bind, run_do, load_senderkey.
  destruct mem as [[b0 seen]|].
  - destruct Hm as (m & l & rest & Hs & H2 & H3 & H4 & H5). rewrite Hs.
    rewrite run_bind, run_lift. unfold sks_create. cbn [dId dIteration dChainKey dSignatureKey].
    rewrite !set_u32_ok by (done || lia). rewrite !bind_ok, run_do. cbn [step_call].
    eexists. split; [done|]. eexists m, l, _. split_and!; try done; [|lia..].
    change ((gstate None m l :: rest) ++ ?x) with (gstate None m l :: (rest ++ x)) at 1.
    apply senderkey_stored. apply senderkey_wf in Hs as [Ha Hr]%Forall_cons. constructor; [done|].
    apply Forall_app. split; [done|]. constructor; [|constructor].
    change (StS _ _ _ _) with (gstate None b []). apply st_wf_gstate; [lia|constructor].
  - cbn [member_ok] in Hm. unfold senderkey_at. rewrite Hm.
    rewrite run_bind, run_lift. unfold sks_create. cbn [dId dIteration dChainKey dSignatureKey].
    rewrite !set_u32_ok by (done || lia). rewrite !bind_ok, run_do. cbn [step_call app].
    eexists. split; [done|]. eexists b, [], []. split_and!.
    + change (StS _ _ _ _) with (gstate None b []) at 1. apply senderkey_stored.
      constructor; [|constructor]. apply st_wf_gstate; [lia|constructor].
    + done.
    + done.
    + constructor.
    + intros i. rewrite elem_of_nil. split; [done|]. lia.
    + constructor.
Qed.

Lemma run_deliver w i pt bs sent b seen :
  member_ok sent w (Some (b, seen)) -> i < sent -> (N.of_nat sent < 2 ^ 32)%N -> gmessage C 0 id ck0 spub i pt bs ->
  if bool_decide (i < b) || bool_decide (i ∈ seen) then
    run (group_decrypt C name bs) w = (Err EDuplicateMessage, w)
  else exists w', run (group_decrypt C name bs) w = (Ok pt, w') /\ member_ok sent w' (Some (b, i :: seen)).
Proof using Hok Hid Hseed.
  intros (m & l & rest & Hs & Hbm & Hnd & Hl & Hseen) Hi Hsent Hb.
  rewrite run_group_decrypt, Hs.
  assert (forall s : st_s, s ∈ @nil st_s -> sks_getKeyId s <> id) as Hnil by (intros s Hx; by apply elem_of_nil in Hx).
  pose proof (senderkey_wf _ _ _ Hs) as [Hwf Hrest]%Forall_cons.
  change (gstate None m l :: rest) with ([] ++ gstate None m l :: rest).
  destruct (decide (i < m)) as [Him|Him].
  - destruct (decide (i ∈ l)) as [Hil|Hil].
    + apply Hl in Hil as Hx. destruct Hx as [Hx1 Hx2].
      rewrite !bool_decide_eq_false_2 by (done || lia). cbn [orb].
      apply elem_of_list_split in Hil as (l1 & l2 & ->).
      apply NoDup_app in Hnd as (Hn1 & Hn2 & Hn3%NoDup_cons). destruct Hn3 as [Hn3 Hn4].
      assert (i ∉ l1) as Hi1. { intros Hin. apply (Hn2 i Hin). left. }
      rewrite (groupOpen_key C Hok 0 id ck0 spub None m _ i pt bs [] rest m (l1 ++ l2)); [|done|lia|done|done|by apply getSenderKey_stored].
      cbn [fst snd app]. eexists. split; [done|]. exists m, (l1 ++ l2), rest. split_and!; [|lia|lia|..].
      * apply senderkey_stored. constructor; [|done]. apply st_wf_gstate; [lia|].
        apply Forall_forall. intros x Hx. apply (Hl x). set_solver.
      * apply NoDup_app. split_and!; [done| |done]. intros x Hx Hx'. apply (Hn2 x Hx). by right.
      * intros x. specialize (Hl x). rewrite elem_of_app, elem_of_cons in Hl. rewrite elem_of_app, not_elem_of_cons.
        split.
        -- intros Hx. assert (b <= x < m /\ x ∉ seen) as [? ?] by (apply Hl; tauto).
           split_and!; [lia|lia| |done]. intros ->. destruct Hx; done.
        -- intros (Hx & Hne & Hx'). assert (x ∈ l1 \/ x = i \/ x ∈ l2) as [|[|]] by (apply Hl; done); [by left|done|by right].
      * constructor; done.
    + assert (i < b \/ i ∈ seen) as Hd.
      { destruct (decide (i < b)); [by left|]. destruct (decide (i ∈ seen)); [by right|]. exfalso. apply Hil, Hl. split; [lia|done]. }
      assert (bool_decide (i < b) || bool_decide (i ∈ seen) = true) as ->.
      { apply orb_true_iff. rewrite !bool_decide_eq_true. done. }
      rewrite (groupOpen_genuine C 0 id ck0 spub None m l i pt bs [] rest) by (done || lia).
      rewrite getSenderKey_used by done. done.
  - assert (i ∉ seen) as Hns. { intros Hin. rewrite Forall_forall in Hseen. apply Hseen in Hin. lia. }
    rewrite !bool_decide_eq_false_2 by (done || lia). cbn [orb].
    rewrite (groupOpen_key C Hok 0 id ck0 spub None m l i pt bs [] rest (S i) (l ++ seq m (i - m)));
      [|done|lia|done|done|apply getSenderKey_ahead; lia].
    cbn [fst snd app]. eexists. split; [done|].
    assert (forall x, x ∈ l ++ seq m (i - m) <-> b <= x < S i /\ x ∉ i :: seen) as Hnew.
    { intros x. rewrite elem_of_app, elem_of_seq, not_elem_of_cons, Hl. split.
      - intros [[? ?]|?]; [split_and!; [lia|lia|lia|done]|]. split_and!; [lia|lia|lia|].
        intros Hin. rewrite Forall_forall in Hseen. apply Hseen in Hin. lia.
      - intros (Hx & Hne & Hx'). destruct (decide (x < m)); [left; split; [lia|done]|right; lia]. }
    exists (S i), (l ++ seq m (i - m)), rest. split_and!; [|lia|lia|..].
    + apply senderkey_stored. constructor; [|done]. apply st_wf_gstate; [lia|].
      apply Forall_forall. intros x Hx. apply Hnew in Hx. lia.
    + apply NoDup_app. split_and!; [done| |apply NoDup_seq]. intros x Hx Hx'. apply Hl in Hx. apply elem_of_seq in Hx'. lia.
    + exact Hnew.
    + constructor; [lia|]. eapply Forall_impl; [exact Hseen|]. cbn. lia.
Qed.

(** ** Refinement *)

Lemma gact_ok a n s :
  ginv n s -> (N.of_nat (S (length (i_sent s))) < 2 ^ 32)%N ->
  (gact C name a n).1 = (iact a s).1 /\ ginv (gact C name a n).2 (iact a s).2 /\
  length (i_sent (iact a s).2) <= S (length (i_sent s)).
Proof using Hok Hid Hseed.
  intros Hinv Hb. pose proof Hinv as [[rest Hs] Hd Hbase Hlen Hmsg Hmem].
  destruct a as [|pt|j k|j i]; cbn [gact iact].
  - destruct (run_create_again (g_S n) _ _ Hs ltac:(lia)) as (d & -> & Hd'). cbn [fst snd i_sent]. split_and!; [done| |lia].
    split; cbn [g_S g_M g_dists g_msgs i_sent i_dists i_members]; try (by eexists); try done.
    + by rewrite Hd, fmap_app, Hd'.
    + apply Forall_app. split; [done|]. constructor; [done|constructor].
  - destruct (run_send (g_S n) _ _ pt Hs Hb) as (b & w' & -> & Hm & Hs'). cbn [fst snd i_sent].
    assert (length (i_sent s ++ [pt]) = S (length (i_sent s))) as Hl' by (rewrite app_length; cbn; lia).
    split_and!; [done| |lia].
    split; cbn [g_S g_M g_dists g_msgs i_sent i_dists i_members]; rewrite ?Hl'; try (by eexists); try done.
    + eapply Forall_impl; [exact Hbase|]. cbn. lia.
    + rewrite app_length. cbn. lia.
    + intros i p b' Hi Hb'. apply lookup_app_Some in Hi as [Hi|[Hi1 Hi2]].
      * rewrite lookup_app_l in Hb' by (rewrite Hlen; by eapply lookup_lt_Some). by eapply Hmsg.
      * apply list_lookup_singleton_Some in Hi2 as [Hi2 ->].
        assert (i = length (i_sent s)) as -> by lia. rewrite lookup_app_r in Hb' by lia. rewrite Hlen, Nat.sub_diag in Hb'.
        cbn in Hb'. injection Hb' as <-. done.
    + eapply Forall2_impl; [exact Hmem|]. intros. eapply member_ok_mono; [|done]. lia.
  - rewrite Hd, list_lookup_fmap.
    destruct (g_M n !! j) as [w|] eqn:Ew.
    2:{ assert (i_members s !! j = None) as ->. { apply lookup_ge_None in Ew. apply lookup_ge_None. apply Forall2_length in Hmem. lia. }
        cbn [fst snd i_sent]. split_and!; [done|done|lia]. }
    destruct (Forall2_lookup_l _ _ _ _ _ Hmem Ew) as (mem & Emem & Hmok). rewrite Emem.
    destruct (i_dists s !! k) as [b|] eqn:Ek; cbn [fmap option_fmap option_map].
    2:{ destruct mem; cbn [fst snd i_sent]; split_and!; try done; lia. }
    assert (b <= length (i_sent s)) as Hbl. { rewrite Forall_lookup in Hbase. by eapply Hbase. }
    destruct (run_join w b _ mem Hmok Hbl ltac:(lia)) as (w' & -> & Hmok').
    destruct mem as [[b0 seen]|]; cbn [fst snd i_sent]; split_and!; try done; try lia.
    + split; cbn [g_S g_M g_dists g_msgs i_sent i_dists i_members]; try (by eexists); try done.
      rewrite <- (list_insert_id _ _ _ Emem). by apply Forall2_insert.
    + split; cbn [g_S g_M g_dists g_msgs i_sent i_dists i_members]; try (by eexists); try done. by apply Forall2_insert.
  - destruct (g_M n !! j) as [w|] eqn:Ew.
    2:{ assert (i_members s !! j = None) as ->. { apply lookup_ge_None in Ew. apply lookup_ge_None. apply Forall2_length in Hmem. lia. }
        cbn [fst snd i_sent]. split_and!; [done|done|lia]. }
    destruct (Forall2_lookup_l _ _ _ _ _ Hmem Ew) as (mem & Emem & Hmok). rewrite Emem.
    destruct (i_sent s !! i) as [pt|] eqn:Ei.
    2:{ assert (g_msgs n !! i = None) as ->. { apply lookup_ge_None in Ei. apply lookup_ge_None. lia. }
        destruct mem as [[b seen]|]; cbn [fst snd i_sent]; split_and!; try done; lia. }
    assert (i < length (i_sent s)) as Hil by (by eapply lookup_lt_Some).
    destruct (lookup_lt_is_Some_2 (g_msgs n) i ltac:(lia)) as [bs Ebs]. rewrite Ebs.
    pose proof (Hmsg i pt bs Ei Ebs) as Hg.
    destruct mem as [[b seen]|].
    + pose proof (run_deliver w i pt bs _ b seen Hmok Hil ltac:(lia) Hg) as Hrun.
      destruct (_ || _).
      * rewrite Hrun. cbn [fst snd]. split_and!; [done| |lia].
        split; cbn [g_S g_M g_dists g_msgs i_sent i_dists i_members]; try (by eexists); try done.
        rewrite (list_insert_id _ _ _ Ew). done.
      * destruct Hrun as (w' & -> & Hmok'). cbn [fst snd i_sent]. split_and!; [done| |lia].
        split; cbn [g_S g_M g_dists g_msgs i_sent i_dists i_members]; try (by eexists); try done. by apply Forall2_insert.
    + rewrite group_decrypt_none by done. cbn [fst snd]. split_and!; [done| |lia].
      split; cbn [g_S g_M g_dists g_msgs i_sent i_dists i_members]; try (by eexists); try done.
      rewrite (list_insert_id _ _ _ Ew). done.
Qed.

Lemma gplay_ok l n s :
  ginv n s -> (N.of_nat (length (i_sent s) + length l) < 2 ^ 32)%N -> (gplay C name l n).1 = iplay l s.
Proof using Hok Hid Hseed.
  revert n s. induction l as [|a l IH]; intros n s Hinv Hb; [done|]. cbn [length] in Hb. cbn [gplay iplay].
  destruct (gact_ok a n s Hinv ltac:(lia)) as (H1 & H2 & H3).
  destruct (gact C name a n) as [e n1], (iact a s) as [e' s1]. cbn [fst snd] in *. subst e'.
  specialize (IH n1 s1 H2 ltac:(lia)). destruct (gplay C name l n1) as [es n2]. cbn [fst] in *. by rewrite IH.
Qed.
End sched.

Section c29.
Context (C : crypto) (Hok : crypto_ok C).

Lemma group_first_create name w :
  w_senderkeys w !! name = None ->
  exists id ck0 seed d w', (id < 2 ^ 32)%N /\ length seed = 32 /\
    run (group_create C name) w = (Ok d, w') /\ dSerialized d = dserial C id ck0 seed 0 /\
    senderkey_at w' name = Ok [gstate C 0 id ck0 (spub C seed) (Some (spriv C seed)) 0 []].
Proof using Hok.
  intros Hn. unfold group_create. rewrite run_rethrow, run_bind, run_do, load_senderkey.
  unfold senderkey_at at 1. rewrite Hn. rewrite run_bind, run_bind, run_getRandomSequence by done.
  set (id := (be_val _ mod _)%N). assert (id < 2 ^ 32)%N as Hid.
  { unfold id. generalize (be_val (w_tape w (w_pos w))). intros x. pose proof (N.mod_lt x 2147483647 ltac:(done)). lia. }
  rewrite run_bind, run_do. cbn [step_call]. set (ck0 := resize 32 _ _).
  rewrite run_bind, (run_generateKeyPair C Hok). cbn [w_set_pos w_tape w_pos].
  set (w2 := w_set_pos _ _). rewrite run_bind, run_lift. unfold sks_create. rewrite !set_u32_ok by done.
  rewrite !bind_ok. rewrite run_bind, run_do. cbn [step_call].
  match goal with |- context [kp_at C ?a ?b] => set (wk := a); set (nk := b) end.
  set (seed := resize 32 x00 (w_tape wk nk)).
  assert (length seed = 32) as Hseed by apply resize_length.
  change (kp_pub (kp_at C wk nk)) with (spub C seed). change (kp_priv (kp_at C wk nk)) with (spriv C seed).
  change (StS _ _ _ _) with (gstate C 0 id ck0 (spub C seed) (Some (spriv C seed)) 0 []).
  cbn [run]. rewrite run_lift. cbn [first_state]. rewrite bind_ok.
  unfold sks_getSigningKeyPublic. cbn [gstate st_senderSigningKey]. rewrite default_Some. cbn [ssk_public]. rewrite default_Some.
  change (x05 :: spub C seed) with (pub_serialize (spub C seed)).
  rewrite decodePoint_serialize by (rewrite spub_len; [lia|done|done]).
  rewrite bind_ok, gstate_chain. cbn [scIteration scKey].
  change (sks_getKeyId _) with id. rewrite skd_create_ok by done.
  exists id, ck0, seed, (SenderKeyDistributionMessage id (N.of_nat 0) (gkey C 0 ck0 0) (spub C seed) (dserial C id ck0 seed 0)).
  eexists. split_and!; [done|done|done|done|]. apply senderkey_stored. constructor; [|constructor].
  by apply st_wf_gstate.
Qed.

Lemma group_refines name S M l :
  w_senderkeys S !! name = None -> Forall (fun w => w_senderkeys w !! name = None) M ->
  (N.of_nat (length l) < 2 ^ 32)%N ->
  (gplay C name (GCreate :: l) (GNet S M [] [])).1 = GCreated :: iplay l (Ideal [] [0] (replicate (length M) None)).
Proof using Hok.
  intros HS HM Hl. cbn [gplay gact g_S].
  destruct (group_first_create name S HS) as (id & ck0 & seed & d & w' & Hid & Hseed & -> & Hd & Hs).
  cbn [g_M g_dists g_msgs app]. set (n := GNet _ _ _ _).
  pose proof (gplay_ok C Hok name id ck0 seed Hid Hseed l n (Ideal [] [0] (replicate (length M) None))) as H.
  destruct (gplay C name l n) as [es n2]. cbn [fst] in *. f_equal. apply H; [|done].
  split; cbn [g_S g_M g_dists g_msgs i_sent i_dists i_members n]; try (by exists []); try done.
  - cbn. by rewrite Hd.
  - constructor; [done|constructor].
  - clear -HM. induction HM; constructor; done.
Qed.
End c29.
