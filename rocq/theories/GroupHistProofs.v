(** Group histories: C53 to C58. *)
From stdpp Require Import sorting.
From Verif Require Import PyBase Wire Protos ProtoFacts Crypto Ecc Kdf Messages State Prog Builder Cipher Groups.
From Verif Require Import ProgFacts StateFacts UtilFacts MsgFacts SpecSession SpecGroup SpecApi SpecIso SpecCrash CrashProofs IsoProofs GroupFacts SpecGroupHist.

(** ** One state *)

Definition state_id (s : st_s) : N := default 0%N (st_senderKeyId s).

(** What the setters keep of a state: stored iterations are distinct and behind the chain. *)
Definition st_ok (s : st_s) : Prop := NoDup (kept s) /\ Forall (fun n => n < chain_at s)%N (kept s).
(** Moreover they are in ascending order. *)
Definition ascending (s : st_s) : Prop := StronglySorted N.lt (kept s).
Lemma ascending_app (l1 l2 : list N) : StronglySorted N.lt l1 -> StronglySorted N.lt l2 ->
  (forall x y, x ∈ l1 -> y ∈ l2 -> x < y)%N -> StronglySorted N.lt (l1 ++ l2).
Proof.
  intros H1 H2 H. induction H1 as [|x l1 Hl IH Hx]; [done|]. cbn [app]. constructor.
  - apply IH. intros y z Hy Hz. apply H; [by right|done].
  - apply Forall_app. split; [done|]. apply Forall_forall. intros y Hy. apply H; [by left|done].
Qed.
Lemma ascending_less (l1 : list N) x l2 : StronglySorted N.lt (l1 ++ x :: l2) -> StronglySorted N.lt (l1 ++ l2).
Proof.
  intros H. apply ascending_app.
  - by eapply StronglySorted_app_inv_l.
  - apply StronglySorted_app_inv_r in H. by apply StronglySorted_inv in H as [H _].
  - intros y z Hy Hz. eapply elem_of_StronglySorted_app; [exact H|done|by right].
Qed.
Lemma ascending_run it a k : StronglySorted N.lt ((fun i => it + N.of_nat i)%N <$> seq a k).
Proof.
  revert a. induction k as [|k IH]; intros a; [constructor|]. cbn [seq fmap list_fmap]. constructor; [apply IH|].
  apply Forall_forall. intros x (i & -> & Hi%elem_of_seq)%elem_of_list_fmap. lia.
Qed.

(** A later version of the same state. *)
Record adv (s s' : st_s) : Prop := Adv {
  adv_id : st_senderKeyId s' = st_senderKeyId s;
  adv_sig : st_senderSigningKey s' = st_senderSigningKey s;
  adv_chain : (chain_at s <= chain_at s')%N;
  adv_holds : forall n, holds_group_key s' n -> holds_group_key s n;
  adv_ok : st_ok s -> st_ok s';
  adv_wf : st_wf s -> st_wf s';
  adv_ascending : st_ok s -> ascending s -> ascending s' }.

Lemma adv_refl s : adv s s.
Proof. by constructor. Qed.
Lemma adv_trans s1 s2 s3 : adv s1 s2 -> adv s2 s3 -> adv s1 s3.
Proof. intros [] []. constructor; try congruence; try lia; eauto. Qed.

Lemma chain_at_iter s : scIteration (sks_getSenderChainKey s) = chain_at s.
Proof. done. Qed.

Lemma set_chain_inv c s s' : sks_setSenderChainKey c s = Ok s' ->
  (scIteration c < 2 ^ 32)%N /\
  s' = st_set_senderChainKey (Some (SckS (Some (scIteration c)) (Some (scKey c)))) s.
Proof. unfold sks_setSenderChainKey. intros (x & [-> Hx]%set_u32_inv & ->%Ok_inj)%bind_ok_inv. done. Qed.

Lemma adv_set_chain c s s' : (chain_at s <= scIteration c)%N -> sks_setSenderChainKey c s = Ok s' -> adv s s' /\ chain_at s' = scIteration c /\ kept s' = kept s.
Proof.
  intros Hle [Hlt ->]%set_chain_inv. split; [|done]. constructor; try done.
  - intros n [H|H]; [left|by right]. cbn in H. lia.
  - intros [H1 H2]. split; [done|]. eapply Forall_impl; [exact H2|]. intros n. cbn. lia.
  - intros (H1 & H2 & H3 & H4). split; [done|]. split; [|done]. exact Hlt.
Qed.

Section state.
Context (C : crypto).

Lemma skip_inv k : forall c s c' s',
  skipSenderKeys C k c s = Ok (c', s') ->
  scIteration c' = (scIteration c + N.of_nat k)%N /\
  st_senderKeyId s' = st_senderKeyId s /\ st_senderSigningKey s' = st_senderSigningKey s /\
  st_senderChainKey s' = st_senderChainKey s /\ (st_wf s -> st_wf s') /\
  kept s' = kept s ++ ((fun i => scIteration c + N.of_nat i)%N <$> seq 0 k).
Proof using.
  induction k as [|k IH]; intros c s c' s'; cbn [skipSenderKeys].
  - intros [= -> ->]. split_and!; try done; [lia|by rewrite app_nil_r].
  - intros (s1 & H1 & H)%bind_ok_inv. apply IH in H as (H2 & H3 & H4 & H5 & H6 & H7).
    unfold sks_addSenderMessageKey in H1. apply bind_ok_inv in H1 as (x & [-> Hx]%set_u32_inv & ->%Ok_inj).
    cbn [sck_next scIteration] in *. split_and!; [lia|done..| |].
    + intros (W1 & W2 & W3 & W4). apply H6. split_and!; try done. cbn [st_senderMessageKeys st_set_senderMessageKeys].
      apply Forall_app. split; [done|]. by repeat constructor.
    + rewrite H7. unfold kept at 1. cbn [st_senderMessageKeys st_set_senderMessageKeys]. rewrite fmap_app, <- app_assoc. f_equal.
      change (seq 0 (S k)) with (0 :: seq 1 k). rewrite <- fmap_S_seq, !fmap_cons, <- list_fmap_compose. cbn [fmap list_fmap app]. f_equal.
      * unfold sck_messageKey, mk_senderMessageKey. destruct (bu_split2 _ _ _). cbn. lia.
      * apply list_fmap_ext. intros ? i _. cbn. lia.
Qed.

Lemma take_inv n l m r : take_senderMessageKey n l = Some (m, r) ->
  exists l1 l2, l = l1 ++ m :: l2 /\ r = l1 ++ l2 /\ default 0%N (smk_iteration m) = n.
Proof using.
  revert m r. induction l as [|x l IH]; intros m r; cbn [take_senderMessageKey]; [done|].
  unfold smk_hasIteration. destruct (N.eqb_spec (default 0%N (smk_iteration x)) n) as [E|E].
  - intros [= -> ->]. by exists [], r.
  - destruct (take_senderMessageKey n l) as [[y r']|]; [|done]. intros [= -> <-].
    destruct (IH _ _ eq_refl) as (l1 & l2 & -> & -> & H). by exists (x :: l1), l2.
Qed.

Lemma has_key_kept n s : sks_hasSenderMessageKey n s = true <-> n ∈ kept s.
Proof using.
  unfold sks_hasSenderMessageKey, kept. rewrite existsb_exists, elem_of_list_fmap. unfold smk_hasIteration. split.
  - intros (x & Hx & E%N.eqb_eq). exists x. split; [done|]. by apply elem_of_list_In.
  - intros (x & -> & Hx). exists x. split; [by apply elem_of_list_In|]. by rewrite N.eqb_refl.
Qed.

(** Using an iteration: the state moves on, and does not hold its key any more. *)
Lemma getSenderKey_adv s n k s' : getSenderKey C s n = Ok (k, s') ->
  adv s s' /\ (st_ok s -> ~ holds_group_key s' n) /\ holds_group_key s n /\ (n < chain_at s')%N.
Proof using.
  unfold getSenderKey. rewrite chain_at_iter. destruct (N.ltb_spec n (chain_at s)) as [Hn|Hn].
  - destruct (sks_hasSenderMessageKey n s) eqn:Hh; [|done]. apply has_key_kept in Hh.
    unfold sks_removeSenderMessageKey. destruct (take_senderMessageKey n (st_senderMessageKeys s)) as [[m r]|] eqn:Ht; [|done].
    intros [= _ <-]. apply take_inv in Ht as (l1 & l2 & Hl & -> & Hm).
    assert (kept s = ((fun k => default 0%N (smk_iteration k)) <$> l1) ++ n :: ((fun k => default 0%N (smk_iteration k)) <$> l2)) as Hk.
    { unfold kept. rewrite Hl, fmap_app, fmap_cons, Hm. done. }
    assert (kept (st_set_senderMessageKeys (l1 ++ l2) s) = ((fun k => default 0%N (smk_iteration k)) <$> l1) ++ ((fun k => default 0%N (smk_iteration k)) <$> l2)) as Hk'.
    { unfold kept. cbn [st_senderMessageKeys st_set_senderMessageKeys]. by rewrite fmap_app. }
    split_and!.
    + constructor; try done.
      * intros x [H|H]; [by left|right]. rewrite Hk' in H. rewrite Hk. set_solver.
      * unfold st_ok. rewrite Hk, Hk'. intros [H1 H2]. apply NoDup_app in H1 as (D1 & D2 & [D3 D4]%NoDup_cons). split.
        -- apply NoDup_app. split_and!; [done| |done]. intros x Hx Hx'. apply (D2 x Hx). set_solver.
        -- apply Forall_app in H2 as [F1 [_ F2]%Forall_cons]. apply Forall_app. by split.
      * intros (W1 & W2 & W3 & W4). split_and!; try done. cbn [st_senderMessageKeys st_set_senderMessageKeys].
        rewrite Hl in W4. apply Forall_app in W4 as [F1 [_ F2]%Forall_cons]. apply Forall_app. by split.
      * intros _. unfold ascending. rewrite Hk, Hk'. apply ascending_less.
    + intros [H1 H2] [H|H]; [change (chain_at s <= n)%N in H; lia|]. rewrite Hk' in H. rewrite Hk in H1.
      apply NoDup_app in H1 as (_ & D2 & [D3 _]%NoDup_cons). apply elem_of_app in H as [H|H]; [|done]. apply (D2 _ H). left.
    + by right.
    + done.
  - destruct (2000 <? _)%Z; [done|]. intros ([c1 s1] & H1 & H)%bind_ok_inv. apply bind_ok_inv in H as (s2 & H2 & Hs2%Ok_inj). injection Hs2 as _ ->.
    cbn [fst snd] in H2. apply skip_inv in H1 as (I1 & I2 & I3 & I4 & I5 & I6). rewrite chain_at_iter in I1, I6.
    assert (chain_at s1 = chain_at s) as Hc1 by (unfold chain_at; by rewrite I4).
    assert (scIteration (sck_next C c1) = n + 1)%N as Hnx by (cbn [sck_next scIteration]; lia).
    destruct (adv_set_chain (sck_next C c1) s1 s2) as (A & Ac & Ak); [lia|done|].
    assert (forall x, x ∈ kept s1 -> x ∈ kept s \/ (chain_at s <= x < n)%N) as Hin.
    { intros x. rewrite I6, elem_of_app, elem_of_list_fmap. intros [H|(i & -> & Hi%elem_of_seq)]; [by left|right]. lia. }
    split_and!.
    + constructor.
      * rewrite (adv_id _ _ A). done.
      * rewrite (adv_sig _ _ A). done.
      * lia.
      * intros x [H|H]; [left; lia|]. rewrite Ak in H. apply Hin in H as [H|H]; [by right|left; lia].
      * intros [D1 D2]. split; rewrite Ak, ?I6.
        -- apply NoDup_app. split_and!; [done| |].
           ++ intros x Hx (i & -> & Hi)%elem_of_list_fmap. rewrite Forall_forall in D2. specialize (D2 _ Hx). lia.
           ++ apply NoDup_fmap_2; [|apply NoDup_seq]. intros a b. lia.
        -- apply Forall_forall. rewrite <- I6. intros x [H|H]%Hin; [|lia]. rewrite Forall_forall in D2. specialize (D2 _ H). lia.
      * intros W. apply (adv_wf _ _ A), I5, W.
      * intros [_ D2] Ha. unfold ascending in *. rewrite Ak, I6. apply ascending_app; [done|apply ascending_run|].
        intros x y Hx (i & -> & Hi)%elem_of_list_fmap. rewrite Forall_forall in D2. specialize (D2 _ Hx). cbn in D2. lia.
    + intros [D1 D2] [H|H]; [lia|]. rewrite Ak in H. apply Hin in H as [H|H]; [|lia].
      rewrite Forall_forall in D2. specialize (D2 _ H). cbn in D2. lia.
    + by left.
    + lia.
Qed.

(** An iteration the state does not hold. *)
Lemma getSenderKey_lost s n : ~ holds_group_key s n -> getSenderKey C s n = Err EDuplicateMessage.
Proof using.
  intros H. unfold getSenderKey. rewrite chain_at_iter. destruct (N.ltb_spec n (chain_at s)) as [Hn|Hn]; [|by destruct H; left].
  destruct (sks_hasSenderMessageKey n s) eqn:Hh; [|done]. apply has_key_kept in Hh. by destruct H; right.
Qed.
End state.

(** ** One record *)

Inductive moves (rec : list st_s) : list st_s -> Prop :=
| moves_same : moves rec rec
| moves_add s : st_wf s -> kept s = [] -> moves rec (rec ++ [s])
| moves_put i s s' : rec !! i = Some s -> adv s s' -> moves rec (<[i := s']> rec).

Lemma moves_wf rec rec' : moves rec rec' -> Forall st_wf rec -> Forall st_wf rec'.
Proof.
  intros [|s Hw _|i s s' Hi Ha] H; [done|..].
  - apply Forall_app. split; [done|]. by apply Forall_singleton.
  - apply Forall_insert; [done|]. eapply adv_wf; [done|]. by eapply Forall_lookup_1.
Qed.
Lemma moves_ok rec rec' : moves rec rec' -> Forall st_ok rec -> Forall st_ok rec'.
Proof.
  intros [|s Hw Hk|i s s' Hi Ha] H; [done|..].
  - apply Forall_app. split; [done|]. apply Forall_singleton. split; rewrite Hk; constructor.
  - apply Forall_insert; [done|]. eapply adv_ok; [done|]. by eapply Forall_lookup_1.
Qed.
(** Every state stays where it is. *)
Lemma moves_lookup rec rec' i s : moves rec rec' -> rec !! i = Some s -> exists s', rec' !! i = Some s' /\ adv s s'.
Proof.
  intros [|s1 Hw Hk|j s1 s1' Hj Ha] Hi.
  - exists s. auto using adv_refl.
  - exists s. split; [by apply lookup_app_l_Some|apply adv_refl].
  - destruct (decide (i = j)) as [->|Hn].
    + exists s1'. split; [apply list_lookup_insert; by eapply lookup_lt_Some|]. congruence.
    + exists s. split; [by rewrite list_lookup_insert_ne|apply adv_refl].
Qed.

Lemma sks_create_inv id it ck pub priv s : sks_create id it ck pub priv = Ok s ->
  (it < 2 ^ 32)%N /\ (id < 2 ^ 32)%N /\
  s = StS (Some id) (Some (SckS (Some it) (Some ck))) (Some (SskS (Some (pub_serialize pub)) priv)) [].
Proof.
  unfold sks_create. intros (x & [-> Hx]%set_u32_inv & H)%bind_ok_inv. apply bind_ok_inv in H as (y & [-> Hy]%set_u32_inv & ->%Ok_inj). done.
Qed.
Lemma sks_create_wf id it ck pub priv s : sks_create id it ck pub priv = Ok s -> st_wf s /\ kept s = [].
Proof. intros (H1 & H2 & ->)%sks_create_inv. split; [|done]. split; [exact H2|]. split; [exact H1|]. split; [done|constructor]. Qed.

Section calls.
Context (C : crypto).

(** What a finished group call does to the sender keys. *)
Definition writes (n : senderKeyName) (w w' : world) : Prop :=
  w_senderkeys w' = w_senderkeys w \/
  exists rec rec', senderkey_at w n = Ok rec /\ moves rec rec' /\ rec' <> [] /\
    w_senderkeys w' = <[n := skr_serialize rec']> (w_senderkeys w).

Lemma run_writes_lift {A B} n (r : res A) (f : A -> prog B) w :
  (forall a, r = Ok a -> writes n w (run (f a) w).2) -> writes n w (run (lift r ≫= f) w).2.
Proof using. intros H. rewrite run_bind, run_lift. destruct r as [a|e]; [by apply H|by left]. Qed.

Lemma group_process_writes n m w : writes n w (run (group_process n m) w).2.
Proof using.
  unfold group_process. rewrite run_bind, run_do, load_senderkey.
  destruct (senderkey_at w n) as [rec|e] eqn:Hr; [|by left].
  apply run_writes_lift. intros s [Hw Hk]%sks_create_wf. rewrite run_do. right. exists rec, (rec ++ [s]).
  split_and!; [done|by constructor|by destruct rec|done].
Qed.

Lemma writes_stores n w1 w w' : w_senderkeys w1 = w_senderkeys w -> writes n w1 w' -> writes n w w'.
Proof using. unfold writes, senderkey_at. intros ->. done. Qed.

Lemma writes_bind {A B} n (p : prog A) (f : A -> prog B) w :
  writes n w (run p w).2 -> (forall a w1, w_senderkeys (run (f a) w1).2 = w_senderkeys w1) -> writes n w (run (p ≫= f) w).2.
Proof using.
  intros H Hf. rewrite run_bind. destruct (run p w) as [[a|e] w1]; [|done]. cbn [snd] in H. specialize (Hf a w1).
  unfold writes. by rewrite Hf.
Qed.
Lemma writes_ro {A B} n (p : prog A) (f : A -> prog B) w :
  readonly p -> (forall a w1, w_senderkeys w1 = w_senderkeys w -> writes n w1 (run (f a) w1).2) -> writes n w (run (p ≫= f) w).2.
Proof using.
  intros Hp Hf. rewrite run_bind. pose proof (run_readonly p w Hp) as Hs. destruct (run p w) as [[a|e] w1]; cbn [snd] in Hs.
  - assert (w_senderkeys w1 = w_senderkeys w) as E by apply Hs. by eapply writes_stores, Hf.
  - left. apply Hs.
Qed.
Lemma writes_rethrow {A} n sel e' (p : prog A) w : writes n w (run p w).2 -> writes n w (run (rethrow sel e' p) w).2.
Proof using. rewrite run_rethrow. by destruct (run p w) as [[a|e] w1]. Qed.
Lemma ro_senderkeys {A} (p : prog A) w : readonly p -> w_senderkeys (run p w).2 = w_senderkeys w.
Proof using. intros H. apply (run_readonly p w H). Qed.

Lemma group_create_writes n w : writes n w (run (group_create C n) w).2.
Proof using.
  unfold group_create. apply writes_rethrow. rewrite run_bind, run_do, load_senderkey.
  destruct (senderkey_at w n) as [rec|e] eqn:Hr; [|by left].
  apply writes_bind; [|intros; apply ro_senderkeys, readonly_lift].
  destruct rec as [|s0 rec]; [|by left].
  apply writes_ro; [by apply readonly_do|]. intros id w1 E1.
  apply writes_ro; [by apply readonly_do|]. intros ck w2 E2.
  apply writes_ro; [apply readonly_generateKeyPair|]. intros kp w3 E3.
  apply run_writes_lift. intros s [Hw Hk]%sks_create_wf. rewrite run_bind, run_do. right. exists [], [s].
  split_and!; [|by apply (moves_add [])|done|done]. unfold senderkey_at in *. by rewrite E3, E2, E1.
Qed.

Lemma group_encrypt_writes n pt w : writes n w (run (group_encrypt C n pt) w).2.
Proof using.
  unfold group_encrypt. apply writes_rethrow. rewrite run_bind, run_do, load_senderkey.
  destruct (senderkey_at w n) as [rec|e] eqn:Hr; [|by left].
  apply run_writes_lift. intros s Hs. destruct rec as [|s1 rec]; [done|]. injection Hs as ->.
  apply run_writes_lift. intros ct _. apply run_writes_lift. intros b _.
  apply writes_ro; [apply readonly_calculateSignature|]. intros sig w1 E1.
  apply run_writes_lift. intros s' Hs'. rewrite run_bind, run_do. right. exists (s :: rec), (put_state 0 s' (s :: rec)).
  split_and!; [|eapply (moves_put _ 0); [done|]|done|done].
  - unfold senderkey_at in *. by rewrite E1.
  - eapply adv_set_chain; [|done]. rewrite <- chain_at_iter. cbn [sck_next scIteration]. lia.
Qed.

Lemma groupOpen_inv rec bs x : groupOpen C rec bs = Ok x ->
  exists m i s k s', sk_msg_parse bs = Ok m /\ find_state (gKeyId m) rec 0 = Ok (i, s) /\ 
    getSenderKey C s (gIteration m) = Ok (k, s') /\ x.2 = <[i := s']> rec.
Proof using.
  unfold groupOpen. intros (m & Hm & H)%bind_ok_inv. apply bind_ok_inv in H as ([i s] & Hi & H). cbn [fst snd] in H.
  apply bind_ok_inv in H as (pub & _ & H). apply bind_ok_inv in H as (? & _ & H).
  apply bind_ok_inv in H as ([k s'] & Hk & H). apply bind_ok_inv in H as (p & _ & ->%Ok_inj). naive_solver.
Qed.

Lemma group_decrypt_writes n bs w : writes n w (run (group_decrypt C n bs) w).2.
Proof using.
  rewrite run_group_decrypt. destruct (senderkey_at w n) as [[|s0 rec]|e] eqn:Hr; [by left| |by left].
  destruct (groupOpen C (s0 :: rec) bs) as [x|e] eqn:Ho; [|by left]. cbn [snd].
  apply groupOpen_inv in Ho as (m & i & s & k & s' & Hm & Hi & Hk & Hx). right. exists (s0 :: rec), x.2.
  apply find_state_some in Hi as (j & -> & Hj & _). rewrite Nat.add_0_l in Hx. split_and!; [done| | |done].
  - rewrite Hx. eapply moves_put; [done|]. by eapply getSenderKey_adv.
  - rewrite Hx. destruct j; done.
Qed.

(** ** Histories *)

Definition group_of (c : apiCall) : option senderKeyName :=
  match c with
  | AGroupCreate n | AGroupProcess n _ | AGroupEncrypt n _ | AGroupDecrypt n _ => Some n
  | _ => None
  end.

Lemma run_drop {A} (p : prog A) w : (run (_ ← p; Ret tt) w).2 = (run p w).2.
Proof using. rewrite run_bind. by destruct (run p w) as [[a|e] w1]. Qed.
Lemma run_crash_drop {A} (p : prog A) k w : (run_crash k (_ ← p; Ret tt) w).2 = (run_crash k p w).2.
Proof using.
  revert k w. induction p as [a|e|R c f IH]; intros k w; [done..|].
  change (_ ← Call c f; Ret tt) with (Call c (fun x => _ ← f x; Ret tt)). destruct k as [|k]; [done|]. cbn [run_crash].
  destruct (step_call c w). apply IH.
Qed.

Lemma api_group_writes c n w : group_of c = Some n -> writes n w (run (api C c) w).2.
Proof using.
  destruct c; intros [= ->]; cbn [api]; rewrite ?run_drop;
    [apply group_create_writes|apply group_process_writes|apply group_encrypt_writes|apply group_decrypt_writes].
Qed.
Lemma api_group_atomic c n k w : group_of c = Some n ->
  w_senderkeys (run_crash k (api C c) w).2 = w_senderkeys w \/
  w_senderkeys (run_crash k (api C c) w).2 = w_senderkeys (run (api C c) w).2.
Proof using.
  intros Hc.
  assert (forall A (p : prog A), singleCall C A p -> unchanged w (run_crash k p w).2 \/ unchanged (run p w).2 (run_crash k p w).2) as H
    by (intros; by eapply single_atomic).
  assert (forall A (p : prog A), singleCall C A p -> w_senderkeys (run_crash k p w).2 = w_senderkeys w \/
    w_senderkeys (run_crash k p w).2 = w_senderkeys (run p w).2) as H'.
  { intros A p Hp. destruct (H A p Hp) as [Hu|Hu]; [left|right]; apply Hu. }
  destruct c; cbn [group_of] in Hc; try discriminate Hc; injection Hc as ->; cbn [api]; rewrite ?run_drop, ?run_crash_drop; apply H'; constructor.
Qed.
Lemma api_other c w : group_of c = None -> w_senderkeys (run (api C c) w).2 = w_senderkeys w.
Proof using.
  assert (forall r d A (p : prog A), peerCall C r d A p -> w_senderkeys (run p w).2 = w_senderkeys w) as H
    by (intros r d A p Hp; apply (peer_isolated C r d A p Hp)).
  destruct c as [r d ?|r d|r d ?|r d ?|r d ?|r d ?| | | |]; intros Hc; try done; cbn [api]; rewrite ?run_drop; apply (H r d); constructor.
Qed.
Lemma api_other_crash c k w : group_of c = None -> w_senderkeys (run_crash k (api C c) w).2 = w_senderkeys w.
Proof using.
  assert (forall r d A (p : prog A), peerCall C r d A p -> w_senderkeys (run_crash k p w).2 = w_senderkeys w) as H
    by (intros r d A p Hp; apply (peer_isolated_crash C r d A p k Hp)).
  destruct c as [r d ?|r d|r d ?|r d ?|r d ?|r d ?| | | |]; intros Hc; try done; cbn [api]; rewrite ?run_crash_drop; apply (H r d); constructor.
Qed.

Lemma step_writes w w' : step C w w' -> exists n, writes n w w'.
Proof using.
  intros [c|c k| | |]; [| |exists ("", "", 0%Z); by left..].
  - destruct (group_of c) as [n|] eqn:Hc; [exists n; by apply api_group_writes|]. exists ("", "", 0%Z). left. by apply api_other.
  - destruct (group_of c) as [n|] eqn:Hc.
    + exists n. destruct (api_group_atomic c n k w Hc) as [H|H]; [by left|]. pose proof (api_group_writes c n w Hc) as Hw.
      unfold writes. by rewrite H.
    + exists ("", "", 0%Z). left. by apply api_other_crash.
Qed.

(** The record of a name moves along. *)
Lemma writes_moves n n' w w' rec : writes n' w w' -> senderkey_at w n = Ok rec ->
  exists rec', senderkey_at w' n = Ok rec' /\ moves rec rec'.
Proof using.
  intros [E|(r1 & r2 & H1 & Hm & Hne & E)] Hr.
  - exists rec. split; [|constructor]. unfold senderkey_at in *. by rewrite E.
  - destruct (decide (n' = n)) as [->|Hn].
    + rewrite H1 in Hr. injection Hr as ->. exists r2. split; [|done]. unfold senderkey_at. rewrite E, lookup_insert.
      apply skr_roundtrip. eapply moves_wf; [done|]. by eapply senderkey_wf.
    + exists rec. split; [|constructor]. unfold senderkey_at in *. by rewrite E, lookup_insert_ne.
Qed.

Lemma later_moves w w' n rec : later C w w' -> senderkey_at w n = Ok rec ->
  exists rec', senderkey_at w' n = Ok rec' /\ rtc moves rec rec'.
Proof using.
  intros H. revert rec. induction H as [w|w1 w2 w3 Hs _ IH]; intros rec Hr; [by exists rec|].
  apply step_writes in Hs as [n' Hw]. destruct (writes_moves _ _ _ _ _ Hw Hr) as (r2 & Hr2 & Hm).
  destruct (IH _ Hr2) as (r3 & Hr3 & Hm3). exists r3. split; [done|]. by eapply rtc_l.
Qed.

Lemma rtc_moves_lookup rec rec' i s : rtc moves rec rec' -> rec !! i = Some s -> exists s', rec' !! i = Some s' /\ adv s s'.
Proof using.
  intros H. revert s. induction H as [|r1 r2 r3 H1 _ IH]; intros s Hs; [exists s; auto using adv_refl|].
  destruct (moves_lookup _ _ _ _ H1 Hs) as (s2 & Hs2 & A2). destruct (IH _ Hs2) as (s3 & Hs3 & A3).
  exists s3. split; [done|]. by eapply adv_trans.
Qed.
Lemma rtc_moves_ok rec rec' : rtc moves rec rec' -> Forall st_ok rec -> Forall st_ok rec'.
Proof using. induction 1; eauto using moves_ok. Qed.

End calls.
