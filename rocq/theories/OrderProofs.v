(** The lemmas behind C95. *)
From stdpp Require Import sorting.
From Verif Require Import PyBase Wire Protos ProtoFacts Crypto Ecc Kdf Messages State Prog Groups.
From Verif Require Import ProgFacts StateFacts UtilFacts HelperFacts MsgFacts SpecUtil SpecSession SpecKeys KeyProofs SpecApi SpecGroup SpecGroupHist GroupFacts GroupProofs GroupHistProofs SpecGroupStep GroupEffects GroupErrors GroupPool SpecOrder.

(** ** States *)

(** Two states that differ at most in the order of their stored message keys. *)
Definition alike (s t : st_s) : Prop :=
  st_senderKeyId s = st_senderKeyId t /\ st_senderChainKey s = st_senderChainKey t /\
  st_senderSigningKey s = st_senderSigningKey t /\ Permutation (st_senderMessageKeys s) (st_senderMessageKeys t).

Lemma alike_refl s : alike s s.
Proof. by repeat split. Qed.
Lemma alike_sym s t : alike s t -> alike t s.
Proof. intros (? & ? & ? & ?). by repeat split. Qed.
Lemma alike_trans s t u : alike s t -> alike t u -> alike s u.
Proof. intros (? & ? & ? & ?) (? & ? & ? & ?). repeat split; congruence || by etrans. Qed.
#[local] Instance alike_equiv : Equivalence alike.
Proof. split; [exact alike_refl|exact alike_sym|exact alike_trans]. Qed.

Lemma alike_chain_at s t : alike s t -> chain_at s = chain_at t.
Proof. intros (_ & H & _). unfold chain_at. by rewrite H. Qed.
Lemma alike_chain_key s t : alike s t -> chain_key s = chain_key t.
Proof. intros (_ & H & _). unfold chain_key. by rewrite H. Qed.
Lemma alike_id s t : alike s t -> key_id s = key_id t.
Proof. intros (H & _). unfold key_id. by rewrite H. Qed.
Lemma alike_public s t : alike s t -> signing_public s = signing_public t.
Proof. intros (_ & _ & H & _). unfold signing_public. by rewrite H. Qed.
Lemma alike_kept s t : alike s t -> Permutation (kept s) (kept t).
Proof. intros (_ & _ & _ & H). unfold kept. by rewrite H. Qed.
Lemma alike_ok s t : alike s t -> st_ok s -> st_ok t.
Proof.
  intros H [H1 H2]. pose proof (alike_kept _ _ H) as Hk. split; [by rewrite <- Hk|]. rewrite <- Hk.
  by rewrite <- (alike_chain_at _ _ H).
Qed.

Lemma ascending_keys s : ascending s -> StronglySorted (fun a b => iteration_of a < iteration_of b)%N (st_senderMessageKeys s).
Proof.
  unfold ascending, kept. induction (st_senderMessageKeys s) as [|x l IH]; [constructor|].
  cbn [fmap list_fmap]. intros [H1 H2]%StronglySorted_inv. constructor; [by apply IH|]. by rewrite Forall_fmap in H2.
Qed.
Lemma alike_eq s t : ascending s -> ascending t -> alike s t -> s = t.
Proof.
  intros Hs%ascending_keys Ht%ascending_keys (H1 & H2 & H3 & H4). destruct s as [a b c k], t as [a' b' c' k']. cbn in *. subst. f_equal.
  eapply StronglySorted_unique; [|exact Hs|exact Ht|exact H4]. intros x y Hx Hy. lia.
Qed.
Lemma alike_all_eq r t : Forall ascending r -> Forall ascending t -> Forall2 alike r t -> r = t.
Proof.
  intros Hr Ht H. induction H as [|x y r t Hx _ IH]; [done|]. apply Forall_cons in Hr as [R1 R2], Ht as [T1 T2].
  rewrite (alike_eq x y) by done. f_equal. by apply IH.
Qed.

Section order.
Context (C : crypto) (Hok : crypto_ok C).

(** The keys of a chain, from the [a]th to before the [b]th. *)
Definition chain_smk (it : N) (ck : bytes) (i : nat) : smk_s :=
  SmkS (Some (it + N.of_nat i)%N) (Some (group_seed C (group_stepped C ck i))).

Lemma chain_smk_shift it ck k i :
  chain_smk (it + N.of_nat k) (group_stepped C ck k) i = chain_smk it ck (k + i).
Proof using.
  unfold chain_smk. f_equal; [f_equal; lia|]. do 2 f_equal. unfold group_stepped. by rewrite <- Nat.iter_add, Nat.add_comm.
Qed.

(** [group_read] up to the order of the stored keys. *)
Definition gstep (s : st_s) (n : N) (seed : bytes) (t : st_s) : Prop :=
  st_senderKeyId t = st_senderKeyId s /\ st_senderSigningKey t = st_senderSigningKey s /\
  ((n < chain_at s)%N /\ st_senderChainKey t = st_senderChainKey s /\
   (exists e, iteration_of e = n /\ seed = default [] (smk_seed e) /\ Permutation (st_senderMessageKeys s) (e :: st_senderMessageKeys t))
   \/ exists d, n = (chain_at s + N.of_nat d)%N /\ (n + 1 < 2 ^ 32)%N /\
      seed = group_seed C (group_stepped C (chain_key s) d) /\
      st_senderChainKey t = Some (SckS (Some (n + 1)%N) (Some (group_stepped C (chain_key s) (S d)))) /\
      Permutation (st_senderMessageKeys t) (st_senderMessageKeys s ++ map (chain_smk (chain_at s) (chain_key s)) (seq 0 d))).

Lemma gstep_proper s s' n seed t t' : alike s s' -> alike t t' -> gstep s n seed t -> gstep s' n seed t'.
Proof using.
  intros Hs Ht (H1 & H2 & H). pose proof (alike_chain_at _ _ Hs) as Ec. pose proof (alike_chain_key _ _ Hs) as Ek.
  destruct Hs as (S1 & S2 & S3 & S4), Ht as (T1 & T2 & T3 & T4). split; [congruence|]. split; [congruence|].
  destruct H as [(H3 & H4 & e & He & Hv & Hp)|(d & Hd & Hb & Hv & Hc & Hp)]; [left|right].
  - split; [by rewrite <- Ec|]. split; [congruence|]. exists e. split_and!; try done. by rewrite <- S4, <- T4.
  - exists d. rewrite <- Ec, <- Ek. split_and!; try done; [congruence|]. by rewrite <- S4, <- T4.
Qed.

Lemma gstep_read s n seed t : group_read C s n seed t -> gstep s n seed t.
Proof using.
  intros [l1 e l2 Hlt Hl He Hf|d Hd Hb]; (split; [done|split; [done|]]); [left|right].
  - split_and!; try done. exists e. split_and!; try done. rewrite Hl. cbn [st_senderMessageKeys]. by rewrite Permutation_middle.
  - exists d. by split_and!.
Qed.

Lemma read_gstep s n seed t : st_ok s -> gstep s n seed t -> exists s', group_read C s n seed s' /\ alike s' t.
Proof using.
  intros [Hnd _] (H1 & H2 & H). destruct H as [(H3 & H4 & e & He & -> & Hp)|(d & Hd & Hb & -> & Hc & Hp)].
  - assert (e ∈ st_senderMessageKeys s) as (l1 & l2 & Hl)%elem_of_list_split by (rewrite Hp; left).
    eexists. split.
    + eapply read_stored; try done. apply Forall_forall. intros k Hk E.
      unfold kept in Hnd. rewrite Hl, fmap_app, fmap_cons in Hnd. apply NoDup_app in Hnd as (_ & Hnd & _).
      apply (Hnd n); [|rewrite <- He; left]. rewrite <- E. by apply (elem_of_list_fmap_1 iteration_of).
    + split_and!; try done. cbn [st_senderMessageKeys]. apply (Permutation_cons_inv (a := e)). rewrite <- Hp, Hl. by rewrite Permutation_middle.
  - eexists. split; [by apply (read_ahead _ _ _ d)|]. unfold moved. by split_and!.
Qed.

Lemma gstep_chain_at_ahead t it ck : st_senderChainKey t = Some (SckS (Some it) (Some ck)) -> chain_at t = it /\ chain_key t = ck.
Proof using. intros H. unfold chain_at, chain_key. by rewrite H. Qed.
Lemma gstep_chain_same s t : st_senderChainKey t = st_senderChainKey s -> chain_at t = chain_at s /\ chain_key t = chain_key s.
Proof using. intros H. unfold chain_at, chain_key. by rewrite H. Qed.

Lemma seq_around k d : k < d -> seq 0 d = seq 0 k ++ k :: seq (S k) (d - S k).
Proof using.
  intros H. replace d with (k + S (d - S k)) at 1 by lia. rewrite seq_app. done.
Qed.
Lemma pull_out {A} (x : A) a b c : Permutation (a ++ b ++ x :: c) (x :: (a ++ b) ++ c).
Proof using. rewrite app_assoc. symmetry. apply Permutation_middle. Qed.
Lemma map_shift it ck k a n :
  map (chain_smk (it + N.of_nat k) (group_stepped C ck k)) (seq a n) = map (chain_smk it ck) (seq (k + a) n).
Proof using.
  revert a. induction n as [|n IH]; intros a; [done|]. cbn [seq map]. rewrite chain_smk_shift. f_equal.
  rewrite IH. by rewrite Nat.add_succ_r.
Qed.

Lemma gstep_swap s a sa t b sb u : st_ok s -> gstep s a sa t -> gstep t b sb u ->
  exists t', gstep s b sb t' /\ gstep t' a sa u.
Proof using.
  intros Hst (A1 & A2 & HA) (B1 & B2 & HB).
  destruct HA as [(A3 & A4 & ea & Aa & -> & Ap)|(da & -> & Ab & -> & Ac & Ap)].
  - destruct (gstep_chain_same s t A4) as [Ec Ek]. destruct HB as [(B3 & B4 & eb & Bb & -> & Bp)|(db & -> & Bb & -> & Bc & Bp)].
    + exists (StS (st_senderKeyId s) (st_senderChainKey s) (st_senderSigningKey s) (ea :: st_senderMessageKeys u)).
      split; (split; [cbn; congruence|split; [cbn; congruence|left]]).
      * split; [by rewrite <- Ec|]. split; [done|]. exists eb. split_and!; try done. cbn [st_senderMessageKeys].
        rewrite Ap, Bp. constructor.
      * split; [exact A3|]. split; [cbn; congruence|]. exists ea. by split_and!.
    + exists (StS (st_senderKeyId s) (st_senderChainKey u) (st_senderSigningKey s) (ea :: st_senderMessageKeys u)).
      split; (split; [cbn; congruence|split; [cbn; congruence|]]); [right|left].
      * exists db. rewrite Ec, Ek in *. split_and!; try done. cbn [st_senderMessageKeys]. rewrite Ap, Bp. done.
      * destruct (gstep_chain_at_ahead u _ _ Bc) as [Eu _].
        split; [change (a < chain_at u)%N; rewrite Eu; lia|]. split; [done|]. exists ea. by split_and!.
  - destruct (gstep_chain_at_ahead t _ _ Ac) as [Ec Ek]. destruct HB as [(B3 & B4 & eb & Bb & -> & Bp)|(db & -> & Bb & -> & Bc & Bp)].
    + rewrite Ap in Bp. destruct (N.lt_ge_cases b (chain_at s)) as [Hlt|Hge].
      * assert (eb ∈ st_senderMessageKeys s) as (l1 & l2 & Hl)%elem_of_list_split.
        { assert (eb ∈ st_senderMessageKeys s ++ map (chain_smk (chain_at s) (chain_key s)) (seq 0 da)) as He by (rewrite Bp; left).
          apply elem_of_app in He as [He|He]; [done|]. apply (elem_of_list_fmap_2 _ _ eb) in He as (i & -> & _).
          unfold iteration_of, chain_smk in Bb. cbn in Bb. lia. }
        exists (StS (st_senderKeyId s) (st_senderChainKey s) (st_senderSigningKey s) (l1 ++ l2)).
        split; (split; [cbn; congruence|split; [cbn; congruence|]]); [left|right].
        -- split; [done|]. split; [done|]. exists eb. split_and!; try done. cbn [st_senderMessageKeys]. rewrite Hl. by rewrite Permutation_middle.
        -- exists da. split_and!; try done; [by rewrite B4, Ac|]. cbn [st_senderMessageKeys].
           apply (Permutation_cons_inv (a := eb)). change (chain_at (StS _ _ _ _)) with (chain_at s). change (chain_key (StS _ _ _ _)) with (chain_key s).
           rewrite <- Bp, Hl. rewrite app_comm_cons. by rewrite Permutation_middle.
      * set (db := N.to_nat (b - chain_at s)). assert (b = chain_at s + N.of_nat db)%N as Hdb by lia.
        assert (db < da \/ db = da) as [Hd|Hd] by lia.
        -- assert (eb = chain_smk (chain_at s) (chain_key s) db) as ->.
           { assert (eb ∈ st_senderMessageKeys s ++ map (chain_smk (chain_at s) (chain_key s)) (seq 0 da)) as He by (rewrite Bp; left).
             apply elem_of_app in He as [He|He].
             - exfalso. destruct Hst as [_ Hst]. rewrite Forall_forall in Hst. specialize (Hst (iteration_of eb)).
               assert (iteration_of eb < chain_at s)%N; [|lia]. apply Hst. by apply (elem_of_list_fmap_1 iteration_of).
             - apply (elem_of_list_fmap_2 _ _ eb) in He as (i & -> & _). unfold iteration_of, chain_smk in Bb. cbn in Bb. f_equal. lia. }
           set (t' := StS (st_senderKeyId s) (Some (SckS (Some (b + 1)%N) (Some (group_stepped C (chain_key s) (S db))))) (st_senderSigningKey s)
              (st_senderMessageKeys s ++ map (chain_smk (chain_at s) (chain_key s)) (seq 0 db))).
           assert (chain_at t' = (chain_at s + N.of_nat (S db))%N) as Et by (change (chain_at t') with (b + 1)%N; lia).
           assert (chain_key t' = group_stepped C (chain_key s) (S db)) as Ekt by done.
           exists t'. split; (split; [cbn; congruence|split; [cbn; congruence|right]]).
           ++ exists db. split_and!; try done. lia.
           ++ exists (da - S db). rewrite Et, Ekt. split_and!.
              ** lia.
              ** lia.
              ** f_equal. unfold group_stepped. rewrite <- Nat.iter_add. f_equal. lia.
              ** rewrite B4, Ac. do 3 f_equal. unfold group_stepped. rewrite <- Nat.iter_add. f_equal. lia.
              ** rewrite map_shift, Nat.add_0_r. cbn [st_senderMessageKeys t'].
                 apply (Permutation_cons_inv (a := chain_smk (chain_at s) (chain_key s) db)). rewrite <- Bp.
                 rewrite (seq_around db da Hd), map_app. cbn [map]. apply pull_out.
        -- (* the key just used is not stored *)
           exfalso. assert (eb ∈ st_senderMessageKeys s ++ map (chain_smk (chain_at s) (chain_key s)) (seq 0 da)) as He by (rewrite Bp; left).
           apply elem_of_app in He as [He|He].
           ++ destruct Hst as [_ Hst]. rewrite Forall_forall in Hst. specialize (Hst (iteration_of eb)).
              assert (iteration_of eb < chain_at s)%N; [|lia]. apply Hst. by apply (elem_of_list_fmap_1 iteration_of).
           ++ apply (elem_of_list_fmap_2 _ _ eb) in He as (i & -> & Hi). apply elem_of_seq in Hi.
              unfold iteration_of, chain_smk in Bb. cbn in Bb. lia.
    + set (k := da + S db).
      set (t' := StS (st_senderKeyId s) (st_senderChainKey u) (st_senderSigningKey s)
         (st_senderMessageKeys s ++ map (chain_smk (chain_at s) (chain_key s)) (seq 0 k))).
      rewrite Ec, Ek in *. assert (chain_at s + N.of_nat da + 1 + N.of_nat db = chain_at s + N.of_nat k)%N as Ek' by (unfold k; lia).
      exists t'. split; (split; [cbn; congruence|split; [cbn; congruence|]]); [right|left].
      * exists k. split_and!; try done.
        -- f_equal. unfold group_stepped, k. rewrite <- Nat.iter_add. f_equal. lia.
        -- cbn [st_senderChainKey t']. rewrite Bc. do 3 f_equal. unfold group_stepped, k. rewrite <- Nat.iter_add. f_equal. lia.
      * destruct (gstep_chain_at_ahead u _ _ Bc) as [Eu _]. split; [change (chain_at t') with (chain_at u); rewrite Eu; lia|].
        split; [done|]. exists (chain_smk (chain_at s) (chain_key s) da). split_and!; try done.
        cbn [st_senderMessageKeys t']. rewrite Bp, Ap.
        replace (chain_at s + N.of_nat da + 1)%N with (chain_at s + N.of_nat (S da))%N by lia.
        rewrite map_shift, Nat.add_0_r. rewrite (seq_around da k) by lia. rewrite map_app. cbn [map].
        replace (k - S da) with db by lia. apply pull_out.
Qed.

Lemma gstep_ok s n seed t : st_ok s -> gstep s n seed t -> st_ok t.
Proof using.
  intros Hst H. destruct (read_gstep _ _ _ _ Hst H) as (s' & Hr & Ha). apply (alike_ok _ _ Ha).
  clear -Hst Hr. destruct Hst as [D1 D2]. destruct Hr as [l1 e l2 Hlt Hl He Hf|d -> Hb].
  - unfold st_ok, kept in *. rewrite Hl, fmap_app, fmap_cons in *. cbn [st_senderMessageKeys]. rewrite fmap_app.
    apply NoDup_app in D1 as (N1 & N2 & [N3 N4]%NoDup_cons). apply Forall_app in D2 as [F1 [_ F2]%Forall_cons]. split.
    + apply NoDup_app. split_and!; [done| |done]. intros x Hx Hx'. apply (N2 x Hx). by right.
    + apply Forall_app. by split.
  - assert (kept (moved s (chain_at s + N.of_nat d + 1) (group_stepped C (chain_key s) (S d))
       (st_senderMessageKeys s ++ map (chain_smk (chain_at s) (chain_key s)) (seq 0 d)))
       = kept s ++ ((fun i => chain_at s + N.of_nat i)%N <$> seq 0 d)) as Hk.
    { unfold kept, moved. cbn [st_senderMessageKeys]. rewrite fmap_app. f_equal.
      change (map ?f ?l) with (f <$> l). by rewrite <- list_fmap_compose. }
    fold (chain_smk (chain_at s) (chain_key s)). unfold st_ok. 
    change (map _ (seq 0 d)) with (map (chain_smk (chain_at s) (chain_key s)) (seq 0 d)). rewrite Hk.
    change (chain_at (moved _ ?n _ _)) with n. rewrite Forall_forall in D2. split.
    + apply NoDup_app. split_and!; [done| |].
      * intros x Hx (i & -> & Hi)%elem_of_list_fmap. specialize (D2 _ Hx). cbn in D2. lia.
      * apply NoDup_fmap_2; [|apply NoDup_seq]. intros i j. lia.
    + apply Forall_forall. intros x [Hx|(i & -> & Hi%elem_of_seq)%elem_of_list_fmap]%elem_of_app; [|lia]. specialize (D2 _ Hx). cbn in D2. lia.
Qed.

(** ** Records *)

Definition first_with (rec : list st_s) (id : N) (j : nat) (s : st_s) : Prop :=
  rec !! j = Some s /\ key_id s = id /\ forall i x, i < j -> rec !! i = Some x -> key_id x <> id.

Definition gopen (rec : list st_s) (bs pt : bytes) (rec' : list st_s) : Prop :=
  exists m j s pub seed s', sk_msg_parse bs = Ok m /\ first_with rec (gKeyId m) j s /\
    identity_of (signing_public s) pub /\ verifies C pub (take (length bs - 64) bs) (drop (length bs - 64) bs) /\
    gstep s (gIteration m) seed s' /\ group_body C seed (gCiphertext m) pt /\ Forall2 alike (<[j := s']> rec) rec'.

Lemma first_with_proper r r' id j s : Forall2 alike r r' -> first_with r id j s -> exists s', first_with r' id j s' /\ alike s s'.
Proof using.
  intros Hr (H1 & H2 & H3). destruct (Forall2_lookup_l _ _ _ _ _ Hr H1) as (s' & Hs' & Ha). exists s'. split; [|done].
  split; [done|]. split; [by rewrite <- (alike_id _ _ Ha)|]. intros i x Hi Hx.
  destruct (Forall2_lookup_r _ _ _ _ _ Hr Hx) as (y & Hy & Hya). rewrite <- (alike_id _ _ Hya). by eapply H3.
Qed.

Lemma gopen_proper r r' bs pt t t' : Forall2 alike r r' -> Forall2 alike t t' -> gopen r bs pt t -> gopen r' bs pt t'.
Proof using.
  intros Hr Ht (m & j & s & pub & seed & s' & Hm & Hj & Hp & Hv & Hg & Hb & He).
  destruct (first_with_proper _ _ _ _ _ Hr Hj) as (s1 & Hj1 & Ha). exists m, j, s1, pub, seed, s'. split_and!; try done.
  - by rewrite <- (alike_public _ _ Ha).
  - by eapply gstep_proper.
  - etrans; [|exact Ht]. etrans; [|exact He]. symmetry. by apply Forall2_insert.
Qed.

Lemma gstep_id s n seed t : gstep s n seed t -> key_id t = key_id s /\ signing_public t = signing_public s.
Proof using. intros (H1 & H2 & _). unfold key_id, signing_public. by rewrite H1, H2. Qed.

Lemma first_with_insert r id id' j i s s' x : first_with r id' i x -> key_id s' = key_id x ->
  first_with r id j s -> i <> j -> first_with (<[i := s']> r) id j s.
Proof using.
  intros (X1 & X2 & X3) Hs (H1 & H2 & H3) Hij. split; [by rewrite list_lookup_insert_ne|]. split; [done|]. intros k y Hk Hy.
  destruct (decide (i = k)) as [->|]; [|rewrite list_lookup_insert_ne in Hy by done; by eapply H3].
  rewrite list_lookup_insert in Hy by (by eapply lookup_lt_Some). injection Hy as <-. rewrite Hs. by eapply H3.
Qed.
Lemma first_with_inserted r id i s' x : first_with r id i x -> key_id s' = key_id x -> first_with (<[i := s']> r) id i s'.
Proof using.
  intros (X1 & X2 & X3) Hs. split; [apply list_lookup_insert; by eapply lookup_lt_Some|]. split; [congruence|]. intros k y Hk Hy.
  rewrite list_lookup_insert_ne in Hy by lia. by eapply X3.
Qed.
Lemma first_with_unins r id id' j i s s' x : first_with r id' i x -> key_id s' = key_id x ->
  first_with (<[i := s']> r) id j s -> i <> j -> first_with r id j s.
Proof using.
  intros Hx Hs H Hij. rewrite <- (list_insert_id r i x), <- (list_insert_insert r i x s') by (apply Hx).
  eapply first_with_insert; [by eapply first_with_inserted|done|done|done].
Qed.

Lemma gopen_swap r a pa t b pb u : Forall st_ok r -> gopen r a pa t -> gopen t b pb u ->
  exists t', gopen r b pb t' /\ gopen t' a pa u.
Proof using.
  intros Hst (m & j & s & pub & seed & s' & Hm & Hj & Hp & Hv & Hg & Hb & He) HB.
  assert (gopen (<[j := s']> r) b pb u) as HB' by (eapply gopen_proper; [symmetry; exact He|reflexivity|exact HB]). clear HB He t.
  destruct HB' as (m2 & j2 & s2 & pub2 & seed2 & s2' & Hm2 & Hj2 & Hp2 & Hv2 & Hg2 & Hb2 & He2).
  destruct (gstep_id _ _ _ _ Hg) as [Ei Ep]. destruct (gstep_id _ _ _ _ Hg2) as [Ei2 Ep2].
  pose proof Hj as (Hl & Hid & _). pose proof Hj2 as (Hl2 & Hid2 & _).
  destruct (decide (j = j2)) as [<-|Hne].
  - rewrite list_lookup_insert in Hl2 by (by eapply lookup_lt_Some). injection Hl2 as <-. rewrite list_insert_insert in He2.
    assert (st_ok s) as Hs by (by eapply Forall_lookup_1). destruct (gstep_swap _ _ _ _ _ _ _ Hs Hg Hg2) as (t' & G1 & G2).
    destruct (gstep_id _ _ _ _ G1) as [F1 F2].
    assert (gKeyId m2 = gKeyId m) as Hmm by congruence.
    exists (<[j := t']> r). split.
    + exists m2, j, s, pub2, seed2, t'. split_and!; try done; [by rewrite Hmm|by rewrite <- Ep].
    + exists m, j, t', pub, seed, s2'. split_and!; try done; [by eapply first_with_inserted|by rewrite F2|]. by rewrite list_insert_insert.
  - assert (first_with r (gKeyId m2) j2 s2) as Hj2' by (by eapply first_with_unins). exists (<[j2 := s2']> r). split.
    + by exists m2, j2, s2, pub2, seed2, s2'.
    + exists m, j, s, pub, seed, s'. split_and!; try done; [by eapply first_with_insert|]. by rewrite list_insert_commute.
Qed.

Lemma Forall2_ok r r' : Forall2 alike r r' -> Forall st_ok r -> Forall st_ok r'.
Proof using.
  induction 1 as [|x y l l' Hx _ IH]; [done|]. intros [H1 H2]%Forall_cons. constructor; [by eapply alike_ok|by apply IH].
Qed.
Lemma gopen_ok r bs pt t : Forall st_ok r -> gopen r bs pt t -> Forall st_ok t.
Proof using.
  intros Hr (m & j & s & pub & seed & s' & _ & (Hl & _) & _ & _ & Hg & _ & He). eapply Forall2_ok; [exact He|].
  apply Forall_insert; [done|]. eapply gstep_ok; [|exact Hg]. by eapply Forall_lookup_1.
Qed.

Fixpoint gopens (l : list (bytes * bytes)) (r t : list st_s) : Prop :=
  match l with
  | [] => Forall2 alike r t
  | x :: l => exists r', gopen r x.1 x.2 r' /\ gopens l r' t
  end.
Lemma gopens_proper l r r' t t' : Forall2 alike r r' -> Forall2 alike t t' -> gopens l r t -> gopens l r' t'.
Proof using.
  revert r r'. induction l as [|x l IH]; intros r r' Hr Ht; cbn [gopens].
  - intros H. etrans; [symmetry; exact Hr|]. by etrans.
  - intros (r1 & H1 & H2). exists r1. split; [by eapply gopen_proper|]. by eapply IH.
Qed.
Lemma gopens_perm l l' : Permutation l l' -> forall r t, Forall st_ok r -> gopens l r t -> gopens l' r t.
Proof using.
  induction 1 as [|x l l' _ IH|x y l|l1 l2 l3 _ IH1 _ IH2]; intros r t Hr.
  - done.
  - intros (r' & H1 & H2). exists r'. split; [done|]. apply IH; [|done]. by eapply gopen_ok.
  - intros (r1 & H1 & r2 & H2 & H3). destruct (gopen_swap _ _ _ _ _ _ _ Hr H1 H2) as (r' & G1 & G2).
    exists r'. split; [done|]. exists r2. by split.
  - intros H. apply IH2; [done|]. by apply IH1.
Qed.

(** ** Devices *)

Definition rest_of (name : senderKeyName) (w : world) : world := w_set_senderkeys (delete name (w_senderkeys w)) w.
Lemma rest_of_set name x w : rest_of name (w_set_senderkeys (<[name := x]> (w_senderkeys w)) w) = rest_of name w.
Proof using. unfold rest_of. cbn [w_senderkeys w_set_senderkeys]. by rewrite delete_insert_delete. Qed.

Lemma open_record w name bs pt w' rec : senderkey_at w name = Ok rec -> run (group_decrypt C name bs) w = (Ok pt, w') ->
  exists rec', gopen rec bs pt rec' /\ senderkey_at w' name = Ok rec' /\ rest_of name w' = rest_of name w.
Proof using Hok.
  intros Hs (m & l1 & s & l2 & pub & seed & s' & Hm & Hr & Hk & Hf & Hp & Hv & Hread & Hb & Hs' & ->)%(group_opens_iff C Hok).
  rewrite Hs in Hr. injection Hr as ->. exists (l1 ++ s' :: l2). split_and!; [|done|apply rest_of_set].
  exists m, (length l1), s, pub, seed, s'. split_and!; try done.
  - split; [by apply list_lookup_middle|]. split; [done|]. intros i x Hi Hx. rewrite lookup_app_l in Hx by done. by eapply (Forall_lookup_1 _ _ _ _ Hf).
  - by apply gstep_read.
  - rewrite insert_app_r_alt, Nat.sub_diag by lia. cbn [insert list_insert]. done.
Qed.

Lemma record_open w name bs pt rec t : senderkey_at w name = Ok rec -> Forall st_ok rec -> gopen rec bs pt t ->
  exists w' rec', run (group_decrypt C name bs) w = (Ok pt, w') /\ senderkey_at w' name = Ok rec' /\ Forall2 alike rec' t /\
    rest_of name w' = rest_of name w.
Proof using Hok.
  intros Hs Hst (m & j & s & pub & seed & s' & Hm & (Hl & Hid & Hne) & Hp & Hv & Hg & Hb & He).
  assert (st_ok s) as Hss by (by eapply Forall_lookup_1). destruct (read_gstep _ _ _ _ Hss Hg) as (s1 & Hread & Ha).
  pose proof (senderkey_wf _ _ _ Hs) as Hwf.
  assert (rec = take j rec ++ s :: drop (S j) rec) as Hrec by (symmetry; by apply take_drop_middle).
  assert (j < length rec) as Hj by (by eapply lookup_lt_Some).
  set (rec' := <[j := s1]> rec). assert (rec' = take j rec ++ s1 :: drop (S j) rec) as Hrec' by (by apply insert_take_drop).
  assert (Forall st_wf rec') as Hwf'.
  { apply Forall_insert; [done|]. eapply (group_read_wf C Hok); [exact Hread|]. by eapply Forall_lookup_1. }
  exists (w_set_senderkeys (<[name := skr_serialize rec']> (w_senderkeys w)) w), rec'. split_and!.
  - apply (group_opens_iff C Hok). exists m, (take j rec), s, (drop (S j) rec), pub, seed, s1. split_and!; try done.
    + by rewrite <- Hrec.
    + apply Forall_lookup_2. intros i x Hx. apply lookup_take_Some in Hx as [Hx Hi]. by eapply Hne.
    + rewrite <- Hrec'. split; [by apply senderkey_stored|done].
  - by apply senderkey_stored.
  - etrans; [|exact He]. by apply Forall2_insert.
  - apply rest_of_set.
Qed.

Lemma all_open_cons name x l w w' : all_open C name (x :: l) w w' <->
  exists w1, run (group_decrypt C name x.1) w = (Ok x.2, w1) /\ all_open C name l w1 w'.
Proof using.
  unfold all_open. cbn [map deliver]. destruct (run (group_decrypt C name x.1) w) as [r w1]. cbn [fst snd].
  destruct (deliver C name (map fst l) w1) as [rs w2] eqn:Hd. cbn [fst snd]. split.
  - intros [= -> -> ->]. exists w1. by split.
  - intros (w1' & [= -> ->] & H). rewrite Hd in H. by injection H as -> ->.
Qed.

Lemma opens_record l name : forall w w' rec, senderkey_at w name = Ok rec -> all_open C name l w w' ->
  exists rec', gopens l rec rec' /\ senderkey_at w' name = Ok rec' /\ rest_of name w' = rest_of name w.
Proof using Hok.
  induction l as [|x l IH]; intros w w' rec Hs.
  - unfold all_open. cbn. intros [= <-]. by exists rec.
  - intros (w1 & H1 & H2)%all_open_cons. destruct (open_record _ _ _ _ _ _ Hs H1) as (r1 & G1 & S1 & E1).
    destruct (IH _ _ _ S1 H2) as (r2 & G2 & S2 & E2). exists r2. split_and!; [by exists r1|done|congruence].
Qed.
Lemma record_opens l name : forall w rec t, senderkey_at w name = Ok rec -> Forall st_ok rec -> gopens l rec t ->
  exists w' rec', all_open C name l w w' /\ senderkey_at w' name = Ok rec' /\ Forall2 alike rec' t /\ rest_of name w' = rest_of name w.
Proof using Hok.
  induction l as [|x l IH]; intros w rec t Hs Hst; cbn [gopens].
  - intros H. by exists w, rec.
  - intros (r1 & G1 & G2). destruct (record_open _ _ _ _ _ _ Hs Hst G1) as (w1 & r1' & H1 & S1 & A1 & E1).
    assert (Forall st_ok r1') as Hst1 by (eapply Forall2_ok; [symmetry; exact A1|by eapply gopen_ok]).
    destruct (IH w1 r1' t S1 Hst1) as (w2 & r2 & H2 & S2 & A2 & E2).
    { eapply gopens_proper; [symmetry; exact A1|reflexivity|exact G2]. }
    exists w2, r2. split_and!; [|done..|congruence]. apply all_open_cons. by exists w1.
Qed.

(** The whole device is given by the record and the rest. *)
Lemma opened_is name l : forall w w', all_open C name l w w' -> l <> [] ->
  exists rec, senderkey_at w' name = Ok rec /\ w' = w_set_senderkeys (<[name := skr_serialize rec]> (w_senderkeys w)) w.
Proof using Hok.
  induction l as [|x l IH]; intros w w'; [done|]. intros (w1 & H1 & H2)%all_open_cons _.
  apply (group_opens_iff C Hok) in H1 as (m & l1 & s & l2 & pub & seed & s' & _ & _ & _ & _ & _ & _ & _ & _ & Hs' & ->).
  destruct l as [|y l].
  - unfold all_open in H2. cbn in H2. injection H2 as <-. eexists. by split.
  - destruct (IH _ _ H2 ltac:(done)) as (rec & Hr & ->). exists rec. split; [done|].
    cbn [w_senderkeys w_set_senderkeys]. rewrite insert_insert. done.
Qed.

Lemma decrypt_reachable w name bs : group_reachable C w -> group_reachable C (run (group_decrypt C name bs) w).2.
Proof using.
  intros H. eapply later_reachable; [exact H|]. eapply rtc_l; [|apply rtc_refl].
  pose proof (step_call_ends C w (AGroupDecrypt name bs)) as Hx. cbn [api] in Hx. rewrite run_bind in Hx.
  by destruct (run (group_decrypt C name bs) w) as [[?|?] ?].
Qed.
Lemma deliver_reachable name ms : forall w, group_reachable C w -> group_reachable C (deliver C name ms w).2.
Proof using. induction ms as [|m ms IH]; intros w H; [done|]. cbn [deliver snd]. by apply IH, decrypt_reachable. Qed.

Lemma order_no_trace w name l l' w1 : group_reachable C w -> Permutation l l' -> all_open C name l w w1 -> all_open C name l' w w1.
Proof using Hok.
  intros Hr Hp H. destruct (group_reachable_ok C w name Hr) as (rec & Hs & Hst).
  destruct (opens_record _ _ _ _ _ Hs H) as (r1 & G1 & S1 & E1).
  destruct (record_opens l' name w rec r1 Hs Hst) as (w2 & r2 & H2 & S2 & A2 & E2); [by eapply gopens_perm|].
  destruct l as [|x l].
  { apply Permutation_nil_l in Hp as <-. exact H. }
  assert (l' <> []) as Hne by (intros ->; by apply Permutation_nil_r in Hp).
  assert (w2 = w1) as <-; [|exact H2].
  assert (forall l w', all_open C name l w w' -> group_reachable C w') as Hreach.
  { intros k w' Hk. pose proof (deliver_reachable name (map fst k) w Hr) as R. unfold all_open in Hk. by rewrite Hk in R. }
  destruct (opened_is name _ w w1 H ltac:(done)) as (q1 & Q1 & ->). destruct (opened_is name _ w w2 H2 Hne) as (q2 & Q2 & ->).
  rewrite Q1 in S1. injection S1 as ->. rewrite Q2 in S2. injection S2 as ->.
  rewrite (alike_all_eq r2 r1); [done| | |done].
  - destruct (group_reachable_ascending C _ name (Hreach _ _ H2)) as (q & Hq & Ha). rewrite Q2 in Hq. injection Hq as <-.
    eapply Forall_impl; [exact Ha|]. by intros ? [_ ?].
  - destruct (group_reachable_ascending C _ name (Hreach _ _ H)) as (q & Hq & Ha). rewrite Q1 in Hq. injection Hq as <-.
    eapply Forall_impl; [exact Ha|]. by intros ? [_ ?].
Qed.

(** ** Messages that fail *)

(** Another iteration can be read after a step exactly if it could be before. *)
Lemma gstep_diamond s a sa t b sb x : st_ok s -> a <> b -> gstep s a sa t -> gstep s b sb x -> exists y, gstep t b sb y.
Proof using.
  intros Hst Hab (A1 & A2 & HA) (B1 & B2 & HB).
  destruct HA as [(A3 & A4 & ea & Aa & -> & Ap)|(da & -> & Ab & -> & Ac & Ap)].
  - destruct (gstep_chain_same s t A4) as [Ec Ek]. destruct HB as [(B3 & B4 & eb & Bb & -> & Bp)|(db & -> & Bb & -> & Bc & Bp)].
    + assert (eb ∈ ea :: st_senderMessageKeys t) as Hin by (rewrite <- Ap, Bp; left).
      apply elem_of_cons in Hin as [->|(l1 & l2 & Hl)%elem_of_list_split]; [congruence|].
      exists (StS (st_senderKeyId t) (st_senderChainKey t) (st_senderSigningKey t) (l1 ++ l2)). split; [done|]. split; [done|]. left.
      split; [by rewrite Ec|]. split; [done|]. exists eb. split_and!; try done. cbn [st_senderMessageKeys]. rewrite Hl. by rewrite Permutation_middle.
    + exists (moved t (chain_at s + N.of_nat db + 1) (group_stepped C (chain_key s) (S db))
        (st_senderMessageKeys t ++ map (chain_smk (chain_at s) (chain_key s)) (seq 0 db))).
      split; [done|]. split; [done|]. right. exists db. rewrite Ec, Ek. by split_and!.
  - destruct (gstep_chain_at_ahead t _ _ Ac) as [Ec Ek]. destruct HB as [(B3 & B4 & eb & Bb & -> & Bp)|(db & -> & Bb & -> & Bc & Bp)].
    + assert (eb ∈ st_senderMessageKeys t) as (l1 & l2 & Hl)%elem_of_list_split by (rewrite Ap, Bp; left).
      exists (StS (st_senderKeyId t) (st_senderChainKey t) (st_senderSigningKey t) (l1 ++ l2)). split; [done|]. split; [done|]. left.
      split; [rewrite Ec; lia|]. split; [done|]. exists eb. split_and!; try done. cbn [st_senderMessageKeys]. rewrite Hl. by rewrite Permutation_middle.
    + assert (db < da \/ da < db) as [Hd|Hd] by lia.
      * assert (chain_smk (chain_at s) (chain_key s) db ∈ st_senderMessageKeys t) as (l1 & l2 & Hl)%elem_of_list_split.
        { rewrite Ap. apply elem_of_app. right. apply (elem_of_list_fmap_1 (chain_smk (chain_at s) (chain_key s))). apply elem_of_seq. lia. }
        exists (StS (st_senderKeyId t) (st_senderChainKey t) (st_senderSigningKey t) (l1 ++ l2)). split; [done|]. split; [done|]. left.
        split; [rewrite Ec; lia|]. split; [done|]. exists (chain_smk (chain_at s) (chain_key s) db). split_and!; try done.
        cbn [st_senderMessageKeys]. rewrite Hl. by rewrite Permutation_middle.
      * set (d := db - S da).
        exists (moved t (chain_at s + N.of_nat db + 1) (group_stepped C (chain_key t) (S d))
          (st_senderMessageKeys t ++ map (chain_smk (chain_at t) (chain_key t)) (seq 0 d))).
        split; [done|]. split; [done|]. right. exists d. split_and!; try done; [rewrite Ec; lia|].
        rewrite Ek. f_equal. unfold group_stepped. rewrite <- Nat.iter_add. f_equal. lia.
Qed.

(** What matters about a state for a message of iteration [n]. *)
Definition akin (n : N) (s t : st_s) : Prop :=
  (holds_group_key s n <-> holds_group_key t n) /\
  (forall seed, (exists x, gstep s n seed x) <-> exists y, gstep t n seed y) /\
  ((n + 1 = 2 ^ 32)%N -> (chain_at s <= n)%N <-> (chain_at t <= n)%N).

Lemma akin_alike n s t : alike s t -> akin n s t.
Proof using.
  intros Ha. split_and!.
  - unfold holds_group_key. by rewrite (alike_chain_at _ _ Ha), (alike_kept _ _ Ha).
  - intros seed. split; intros [x Hx]; exists x; (eapply gstep_proper; [|reflexivity|exact Hx]); [done|by symmetry].
  - by rewrite (alike_chain_at _ _ Ha).
Qed.
Lemma akin_step s a sa t b : st_ok s -> a <> b -> gstep s a sa t -> akin b s t.
Proof using.
  intros Hst Hab Hg. split_and!.
  - pose proof Hg as (_ & _ & [(A3 & A4 & ea & Aa & -> & Ap)|(da & -> & Ab & -> & Ac & Ap)]); unfold holds_group_key.
    + destruct (gstep_chain_same s t A4) as [-> _].
      assert (Permutation (kept s) (iteration_of ea :: kept t)) as -> by (unfold kept; by rewrite Ap). rewrite elem_of_cons. split; [|tauto].
      intros [?|[?|?]]; [tauto|congruence|tauto].
    + destruct (gstep_chain_at_ahead t _ _ Ac) as [-> _].
      assert (Permutation (kept t) (kept s ++ ((fun i => chain_at s + N.of_nat i)%N <$> seq 0 da))) as ->.
      { unfold kept. rewrite Ap, fmap_app. apply Permutation_app_head. change (map ?f ?l) with (f <$> l). by rewrite <- list_fmap_compose. }
      rewrite elem_of_app, elem_of_list_fmap. split.
      * intros [H|H]; [|tauto]. destruct (N.lt_ge_cases b (chain_at s + N.of_nat da + 1)) as [Hlt|Hge]; [|by left]. right. right.
        exists (N.to_nat (b - chain_at s)). split; [lia|]. apply elem_of_seq. lia.
      * intros [H|[H|(i & -> & _)]]; [left; lia|by right|left; lia].
  - intros seed. split.
    + intros [x Hx]. by eapply gstep_diamond.
    + intros [y Hy]. destruct (gstep_swap _ _ _ _ _ _ _ Hst Hg Hy) as (x & Hx & _). eauto.
  - intros Hb. destruct Hg as (_ & _ & [(A3 & A4 & ea & Aa & -> & Ap)|(da & -> & Ab & -> & Ac & Ap)]).
    + by destruct (gstep_chain_same s t A4) as [-> _].
    + destruct (gstep_chain_at_ahead t _ _ Ac) as [-> _]. lia.
Qed.

(** The same for a record and a message. *)
Definition same_for (m : senderKeyMessage) (s t : st_s) : Prop :=
  key_id s = key_id t /\ signing_public s = signing_public t /\ (key_id s = gKeyId m -> akin (gIteration m) s t).
Lemma same_for_alike m s t : alike s t -> same_for m s t.
Proof using. intros Ha. split_and!; [by apply alike_id|by apply alike_public|]. intros _. by apply akin_alike. Qed.
Lemma akin_sym n s t : akin n s t -> akin n t s.
Proof using. intros (H1 & H2 & H3). split_and!; [tauto|intros seed; specialize (H2 seed); tauto|tauto]. Qed.
Lemma same_for_sym m s t : same_for m s t -> same_for m t s.
Proof using. intros (H1 & H2 & H3). split_and!; [done|done|]. intros H. apply akin_sym, H3. congruence. Qed.
Lemma same_for_trans m s t u : same_for m s t -> same_for m t u -> same_for m s u.
Proof using.
  intros (H1 & H2 & H3) (K1 & K2 & K3). split_and!; [congruence|congruence|]. intros H. specialize (H3 H). rewrite H1 in H. specialize (K3 H).
  destruct H3 as (A1 & A2 & A3), K3 as (B1 & B2 & B3). split_and!; [tauto|intros seed; specialize (A2 seed); specialize (B2 seed); tauto|tauto].
Qed.

Lemma gopen_same_for r a pa t mb : Forall st_ok r -> gopen r a pa t ->
  (forall ma, sk_msg_parse a = Ok ma -> (gKeyId ma, gIteration ma) <> (gKeyId mb, gIteration mb)) -> Forall2 (same_for mb) r t.
Proof using.
  intros Hst (m & j & s & pub & seed & s' & Hm & (Hj & Hid & _) & _ & _ & Hg & _ & He) Hd. specialize (Hd m Hm).
  assert (Forall2 (same_for mb) r (<[j := s']> r)) as H1.
  { rewrite <- (list_insert_id r j s Hj) at 1. apply Forall2_insert.
    - apply Forall_Forall2_diag, Forall_forall. intros x _. by apply same_for_alike.
    - destruct (gstep_id _ _ _ _ Hg) as [Ei Ep]. split_and!; [done|done|]. intros Hk.
      eapply akin_step; [by eapply Forall_lookup_1| |exact Hg]. congruence. }
  clear -H1 He. revert t He. induction H1 as [|x y r q Hx _ IH]; intros t He.
  - inversion He. constructor.
  - apply Forall2_cons_inv_l in He as (z & t' & Hz & He & ->). constructor; [|by apply IH].
    eapply same_for_trans; [exact Hx|by apply same_for_alike].
Qed.

Lemma answering_same r t mb id s : Forall2 (same_for mb) r t -> answering r id s -> exists s', answering t id s' /\ same_for mb s s'.
Proof using.
  intros Hr (l1 & l2 & -> & Hid & Hf). apply Forall2_app_inv_l in Hr as (k1 & k2 & H1 & H2 & ->).
  apply Forall2_cons_inv_l in H2 as (s' & k2' & Ha & H2 & ->). exists s'. split; [|done]. exists k1, k2'.
  split; [done|]. split; [change (key_id s' = id); destruct Ha as [<- _]; done|].
  clear -H1 Hf. induction H1 as [|x y l k Hx _ IH]; [done|]. apply Forall_cons in Hf as [F1 F2].
  constructor; [|by apply IH]. change (key_id y <> id). destruct Hx as [<- _]. done.
Qed.

Lemma refuses_same r t bs e : Forall st_ok t -> (forall m, sk_msg_parse bs = Ok m -> Forall2 (same_for m) r t) -> length r = length t ->
  group_refuses C r bs e -> group_refuses C t bs e.
Proof using.
  intros Hst Hr Hlen. assert (r <> [] -> t <> []) as Hne by (intros H ->; by destruct r).
  assert (forall m s pub, sk_msg_parse bs = Ok m -> checked_with r m s pub ->
    exists s', checked_with t m s' pub /\ key_id s = gKeyId m /\ akin (gIteration m) s s' /\ st_ok s') as Hc.
  { intros m s pub Hm [H1 H2]. destruct (answering_same _ _ _ _ _ (Hr m Hm) H1) as (s' & H3 & K1 & K2 & K3). exists s'.
    assert (key_id s = gKeyId m) as Hk by (by destruct H1 as (? & ? & _ & ? & _)).
    split_and!; try done; [split; [done|by rewrite <- K2]|by apply K3|]. destruct H3 as (l1 & l2 & -> & _).
    by apply Forall_app in Hst as [_ [? _]%Forall_cons]. }
  intros [ -> |H1 H2|H1 H2 H3|m H1 H2 H3|m s pub H1 H2 H3|m s pub H1 H2 H3 H4 H5|m s pub H1 H2 H3 H4|m s pub H1 H2 H3 H4 H5|m s pub seed s' H1 H2 H3 H4 H5].
  - destruct t; [|done]. by apply refuse_none.
  - by apply refuse_empty; [apply Hne|].
  - by apply refuse_unreadable; [apply Hne|..].
  - apply (refuse_unknown _ _ _ m); [by apply Hne|done|]. specialize (Hr m H2). clear -Hr H3. induction Hr as [|x y l k Hx _ IH]; [done|].
    apply Forall_cons in H3 as [F1 F2]. constructor; [|by apply IH]. by destruct Hx as [<- _].
  - destruct (Hc _ _ _ H1 H2) as (q & Hq & _). by apply (refuse_length _ _ _ m q pub).
  - destruct (Hc _ _ _ H1 H2) as (q & Hq & _). by apply (refuse_forged _ _ _ m q pub).
  - destruct (Hc _ _ _ H1 H2) as (q & Hq & _ & (A1 & _ & _) & _). apply (refuse_used _ _ _ m q pub); try done. tauto.
  - destruct (Hc _ _ _ H1 H2) as (q & Hq & _ & (_ & _ & A3) & _). apply (refuse_last _ _ _ m q pub); try done. tauto.
  - destruct (Hc _ _ _ H1 H2) as (q & Hq & _ & (_ & A2 & _) & Ho). apply gstep_read in H4.
    destruct (proj1 (A2 seed) ltac:(eauto)) as [y Hy]. destruct (read_gstep _ _ _ _ Ho Hy) as (y' & Hread & _).
    by apply (refuse_garbled _ _ _ m q pub seed y').
Qed.

(** ** Any two calls *)

Definition apart (a b : bytes) : Prop := forall ma mb, sk_msg_parse a = Ok ma -> sk_msg_parse b = Ok mb ->
  (gKeyId ma, gIteration ma) <> (gKeyId mb, gIteration mb).

Lemma gopen_diamond r a pa t b pb x : Forall st_ok r -> apart a b -> gopen r a pa t -> gopen r b pb x -> exists y, gopen t b pb y.
Proof using.
  intros Hst Hd Ha (m & j & s & pub & seed & s' & Hm & (Hj & Hid & Hne) & Hp & Hv & Hg & Hb & _).
  pose proof (gopen_same_for _ _ _ _ m Hst Ha ltac:(intros ma Hma; by apply Hd)) as Hs.
  destruct (Forall2_lookup_l _ _ _ _ _ Hs Hj) as (q & Hq & K1 & K2 & K3).
  destruct (K3 Hid) as (_ & A2 & _). destruct (proj1 (A2 seed) ltac:(eauto)) as [y Hy].
  exists (<[j := y]> t). exists m, j, q, pub, seed, y. split_and!; try done.
  - split; [done|]. split; [congruence|]. intros i z Hi Hz. destruct (Forall2_lookup_r _ _ _ _ _ Hs Hz) as (z' & Hz' & E & _).
    rewrite <- E. by eapply Hne.
  - by rewrite <- K2.
Qed.

Lemma two_calls w name a b : group_reachable C w -> apart a b ->
  let x := run (group_decrypt C name a) w in let y := run (group_decrypt C name b) x.2 in
  let x' := run (group_decrypt C name b) w in let y' := run (group_decrypt C name a) x'.2 in
  x.1 = y'.1 /\ y.1 = x'.1 /\ y.2 = y'.2.
Proof using Hok.
  intros Hr Hd. assert (forall a b pa w1 e, apart a b -> run (group_decrypt C name a) w = (Ok pa, w1) ->
    run (group_decrypt C name b) w = (Err e, w) -> run (group_decrypt C name b) w1 = (Err e, w1)) as Hfail.
  { clear a b Hd. intros a b pa w1 e Hd Ha Hb.
    destruct (group_reachable_ok C w name Hr) as (rec & Hs & Hst). destruct (open_record _ _ _ _ _ _ Hs Ha) as (t & G & St & _).
    pose proof (decrypt_reachable w name a Hr) as R1. rewrite Ha in R1. cbn [snd] in R1.
    apply (group_decrypt_refuses C Hok) in Hb as (_ & rec' & Hs' & Hf); [|done]. rewrite Hs in Hs'. injection Hs' as <-.
    apply (group_decrypt_refuses C Hok); [done|]. split; [done|]. exists t. split; [done|].
    eapply refuses_same; [by eapply gopen_ok| | |exact Hf].
    - intros m Hm. eapply gopen_same_for; [done|exact G|]. intros ma Hma. by apply Hd.
    - destruct G as (m & j & s & pub & seed & s' & _ & _ & _ & _ & _ & _ & He). apply Forall2_length in He. by rewrite insert_length in He. }
  assert (apart b a) as Hd' by (intros ma mb H1 H2 E; by apply (Hd mb ma)).
  assert (forall c e w', run (group_decrypt C name c) w = (Err e, w') -> w' = w) as Hsame.
  { intros c e w' H. by apply (group_decrypt_refuses C Hok) in H as [-> _]. }
  cbn zeta. destruct (run (group_decrypt C name a) w) as [[pa|ea] w1] eqn:Ha; destruct (run (group_decrypt C name b) w) as [[pb|eb] w2] eqn:Hb; cbn [fst snd].
  - destruct (group_reachable_ok C w name Hr) as (rec & Hs & Hst). destruct (open_record _ _ _ _ _ _ Hs Ha) as (t & G & St & _).
    destruct (open_record _ _ _ _ _ _ Hs Hb) as (t2 & G2 & St2 & _). destruct (gopen_diamond _ _ _ _ _ _ _ Hst Hd G G2) as [y Hy].
    destruct (record_open w1 name b pb t y St) as (u & _ & Hu & _); [by eapply gopen_ok|done|].
    assert (all_open C name [(a, pa); (b, pb)] w u) as H1.
    { apply all_open_cons. exists w1. split; [done|]. apply all_open_cons. by exists u. }
    apply (order_no_trace _ _ _ [(b, pb); (a, pa)]) in H1; [|done|constructor].
    apply all_open_cons in H1 as (w2' & E2 & H1). apply all_open_cons in H1 as (u' & Eu & H1). cbn [fst snd] in *.
    unfold all_open in H1. cbn in H1. injection H1 as ->. rewrite Hb in E2. injection E2 as <-. by rewrite Hu, Eu.
  - pose proof (Hsame _ _ _ Hb) as ->. rewrite (Hfail a b pa w1 eb Hd Ha Hb), Ha. done.
  - pose proof (Hsame _ _ _ Ha) as ->. rewrite (Hfail b a pb w2 ea Hd' Hb Ha), Hb. done.
  - pose proof (Hsame _ _ _ Ha) as ->. pose proof (Hsame _ _ _ Hb) as ->. by rewrite Ha, Hb.
Qed.

Lemma fates_cons name m ms w : fates C name (m :: ms) w =
  (m, (run (group_decrypt C name m) w).1) :: fates C name ms (run (group_decrypt C name m) w).2.
Proof using. done. Qed.

Lemma order_fates name ms ms' : Permutation ms ms' -> forall w, group_reachable C w -> different ms ->
  Permutation (fates C name ms w) (fates C name ms' w) /\ (deliver C name ms w).2 = (deliver C name ms' w).2.
Proof using Hok.
  induction 1 as [|x l l' _ IH|x y l|l1 l2 l3 H12 IH1 _ IH2]; intros w Hr Hd.
  - done.
  - rewrite !fates_cons. cbn [deliver snd]. destruct (IH (run (group_decrypt C name x) w).2) as [E1 E2].
    + by apply decrypt_reachable.
    + unfold different in *. cbn [omap list_omap] in Hd. destruct (numbers x); [by apply NoDup_cons in Hd as [_ Hd]|done].
    + split; [by constructor|done].
  - assert (apart y x) as Hxy.
    { intros my mx Hy Hx E. unfold different in Hd. cbn [omap list_omap] in Hd. unfold numbers at 1 2 in Hd. rewrite Hy, Hx, E in Hd.
      apply NoDup_cons in Hd as [Hd _]. apply Hd. left. }
    destruct (two_calls w name y x Hr Hxy) as (T1 & T2 & T3). cbn zeta in *.
    rewrite !fates_cons. cbn [deliver snd]. rewrite <- T3. split; [|done]. rewrite <- T1, <- T2. constructor.
  - destruct (IH1 w Hr Hd) as [E1 E2]. destruct (IH2 w Hr) as [F1 F2]; [unfold different in *; by rewrite <- H12|].
    split; [by etrans|congruence].
Qed.
End order.
