(** A session state against the conversation as it should be: sending, receiving. *)
From Verif Require Import PyBase Wire Protos ProtoFacts Crypto Ecc Kdf Messages State Prog Ratchet Builder Cipher Helper.
From Verif Require Import ProgFacts StateFacts UtilFacts HelperFacts MsgFacts CipherFacts DecryptFacts SpecUtil SpecSession SessionProofs HandshakeFacts.
From Verif Require Import SpecKeys KeyProofs SpecEncrypt EncryptProofs Sched SpecConv.

(** ** Numbers received *)

Lemma next_of_cons l x c got :
  next_of l ((x, c) :: got) = if (x =? l)%nat then N.max (c + 1) (next_of l got) else next_of l got.
Proof. done. Qed.

Lemma next_of_lt l c got : (l, c) ∈ got -> (c < next_of l got)%N.
Proof.
  induction got as [|[x y] got IH]; [by intros H%elem_of_nil|].
  rewrite elem_of_cons, next_of_cons. intros [[= <- <-]|H].
  - rewrite Nat.eqb_refl. lia.
  - apply IH in H. case_match; lia.
Qed.

Lemma next_of_none l got : (forall c, (l, c) ∉ got) -> next_of l got = 0%N.
Proof.
  induction got as [|[x y] got IH]; [done|]. intros H. rewrite next_of_cons.
  destruct (Nat.eqb_spec x l) as [->|Hne].
  - destruct (H y). by left.
  - apply IH. intros c Hc. apply (H c). by right.
Qed.

(** ** The chains that are kept *)

Definition kept (n : nat) : list nat := (fun j => n - 1 - 2 * j) <$> rev (seq 0 (Nat.min 5 (Nat.div2 (n + 1)))).
Definition trim5 {A} (l : list A) : list A := if (5 <? length l)%nat then drop 1 l else l.

Lemma kept_big n : 9 <= n -> kept n = [n - 9; n - 7; n - 5; n - 3; n - 1].
Proof.
  intros H. unfold kept. replace (Nat.min 5 (Nat.div2 (n + 1))) with 5.
  - cbn [seq rev app fmap list_fmap]. repeat (f_equal; try lia).
  - do 9 (destruct n as [|n]; [lia|]). rewrite Nat.add_comm. cbn [Nat.add Nat.div2]. lia.
Qed.

Lemma kept_step n : kept (S (S n)) = trim5 (kept n ++ [S n]).
Proof.
  destruct (decide (9 <= n)).
  - rewrite !kept_big by lia. cbn [trim5 app length Nat.ltb Nat.leb drop].
    unfold trim5. cbn [app length Nat.ltb Nat.leb drop]. repeat (f_equal; try lia).
  - do 9 (destruct n as [|n]; [reflexivity|]). lia.
Qed.

Lemma kept_elem n l : l ∈ kept n <-> (exists k, n = S (l + 2 * k)) /\ n <= l + 9.
Proof.
  assert (forall k, n = S (l + 2 * k) -> k < 5 -> exists k, n = S (l + 2 * k)) as Hex by eauto.
  destruct (decide (9 <= n)).
  - rewrite kept_big by lia. rewrite !elem_of_cons, elem_of_nil. split.
    + intros H. split; [|lia]. destruct H as [->|[->|[->|[->|[->|[]]]]]]; [exists 4|exists 3|exists 2|exists 1|exists 0]; lia.
    + intros [[k Hk] H]. lia.
  - do 9 (destruct n as [|n]; [cbn; rewrite ?elem_of_cons, ?elem_of_nil; split;
      [intros H; split; [|lia]; first [lia|apply (Hex 0); lia|idtac];
       repeat (destruct H as [->|H]; [first [exists 0; lia|exists 1; lia|exists 2; lia|exists 3; lia]|]); lia
      |intros [[k Hk] H]; lia]|]). lia.
Qed.

Lemma kept_nodup n : NoDup (kept n).
Proof.
  destruct (decide (9 <= n)).
  - rewrite kept_big by lia. repeat (constructor; [rewrite ?elem_of_cons, elem_of_nil; lia|]). constructor.
  - do 9 (destruct n as [|n]; [by apply (bool_decide_unpack _); vm_compute|]). lia.
Qed.

Lemma trim5_fmap {A B} (f : A -> B) l : f <$> trim5 l = trim5 (f <$> l).
Proof. unfold trim5. rewrite fmap_length. case_match; [|done]. by rewrite fmap_drop. Qed.
Lemma trim5_Forall2 {A B} (P : A -> B -> Prop) l k : Forall2 P l k -> Forall2 P (trim5 l) (trim5 k).
Proof.
  intros H. unfold trim5. rewrite (Forall2_length _ _ _ H). case_match; [|done]. by apply Forall2_drop.
Qed.

Section conv.
Context (C : crypto) (Hok : crypto_ok C).

(** ** Keys of the chains *)

(** The ratchet key pairs in the order of the chains; root key and first chain key of each
    chain. *)
Definition kth (ks : list keypair) (n : nat) : keypair := nth n ks zeroKp.
Fixpoint level (r0 c0 : bytes) (ks : list keypair) (n : nat) : bytes * bytes :=
  match n with
  | O => (r0, c0)
  | S m => rkdf C (level r0 c0 ks m).1 (agree C (kp_priv (kth ks m)) (kp_pub (kth ks (S m))))
  end.

Lemma kth_app ks l n : n < length ks -> kth (ks ++ l) n = kth ks n.
Proof. intros H. unfold kth. by rewrite app_nth1. Qed.
Lemma level_app r0 c0 ks l n : n < length ks -> level r0 c0 (ks ++ l) n = level r0 c0 ks n.
Proof.
  induction n as [|n IH]; intros H; [done|]. cbn [level].
  by rewrite IH, !kth_app by lia.
Qed.
Lemma kth_last ks k : kth (ks ++ [k]) (length ks) = k.
Proof. unfold kth. by rewrite app_nth2, Nat.sub_diag by lia. Qed.
Lemma kth_genuine ks n : Forall (genuine C) ks -> n < length ks -> genuine C (kth ks n).
Proof.
  intros Hg Hn. unfold kth. apply (Forall_lookup_1 _ ks n); [done|].
  destruct (ks !! n) as [k|] eqn:E; [|apply lookup_ge_None in E; lia].
  f_equal. symmetry. by apply nth_lookup_Some.
Qed.
Lemma kth_lookup ks n : n < length ks -> (kp_pub <$> ks) !! n = Some (kp_pub (kth ks n)).
Proof.
  intros Hn. rewrite list_lookup_fmap. unfold kth.
  destruct (ks !! n) as [k|] eqn:E; [|apply lookup_ge_None in E; lia].
  cbn. f_equal. f_equal. symmetry. by apply nth_lookup_Some.
Qed.
Lemma kth_inj ks a b : NoDup (kp_pub <$> ks) -> a < length ks -> b < length ks ->
  kp_pub (kth ks a) = kp_pub (kth ks b) -> a = b.
Proof. intros Hnd Ha Hb He. eapply (NoDup_lookup _ a b); [done|by apply kth_lookup|rewrite He; by apply kth_lookup]. Qed.

Lemma stepped_add k a b : stepped C (stepped C k a) b = stepped C k (b + a).
Proof. unfold stepped. by rewrite Nat.iter_add. Qed.

Lemma dh_rkdf root priv remote : rkdf C root (agree C priv remote) = (dh_root C root priv remote, dh_chain C 3 root priv remote).
Proof using Hok.
  unfold rkdf, dh_root, dh_chain. change hkdf_v3 with (N.of_nat 1). change (first_block 3) with 1.
  rewrite (derive_rfc C Hok) by (cbn; lia). f_equal. apply take_ge. rewrite drop_length.
  rewrite <- (derive_rfc C Hok) by (cbn; lia). rewrite derive_length by done. lia.
Qed.

(** ** A receiving chain *)

Definition mki (m : mk_s) : N := default 0%N (mk_index m).
Definition mk_of (ck : bytes) (i : N) : mk_s := mk_stored (ck_messageKeys C (ChainKey hkdf_v3 (stepped C ck (N.to_nat i)) i)).

(** The chain with this ratchet key and first chain key after the messages [got] of chain
    [l] were received. *)
Definition crel (pub ck : bytes) (l : nat) (got : list (nat * N)) (c : ch_s) : Prop :=
  let nx := next_of l got in
  ch_ratchetKey c = Some (pub_serialize pub) /\
  ch_chainKey c = Some (CkS (Some nx) (Some (stepped C ck (N.to_nat nx)))) /\
  NoDup (mki <$> ch_messageKeys c) /\
  (forall i, i ∈ (mki <$> ch_messageKeys c) <-> (i < nx)%N /\ (l, i) ∉ got) /\
  Forall (fun m => m = mk_of ck (mki m)) (ch_messageKeys c).

Lemma crel_other pub ck l got c l' i : l' <> l -> crel pub ck l got c -> crel pub ck l ((l', i) :: got) c.
Proof.
  intros Hne (H1 & H2 & H3 & H4 & H5). unfold crel. rewrite next_of_cons, (proj2 (Nat.eqb_neq _ _)) by done.
  split_and!; try done. intros j. rewrite H4, elem_of_cons. naive_solver.
Qed.

Lemma crel_new pub ck l got : (forall i, (l, i) ∉ got) -> crel pub ck l got (newChain pub (ChainKey hkdf_v3 ck 0)).
Proof.
  intros H. unfold crel. rewrite next_of_none by done. split_and!; try done.
  - constructor.
  - intros i. cbn. rewrite elem_of_nil. lia.
  - constructor.
Qed.

Lemma mk_of_index ck i : mki (mk_of ck i) = i.
Proof. unfold mki, mk_of, mk_stored. cbn [mk_index]. by rewrite default_Some, ck_messageKeys_counter. Qed.
Lemma mk_of_keys ck i m : m = mk_of ck i -> to_keys (mk_toMessageKeys m) = keys_of C 3 (stepped C ck (N.to_nat i)).
Proof using Hok.
  intros ->. rewrite <- (keys_of_eq C Hok 3 _ i). change (N.of_nat (first_block 3)) with hkdf_v3. done.
Qed.

Lemma crel_chainkey pub ck l got c : crel pub ck l got c ->
  ch_getChainKey hkdf_v3 c = ChainKey hkdf_v3 (stepped C ck (N.to_nat (next_of l got))) (next_of l got).
Proof. intros (_ & H & _). unfold ch_getChainKey. by rewrite H. Qed.

Lemma fmap_iter k n (kd : N) i : Nat.iter n (ck_next C) (ChainKey kd k i) = ChainKey kd (stepped C k n) (i + N.of_nat n).
Proof. by rewrite ck_next_iter. Qed.

(** Taking the keys of a message from it. *)
Lemma take_dup pub ck l got c i : crel pub ck l got c -> (l, i) ∈ got -> chainTake C hkdf_v3 c i = Err EDuplicateMessage.
Proof.
  intros Hc Hi. pose proof (crel_chainkey _ _ _ _ _ Hc) as Hck. destruct Hc as (_ & _ & _ & Hm & _).
  unfold chainTake. rewrite Hck. cbn [cIndex]. rewrite (proj2 (N.ltb_lt _ _)) by (by apply next_of_lt).
  destruct (take_messageKey i (ch_messageKeys c)) as [[m r]|] eqn:E; [|done].
  apply take_messageKey_some in E as (l1 & l2 & Hl & _ & Hx & _).
  destruct (proj1 (Hm i)) as [_ []]; [|done]. apply hasIndex_iff in Hx.
  rewrite Hl, fmap_app, fmap_cons. apply elem_of_app. right. rewrite <- Hx. left.
Qed.

Lemma take_far pub ck l got c i : crel pub ck l got c -> (next_of l got + 2000 < i)%N -> chainTake C hkdf_v3 c i = Err EInvalidMessage.
Proof.
  intros Hc Hi. pose proof (crel_chainkey _ _ _ _ _ Hc) as Hck.
  unfold chainTake. rewrite Hck. cbn [cIndex]. rewrite (proj2 (N.ltb_ge _ _)) by lia.
  by rewrite (proj2 (N.ltb_lt _ _)) by lia.
Qed.

Lemma take_new pub ck l got c i : crel pub ck l got c -> (l, i) ∉ got -> (i <= next_of l got + 2000)%N -> (i + 1 < 2 ^ 32)%N ->
  exists mk c', chainTake C hkdf_v3 c i = Ok (mk, c') /\ to_keys mk = keys_of C 3 (stepped C ck (N.to_nat i)) /\
    crel pub ck l ((l, i) :: got) c'.
Proof using Hok.
  intros Hc Hnew Hfar Hi32. pose proof (crel_chainkey _ _ _ _ _ Hc) as Hck. destruct Hc as (H1 & H2 & H3 & H4 & H5).
  unfold chainTake. rewrite Hck. cbn [cIndex]. destruct (N.ltb_spec i (next_of l got)) as [Hlt|Hge].
  - (* a stored key *)
    destruct (take_messageKey i (ch_messageKeys c)) as [[m r]|] eqn:E.
    2: { exfalso. apply take_messageKey_none in E. assert (i ∈ mki <$> ch_messageKeys c) as Hin by (by apply H4).
         apply elem_of_list_fmap in Hin as (m & Hm & Hin).
         rewrite Forall_forall in E. apply E in Hin. apply hasIndex_niff in Hin. by destruct Hin. }
    apply take_messageKey_some in E as (l1 & l2 & Hl & -> & Hx%hasIndex_iff & Hl1). fold (mki m) in Hx.
    eexists _, _. split; [done|]. rewrite Hl in H3, H4, H5. apply Forall_app in H5 as [H5a [H5m H5b]%Forall_cons].
    split.
    { apply mk_of_keys. by rewrite H5m, Hx. }
    unfold crel. rewrite next_of_cons, Nat.eqb_refl. replace (N.max (i + 1) (next_of l got)) with (next_of l got) by lia.
    cbn [ch_ratchetKey ch_chainKey ch_messageKeys ch_set_messageKeys].
    rewrite fmap_app, fmap_cons in H3, H4. rewrite fmap_app.
    apply NoDup_app in H3 as (N1 & N2 & [N3 N4]%NoDup_cons). split_and!; try done.
    + apply NoDup_app. split_and!; [done| |done]. intros y Hy Hy'. apply (N2 y Hy). by right.
    + intros j. split.
      * intros Hj. destruct (proj1 (H4 j)) as [Hj1 Hj2].
        { rewrite elem_of_app, elem_of_cons. apply elem_of_app in Hj. tauto. }
        split; [done|]. rewrite elem_of_cons. intros [[= ->]|]; [|done]. apply elem_of_app in Hj as [Hj|Hj].
        -- apply (N2 i Hj). rewrite Hx. left.
        -- by rewrite Hx in N3.
      * intros [Hj1 Hj2]. rewrite elem_of_cons in Hj2.
        assert (j ∈ (mki <$> l1) ++ mki m :: (mki <$> l2)) as Hj by (apply H4; tauto).
        rewrite elem_of_app, elem_of_cons in Hj. rewrite elem_of_app. destruct Hj as [|[->|]]; try tauto.
        destruct Hj2. left. by rewrite Hx.
    + by apply Forall_app.
  - (* stepping forward *)
    rewrite (proj2 (N.ltb_ge _ _)) by lia. rewrite (proj2 (N.ltb_lt _ _)) by done.
    set (nx := next_of l got) in *. set (d := N.to_nat (i - nx)).
    eexists _, _. split; [done|]. split.
    { rewrite fmap_iter, stepped_add. replace (d + N.to_nat nx) with (N.to_nat i) by lia.
      exact (keys_of_eq C Hok 3 _ _). }
    unfold crel. rewrite next_of_cons, Nat.eqb_refl. fold nx. replace (N.max (i + 1) nx) with (i + 1)%N by lia.
    cbn [ch_ratchetKey ch_chainKey ch_messageKeys ch_set_messageKeys ch_set_chainKey].
    assert (map (fun j => mk_stored (ck_messageKeys C (Nat.iter j (ck_next C) (ChainKey hkdf_v3 (stepped C ck (N.to_nat nx)) nx)))) (seq 0 d)
      = (fun j => mk_of ck (nx + N.of_nat j)) <$> seq 0 d) as ->.
    { apply map_ext. intros j. rewrite fmap_iter, stepped_add. unfold mk_of.
      replace (N.to_nat (nx + N.of_nat j)) with (j + N.to_nat nx) by lia. done. }
    split_and!; try done.
    + rewrite fmap_iter, stepped_add. cbn [cKey]. replace (S d + N.to_nat nx) with (N.to_nat (i + 1)) by lia. done.
    + rewrite fmap_app, <- list_fmap_compose. apply NoDup_app. split_and!; [done| |].
      * intros j Hj%H4 (k & -> & Hk)%elem_of_list_fmap. unfold compose in Hj. rewrite mk_of_index in Hj. lia.
      * apply NoDup_fmap_2_strong; [|apply NoDup_seq].
        intros a b _ _. unfold compose. rewrite !mk_of_index. lia.
    + intros j. rewrite fmap_app, elem_of_app, <- list_fmap_compose, H4, elem_of_list_fmap, elem_of_cons. split.
      * intros [[Hj1 Hj2]|(k & -> & Hk%elem_of_seq)].
        -- split; [lia|]. intros [[= ->]|]; [lia|done].
        -- unfold compose. rewrite mk_of_index. split; [lia|]. intros [[= Heq]|Hin]; [lia|]. apply next_of_lt in Hin. fold nx in Hin. lia.
      * intros [Hj1 Hj2]. destruct (N.ltb_spec j nx) as [Hlt|Hge']; [tauto|].
        right. exists (N.to_nat (j - nx)). unfold compose. rewrite mk_of_index. split; [lia|]. apply elem_of_seq.
        assert (j <> i) by (intros ->; apply Hj2; auto). lia.
    + apply Forall_app. split; [done|]. apply Forall_fmap, Forall_true. intros j. unfold compose. by rewrite mk_of_index.
Qed.

(** ** A whole state *)

Section state.
Context (r0 c0 : bytes) (me them : bytes).

Definition srel (ks : list keypair) (s : ss_s) (p : party) : Prop :=
  let n := p_turn p in
  n < length ks /\
  ss_version s = Some 3%N /\ ss_localIdentity s = Some (pub_serialize me) /\ ss_remoteIdentity s = Some (pub_serialize them) /\
  ss_rootKey s = Some (level r0 c0 ks n).1 /\
  (exists c, ss_senderChain s = Some c /\ ch_ratchetKey c = Some (pub_serialize (kp_pub (kth ks n))) /\
     ch_ratchetKeyPrivate c = Some (kp_priv (kth ks n)) /\
     ch_chainKey c = Some (CkS (Some (p_sent p)) (Some (stepped C (level r0 c0 ks n).2 (N.to_nat (p_sent p)))))) /\
  Forall2 (fun l c => crel (kp_pub (kth ks l)) (level r0 c0 ks l).2 l (p_got p) c) (kept n) (ss_receiverChains s) /\
  (forall l i, (l, i) ∈ p_got p -> l < n).

(** The message [m] of the conversation as it was built by [snd] for [rcv]. *)
Definition mrel (ks : list keypair) (snd rcv : bytes) (x : msg) (m : whisperMessage) : Prop :=
  let '(l, i, pt) := x in
  l < length ks /\ wVersion m = 3%N /\ wRatchetKey m = kp_pub (kth ks l) /\ wCounter m = i /\ (i + 1 < 2 ^ 32)%N /\
  sealed C snd rcv (keys_of C 3 (stepped C (level r0 c0 ks l).2 (N.to_nat i))) m pt /\ whisper_parse (wSerialized m) = Ok m.

Lemma mrel_app ks l snd rcv x m : mrel ks snd rcv x m -> mrel (ks ++ l) snd rcv x m.
Proof.
  destruct x as [[lv i] pt]. intros (H1 & H2 & H3 & H4 & H5 & H6 & H7).
  unfold mrel. rewrite app_length, kth_app, level_app by done. split_and!; try done. lia.
Qed.

Lemma kept_lt n l : l ∈ kept n -> l < n.
Proof. intros [[k ->] _]%kept_elem. lia. Qed.

Lemma Forall2_in {A B} (P Q : A -> B -> Prop) l k :
  Forall2 P l k -> (forall a b, a ∈ l -> P a b -> Q a b) -> Forall2 Q l k.
Proof.
  induction 1 as [|a b l k Hab Hlk IH]; intros HQ; constructor.
  - apply HQ; [left|done].
  - apply IH. intros x y Hx. apply HQ. by right.
Qed.

Lemma srel_app ks l s p : srel ks s p -> srel (ks ++ l) s p.
Proof using.
  intros (H1 & H2 & H3 & H4 & H5 & H6 & H7 & H8).
  unfold srel. rewrite app_length, kth_app, level_app by done. split_and!; try done; [lia|].
  eapply Forall2_in; [done|]. intros x c Hx%kept_lt. by rewrite kth_app, level_app by lia.
Qed.

Context (ks : list keypair) (Hgen : Forall (genuine C) ks) (Hnd : NoDup (kp_pub <$> ks)).

Lemma kth_pub_len n : n < length ks -> length (kp_pub (kth ks n)) = 32.
Proof using Hok Hgen. intros H. apply (genuine_pub_len C Hok). by apply kth_genuine. Qed.

Lemma crel_pub n ck l got c : n < length ks -> crel (kp_pub (kth ks n)) ck l got c -> chain_pub c = Ok (kp_pub (kth ks n)).
Proof using Hok Hgen.
  intros Hn (H & _). unfold chain_pub. rewrite H, default_Some. apply decodePoint_serialize. rewrite kth_pub_len by done. lia.
Qed.

(** Looking for the chain of a ratchet key. *)
Lemma find_kept s p l :
  srel ks s p -> l ∈ kept (p_turn p) ->
  exists c j, find_chain (kp_pub (kth ks l)) (ss_receiverChains s) 0 = Ok (Some (c, j)) /\
    kept (p_turn p) !! j = Some l /\ crel (kp_pub (kth ks l)) (level r0 c0 ks l).2 l (p_got p) c.
Proof using Hok Hgen Hnd.
  intros (H1 & _ & _ & _ & _ & _ & H7 & _) Hl.
  assert (forall x, x ∈ kept (p_turn p) -> x < length ks) as Hlt by (intros x Hx%kept_lt; lia).
  pose proof (kept_nodup (p_turn p)) as Hk.
  apply elem_of_list_split in Hl as (k1 & k2 & Hk12). rewrite Hk12 in *.
  apply Forall2_app_inv_l in H7 as (l1 & l2 & HF1 & HF2 & ->). apply Forall2_cons_inv_l in HF2 as (c & l2' & Hc & HF2 & ->).
  exists c, (length l1). split_and!.
  - rewrite (find_chain_app (kp_pub (kth ks l)) l1 c l2' 0); [done| |].
    + eapply crel_pub; [|done]. apply Hlt. apply elem_of_app. right. left.
    + apply Forall_forall. intros x (j & Hj)%elem_of_list_lookup.
      destruct (Forall2_lookup_r _ _ _ _ _ HF1 Hj) as (y & Hy & Hxy).
      assert (y ∈ k1) as Hin by (by eapply elem_of_list_lookup_2).
      exists (kp_pub (kth ks y)). split; [eapply crel_pub; [|done]; apply Hlt, elem_of_app; auto|].
      intros He%kth_inj; [|done|apply Hlt, elem_of_app; auto|apply Hlt, elem_of_app; right; left].
      subst y. apply NoDup_app in Hk as (_ & Hk & _). apply (Hk l Hin). left.
  - rewrite <- (Forall2_length _ _ _ HF1). apply list_lookup_middle. done.
  - done.
Qed.

Lemma find_new s p l :
  srel ks s p -> l < length ks -> l ∉ kept (p_turn p) ->
  find_chain (kp_pub (kth ks l)) (ss_receiverChains s) 0 = Ok None.
Proof using Hok Hgen Hnd.
  intros (H1 & _ & _ & _ & _ & _ & H7 & _) Hl Hnl. apply find_chain_none, Forall_forall.
  intros x (j & Hj)%elem_of_list_lookup.
  destruct (Forall2_lookup_r _ _ _ _ _ H7 Hj) as (y & Hy & Hxy).
  assert (y ∈ kept (p_turn p)) as Hin by (by eapply elem_of_list_lookup_2).
  pose proof (kept_lt _ _ Hin).
  exists (kp_pub (kth ks y)). split; [eapply crel_pub; [|done]; lia|].
  intros He%kth_inj; [|done|lia|done]. by subst.
Qed.

Context (Hme : length me = 32) (Hthem : length them = 32).

(** Opening a message with the right chain. *)
Lemma open_new s l i pt m c p got :
  srel ks s p -> mrel ks them me (l, i, pt) m ->
  crel (kp_pub (kth ks l)) (level r0 c0 ks l).2 l got c -> (l, i) ∉ got -> (i <= next_of l got + 2000)%N ->
  exists c', openWith C hkdf_v3 c s m = Ok (pt, c') /\ crel (kp_pub (kth ks l)) (level r0 c0 ks l).2 l ((l, i) :: got) c'.
Proof using Hok Hme Hthem.
  intros Hs (Hl & Hv & Hrk & Hi & Hi32 & [Hauth Hcbc] & Hparse) Hc Hnew Hfar.
  destruct (take_new _ _ _ _ _ _ Hc Hnew Hfar Hi32) as (mk & c' & Ht & Hk & Hc').
  exists c'. split; [|done]. unfold openWith. rewrite Hi, Ht, bind_ok. cbn [fst snd].
  destruct Hs as (_ & _ & Hlo & Hre & _). unfold st_getRemoteIdentityKey, st_getLocalIdentityKey.
  rewrite Hlo, Hre, !default_Some, !decodePoint_serialize by lia. rewrite !bind_ok.
  assert (8 <= length (wSerialized m)) as H8 by (pose proof (whisper_parse_length _ _ Hparse); lia).
  rewrite (proj2 (authentic_iff C m (wVersion m) them me (mMac mk) H8 Hok)).
  - rewrite bind_ok. rewrite (proj2 (cbc_plain_iff C _ _ _ pt)); [done|].
    rewrite <- Hk in Hcbc. exact Hcbc.
  - rewrite <- Hk in Hauth. exact Hauth.
Qed.

Lemma srel_version s p : srel ks s p -> st_getSessionVersion s = 3%N /\ st_hasSenderChain s = true.
Proof using. intros (_ & H & _ & _ & _ & (c & Hc & _) & _). unfold st_getSessionVersion, st_hasSenderChain. by rewrite H, Hc. Qed.

(** ** Receiving in a chain that is there *)

Lemma chainStep_found s p l c j ek :
  srel ks s p -> find_chain (kp_pub (kth ks l)) (ss_receiverChains s) 0 = Ok (Some (c, j)) ->
  chainStep C s (kp_pub (kth ks l)) ek = Ok (ch_getChainKey hkdf_v3 c, s).
Proof using.
  intros [Hv _]%srel_version Hf. unfold chainStep, st_hasReceiverChain, st_getReceiverChain. rewrite Hf, !bind_ok.
  unfold st_getReceiverChainKey. rewrite (theReceiverChain_ok _ _ _ Hf), bind_ok, Hv. done.
Qed.

Lemma old_chain s p l i pt m ek :
  srel ks s p -> mrel ks them me (l, i, pt) m -> l ∈ kept (p_turn p) ->
  ((l, i) ∈ p_got p -> decryptPure C s m ek = Err EDuplicateMessage) /\
  ((next_of l (p_got p) + 2000 < i)%N -> decryptPure C s m ek = Err EInvalidMessage) /\
  ((l, i) ∉ p_got p -> (i <= next_of l (p_got p) + 2000)%N ->
   exists c' j, kept (p_turn p) !! j = Some l /\
     decryptPure C s m ek = Ok (pt, st_clearUnacknowledgedPreKeyMessage (st_putReceiverChain j c' s)) /\
     srel ks (st_clearUnacknowledgedPreKeyMessage (st_putReceiverChain j c' s))
       (Party (p_turn p) (p_sent p) ((l, i) :: p_got p) (p_alone p))).
Proof using Hok Hme Hthem Hgen Hnd.
  intros Hs Hm Hl. destruct (find_kept s p l Hs Hl) as (c & j & Hf & Hj & Hc).
  destruct (srel_version s p Hs) as [Hv Hsc].
  pose proof Hm as (_ & Hmv & Hrk & Hi & Hi32 & _).
  pose proof (chainStep_found s p l c j ek Hs Hf) as Hstep. rewrite <- Hrk in Hstep, Hf.
  rewrite (decryptPure_step C s m ek hkdf_v3 _ s c j Hsc) by (done || congruence).
  split_and!.
  - intros Hin. unfold openWith. rewrite Hi, (take_dup _ _ _ _ _ _ Hc Hin). done.
  - intros Hfar. unfold openWith. rewrite Hi, (take_far _ _ _ _ _ _ Hc Hfar). done.
  - intros Hnew Hfar. destruct (open_new s l i pt m c p _ Hs Hm Hc Hnew Hfar) as (c' & Ho & Hc').
    exists c', j. rewrite Ho, bind_ok. split_and!; [done|done|].
    destruct Hs as (H1 & H2 & H3 & H4 & H5 & H6 & H7 & H8). unfold srel.
    cbn [p_turn p_sent p_got p_alone]. split_and!; try done.
    + change (ss_receiverChains (st_clearUnacknowledgedPreKeyMessage (st_putReceiverChain j c' s))) with (<[j := c']> (ss_receiverChains s)).
      apply Forall2_same_length_lookup. split; [rewrite insert_length; by eapply Forall2_length|].
      intros j' l' x Hl' Hx. destruct (decide (j' = j)) as [->|Hne].
      * rewrite Hj in Hl'. injection Hl' as <-.
        rewrite list_lookup_insert in Hx by (rewrite <- (Forall2_length _ _ _ H7); by eapply lookup_lt_Some).
        by injection Hx as <-.
      * rewrite list_lookup_insert_ne in Hx by done.
        apply crel_other; [|exact (Forall2_lookup_lr _ _ _ _ _ _ H7 Hl' Hx)].
        intros ->. apply Hne. eapply NoDup_lookup; [apply kept_nodup|done|done].
    + intros l' i' [[= -> ->]|Hin]%elem_of_cons; [by apply kept_lt|by eapply H8].
Qed.

(** ** Receiving in a new chain *)

Lemma new_chain s p i pt m ek :
  ss_wf s -> genuine C ek ->
  srel ks s p -> mrel ks them me (S (p_turn p), i, pt) m -> length ks = S (S (p_turn p)) ->
  find_chain (wRatchetKey m) (ss_receiverChains s) 0 = Ok None /\
  ((2000 < i)%N -> decryptPure C s m ek = Err EInvalidMessage) /\
  ((i <= 2000)%N ->
   exists s', decryptPure C s m ek = Ok (pt, s') /\
     ss_pendingPreKey s' = None /\ ss_aliceBaseKey s' = ss_aliceBaseKey s /\
     srel (ks ++ [ek]) s' (Party (S (S (p_turn p))) 0 ((S (p_turn p), i) :: p_got p) (p_alone p))).
Proof using Hok Hme Hthem Hgen Hnd.
  intros Hwf Hek Hs Hm Hlen. set (n := p_turn p) in *.
  destruct (srel_version s p Hs) as [Hv Hsc].
  pose proof Hm as (Hl & Hmv & Hrk & Hi & Hi32 & _).
  assert (S n ∉ kept n) as Hnk by (intros ?%kept_lt; lia).
  pose proof (find_new s p (S n) Hs Hl Hnk) as Hno. rewrite <- Hrk in Hno.
  split; [done|].
  pose proof Hs as (H1 & H2 & H3 & H4 & H5 & (c & Hc1 & Hc2 & Hc3 & Hc4) & H7 & H8). fold n in H1, H5, Hc2, Hc3, Hc4, H7, H8.
  assert (genuine C (kth ks n)) as Gn by (apply kth_genuine; [done|lia]).
  assert (genuine C (kth ks (S n))) as Gn1 by (apply kth_genuine; [done|lia]).
  assert (st_getSenderRatchetKeyPair s = Ok (kth ks n)) as Hour.
  { unfold st_getSenderRatchetKeyPair, st_getSenderRatchetKey, st_senderChain. rewrite Hc1, default_Some, Hc2, Hc3, !default_Some.
    rewrite decodePoint_serialize by (rewrite kth_pub_len by lia; lia). rewrite bind_ok. by destruct (kth ks n). }
  assert (hkdf_createFor (st_getSessionVersion s) = Ok hkdf_v3) as Hkdf by (by rewrite Hv).
  set (x := (RootKey hkdf_v3 (level r0 c0 ks (S n)).1, ChainKey hkdf_v3 (level r0 c0 ks (S n)).2 0)).
  assert (rk_createChain C (RootKey hkdf_v3 (default [] (ss_rootKey s))) (wRatchetKey m) (kth ks n) = Ok x) as Hx.
  { rewrite H5, default_Some, Hrk. rewrite (createChain_eq C); [done|by apply kth_pub_len|by destruct Gn]. }
  set (y := (RootKey hkdf_v3 (level r0 c0 (ks ++ [ek]) (S (S n))).1, ChainKey hkdf_v3 (level r0 c0 (ks ++ [ek]) (S (S n))).2 0)).
  assert (rk_createChain C x.1 (wRatchetKey m) ek = Ok y) as Hy.
  { unfold x, y. cbn [fst]. rewrite Hrk. rewrite (createChain_eq C); [|by apply kth_pub_len|by destruct Hek].
    change (level r0 c0 (ks ++ [ek]) (S (S n))) with
      (rkdf C (level r0 c0 (ks ++ [ek]) (S n)).1 (agree C (kp_priv (kth (ks ++ [ek]) (S n))) (kp_pub (kth (ks ++ [ek]) (S (S n)))))).
    rewrite level_app, kth_app by lia. rewrite <- Hlen, kth_last.
    by rewrite (genuine_agree C Hok ek (kth ks (S n))). }
  pose proof (chainStep_new C s _ ek _ _ x y Hno Hkdf Hour Hx Hy Hwf) as Hstep.
  set (s1 := steppedState s (wRatchetKey m) x.2 y.1 ek y.2) in *.
  assert (forall j, (S n, j) ∉ p_got p) as Hng by (intros j ?%H8; lia).
  assert (next_of (S n) (p_got p) = 0%N) as Hnx by (by apply next_of_none).
  set (nc := newChain (wRatchetKey m) x.2) in *.
  assert (crel (kp_pub (kth ks (S n))) (level r0 c0 ks (S n)).2 (S n) (p_got p) nc) as Hnc.
  { unfold nc. rewrite Hrk. by apply crel_new. }
  assert (ss_receiverChains s1 = trim5 (ss_receiverChains s ++ [nc])) as Hch by done.
  set (jj := (length (trim5 (ss_receiverChains s ++ [nc])) - 1)%nat).
  assert (find_chain (wRatchetKey m) (ss_receiverChains s1) 0 = Ok (Some (nc, jj))) as Hf1.
  { rewrite Hch. apply find_trim; [done|]. apply newChain_pub. rewrite Hrk. by apply kth_pub_len. }
  assert (x.2 = ch_getChainKey hkdf_v3 nc) as Hck by done.
  rewrite (decryptPure_step C s m ek hkdf_v3 _ s1 nc jj Hsc) by (done || congruence).
  split.
  { intros Hfar. unfold openWith. rewrite Hi, (take_far _ _ _ _ _ _ Hnc); [done|lia]. }
  intros Hfar. destruct (open_new s (S n) i pt m nc p _ Hs Hm Hnc (Hng i)) as (c' & Ho & Hc'); [lia|].
  rewrite Ho, bind_ok. eexists. split; [done|]. split; [done|]. split; [done|].
  unfold srel. cbn [p_turn p_sent p_got p_alone].
  split_and!; try done.
  - rewrite app_length. cbn [length]. lia.
  - eexists. split; [done|]. cbn [ch_ratchetKey ch_ratchetKeyPrivate ch_chainKey ch_set_ratchetKey ch_set_ratchetKeyPrivate ch_set_chainKey].
    rewrite <- Hlen, kth_last. split_and!; try done. by rewrite Hlen.
  - rewrite kept_step.
    match goal with |- Forall2 _ _ ?t => change t with (<[jj := c']> (ss_receiverChains s1)) end.
    rewrite Hch.
    assert (<[jj := c']> (trim5 (ss_receiverChains s ++ [nc])) = trim5 (ss_receiverChains s ++ [c'])) as ->.
    { unfold jj, trim5. rewrite !app_length. cbn [length]. case_match eqn:E.
      - destruct (ss_receiverChains s) as [|z zs]; [done|]. cbn [app drop]. rewrite !drop_0. rewrite app_length. cbn [length].
        replace (length zs + 1 - 1)%nat with (length zs + 0)%nat by lia. by rewrite insert_app_r.
      - rewrite app_length. cbn [length]. replace (length (ss_receiverChains s) + 1 - 1)%nat with (length (ss_receiverChains s) + 0)%nat by lia.
        by rewrite insert_app_r. }
    apply trim5_Forall2, Forall2_app.
    + eapply Forall2_in; [exact H7|]. intros l c1 Hl1%kept_lt Hcr. rewrite kth_app, level_app by lia. apply crel_other; [lia|done].
    + constructor; [|constructor]. rewrite kth_app, level_app by lia. done.
  - intros l' i' [[= -> ->]|Hin%H8]%elem_of_cons; lia.
Qed.
End state.
End conv.
