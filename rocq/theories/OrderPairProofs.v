(** The order in which the messages of a session are delivered: C96. *)
From Verif Require Import PyBase Wire Protos ProtoFacts Crypto Ecc Kdf Messages State Prog Ratchet Builder Cipher Groups Helper.
From Verif Require Import ProgFacts StateFacts UtilFacts HelperFacts MsgFacts CipherFacts DecryptFacts SpecSession SessionProofs LockoutProofs SpecApi InvFacts.
From Verif Require Import HistoryProofs SpecKeys KeyProofs SpecOrderPair.

(** ** One chain *)

Definition without (n : N) (l : list mk_s) : list mk_s := filter (fun e => mk_idx e <> n) l.

Lemma without_id n l : Forall (fun e => mk_idx e <> n) l -> without n l = l.
Proof.
  unfold without. induction 1 as [|e l He _ IH]; [done|]. rewrite filter_cons_True by done. by rewrite IH.
Qed.
Lemma without_comm a b l : without a (without b l) = without b (without a l).
Proof.
  unfold without. rewrite !list_filter_filter. apply list_filter_iff. intros e. tauto.
Qed.
Lemma without_app n l l' : without n (l ++ l') = without n l ++ without n l'.
Proof. apply filter_app. Qed.
Lemma elem_without n l e : e ∈ without n l <-> mk_idx e <> n /\ e ∈ l.
Proof. unfold without. by rewrite elem_of_list_filter. Qed.

Section chains.
Context (C : crypto).

Definition key_no (ck : chainKey) (i : nat) : mk_s := mk_stored (ck_messageKeys C (Nat.iter i (ck_next C) ck)).
Definition how_many (c : ch_s) (n : N) : nat := N.to_nat (n + 1 - ch_idx c).
Definition up_to (kdf : N) (c : ch_s) (n : N) : list mk_s :=
  ch_messageKeys c ++ map (key_no (ch_getChainKey kdf c)) (seq 0 (how_many c n)).
Definition moved (kdf : N) (c : ch_s) (n : N) : ch_s :=
  ch_set_chainKey (if (n <? ch_idx c)%N then ch_chainKey c
                   else Some (CkS (Some (n + 1)%N) (Some (cKey (Nat.iter (how_many c n) (ck_next C) (ch_getChainKey kdf c))))))
    (ch_set_messageKeys (without n (up_to kdf c n)) c).
Definition within (c : ch_s) (n : N) : Prop := (n < ch_idx c \/ ch_idx c <= n <= ch_idx c + 2000 /\ n + 1 < 2 ^ 32)%N.

Lemma key_no_idx ck i : mk_idx (key_no ck i) = (cIndex ck + N.of_nat i)%N.
Proof. unfold key_no, mk_idx, mk_stored. cbn [mk_index]. by rewrite ck_messageKeys_counter, default_Some, ck_next_iter_index. Qed.
Lemma key_no_back ck i : mk_toMessageKeys (key_no ck i) = ck_messageKeys C (Nat.iter i (ck_next C) ck).
Proof. unfold key_no. by destruct (ck_messageKeys C _). Qed.
Lemma key_no_iter ck i k : key_no (Nat.iter k (ck_next C) ck) i = key_no ck (k + i).
Proof. unfold key_no. by rewrite <- Nat.iter_add, (Nat.add_comm i k). Qed.
Lemma idx_get kdf c : cIndex (ch_getChainKey kdf c) = ch_idx c.
Proof. done. Qed.

Lemma ck_moved kdf c n :
  ch_getChainKey kdf (moved kdf c n) = Nat.iter (how_many c n) (ck_next C) (ch_getChainKey kdf c).
Proof.
  unfold moved, how_many. destruct (N.ltb_spec n (ch_idx c)) as [L|L].
  - replace (N.to_nat (n + 1 - ch_idx c)) with 0 by lia. cbn [Nat.iter]. by destruct c.
  - rewrite ck_next_iter. unfold ch_getChainKey at 1. cbn [ch_chainKey ch_set_chainKey]. rewrite !default_Some.
    cbn [ck_key ck_index]. rewrite !default_Some. cbn [cKdf cKey cIndex ch_getChainKey]. f_equal. fold (ch_idx c). lia.
Qed.
Lemma idx_moved kdf c n : ch_idx (moved kdf c n) = (ch_idx c + N.of_nat (how_many c n))%N.
Proof. rewrite <- (idx_get kdf), ck_moved, ck_next_iter_index. done. Qed.

Lemma moved_ratchet kdf c n : ch_ratchetKey (moved kdf c n) = ch_ratchetKey c.
Proof. done. Qed.

Lemma take_nodup n l e r : NoDup (mk_idx <$> l) -> take_messageKey n l = Some (e, r) -> e ∈ l /\ mk_idx e = n /\ r = without n l.
Proof.
  intros Hd (l1 & l2 & -> & -> & Hi & Hf)%take_messageKey_some.
  assert (mk_idx e = n) as <- by (by apply hasIndex_iff).
  rewrite fmap_app, fmap_cons in Hd. apply NoDup_app in Hd as (_ & H1 & [H2 _]%NoDup_cons).
  split_and!; [apply elem_of_app; right; constructor|done|].
  rewrite without_app. unfold without at 2. rewrite filter_cons_False by auto. fold (without (mk_idx e) l2).
  rewrite !without_id; [done| |].
  - apply Forall_forall. intros x Hx E. apply H2. rewrite <- E. by apply elem_of_list_fmap_1.
  - apply Forall_forall. intros x Hx E. apply (H1 (mk_idx e)); [|constructor]. rewrite <- E. by apply elem_of_list_fmap_1.
Qed.
Lemma take_elem n l e : NoDup (mk_idx <$> l) -> e ∈ l -> mk_idx e = n -> take_messageKey n l = Some (e, without n l).
Proof.
  intros Hd He Hi. destruct (take_messageKey n l) as [[e' r]|] eqn:E.
  - apply take_nodup in E as (H1 & H2 & ->); [|done]. do 2 f_equal.
    apply elem_of_list_lookup in He as [i Hei], H1 as [j Hj].
    assert (i = j) as ->. { eapply NoDup_lookup; [exact Hd| |]; rewrite list_lookup_fmap; [by rewrite Hei|rewrite Hj; cbn; f_equal; congruence]. }
    congruence.
  - apply take_messageKey_none in E. rewrite Forall_forall in E. specialize (E e He). apply hasIndex_niff in E. done.
Qed.

Lemma how_many_0 c n : (n < ch_idx c)%N -> how_many c n = 0.
Proof. unfold how_many. lia. Qed.

Lemma take_moved kdf c n mk c' :
  chain_inv c -> chainTake C kdf c n = Ok (mk, c') ->
  within c n /\ c' = moved kdf c n /\ exists e, e ∈ up_to kdf c n /\ mk_idx e = n /\ mk = mk_toMessageKeys e.
Proof.
  intros [Hd Hb] H. unfold chainTake in H. rewrite idx_get in H.
  unfold within, moved, up_to. destruct (N.ltb_spec n (ch_idx c)) as [L|L].
  - destruct (take_messageKey n (ch_messageKeys c)) as [[m r]|] eqn:E; [|done]. injection H as <- <-.
    apply take_nodup in E as (H1 & H2 & ->); [|done]. rewrite how_many_0 by done. cbn [seq map]. rewrite app_nil_r.
    split_and!; [by left|by destruct c|]. by exists m.
  - destruct (N.ltb_spec 2000 (n - ch_idx c)) as [L2|L2]; [done|].
    destruct (N.ltb_spec (n + 1) (2 ^ 32)) as [L3|L3]; [|done]. injection H as <- <-.
    assert (how_many c n = S (N.to_nat (n - ch_idx c))) as -> by (unfold how_many; lia).
    split_and!; [right; lia| |].
    + f_equal. f_equal. rewrite seq_S, map_app, !without_app. cbn [map Nat.add].
      unfold without at 3. rewrite filter_cons_False.
      2: { rewrite key_no_idx, idx_get. lia. }
      rewrite filter_nil, app_nil_r. rewrite !without_id; [done| |].
      * apply Forall_map, Forall_forall. intros i [_ Hi]%elem_of_seq. rewrite key_no_idx, idx_get. lia.
      * eapply Forall_impl; [done|]. cbn. lia.
    + exists (key_no (ch_getChainKey kdf c) (N.to_nat (n - ch_idx c))). split_and!.
      * apply elem_of_app. right. apply elem_of_list_fmap. exists (N.to_nat (n - ch_idx c)). split; [done|]. apply elem_of_seq. lia.
      * rewrite key_no_idx, idx_get. lia.
      * by rewrite key_no_back.
Qed.

Lemma up_to_nodup kdf c n : chain_inv c -> NoDup (mk_idx <$> up_to kdf c n).
Proof.
  intros [Hd Hb]. unfold up_to. rewrite fmap_app. apply NoDup_app. split_and!; [done| |].
  - intros x (m & -> & Hm)%elem_of_list_fmap (e & Hi & (i & -> & _)%elem_of_list_fmap)%elem_of_list_fmap.
    rewrite Forall_forall in Hb. specialize (Hb m Hm). rewrite key_no_idx, idx_get in Hi. lia.
  - change (map ?f ?l) with (f <$> l). rewrite <- list_fmap_compose. apply NoDup_fmap_2; [|apply NoDup_seq].
    intros a b. unfold compose. rewrite !key_no_idx. lia.
Qed.

Lemma take_intro kdf c n e :
  chain_inv c -> within c n -> e ∈ up_to kdf c n -> mk_idx e = n ->
  chainTake C kdf c n = Ok (mk_toMessageKeys e, moved kdf c n).
Proof.
  intros Hc Hw He Hi. pose proof (up_to_nodup kdf c n Hc) as Hn.
  assert (exists x, chainTake C kdf c n = Ok x) as [[mk c'] Hx].
  { unfold chainTake. rewrite idx_get. destruct (N.ltb_spec n (ch_idx c)) as [L|L].
    - unfold up_to in He, Hn. rewrite how_many_0 in He, Hn by done. cbn [seq map] in He, Hn. rewrite app_nil_r in He, Hn.
      rewrite (take_elem n _ e) by done. eauto.
    - destruct Hw as [?|[? ?]]; [lia|]. rewrite (proj2 (N.ltb_ge _ _)) by lia. rewrite (proj2 (N.ltb_lt _ _)) by lia. eauto. }
  rewrite Hx. destruct (take_moved _ _ _ _ _ Hc Hx) as (_ & -> & e' & He' & Hi' & ->).
  do 3 f_equal. apply elem_of_list_lookup in He as [i Hei], He' as [j Hj].
  assert (i = j) as ->. { eapply NoDup_lookup; [exact Hn| |]; rewrite list_lookup_fmap; [by rewrite Hei|rewrite Hj; cbn; f_equal; congruence]. }
  congruence.
Qed.

(** Both numbers' keys taken, in the one order. *)
Lemma up_to_moved kdf c a b :
  up_to kdf (moved kdf c a) b = without a (ch_messageKeys c ++
    map (key_no (ch_getChainKey kdf c)) (seq 0 (how_many c a `max` how_many c b))).
Proof.
  unfold up_to at 1. rewrite ck_moved.
  assert (how_many (moved kdf c a) b = how_many c b - how_many c a) as ->.
  { unfold how_many at 1. rewrite idx_moved. unfold how_many. lia. }
  rewrite (map_ext _ (fun i => key_no (ch_getChainKey kdf c) (how_many c a + i))) by (intros; apply key_no_iter).
  replace (how_many c a `max` how_many c b) with (how_many c a + (how_many c b - how_many c a)) by lia.
  rewrite seq_app, map_app, app_assoc. rewrite (without_app a _ (map _ (seq (0 + _) _))). f_equal.
  cbn [Nat.add]. rewrite without_id.
  - generalize (how_many c a), (how_many c b - how_many c a). intros i k.
    replace (seq i k) with (seq (i + 0) k) by (by rewrite Nat.add_0_r). rewrite <- fmap_add_seq.
    change (?f <$> ?l) with (map f l). by rewrite map_map.
  - apply Forall_map, Forall_forall. intros i [Hi _]%elem_of_seq. rewrite key_no_idx, idx_get. unfold how_many in Hi. lia.
Qed.

Lemma moved_swap kdf c a b : moved kdf (moved kdf c a) b = moved kdf (moved kdf c b) a.
Proof.
  assert (forall a b, ch_messageKeys (moved kdf (moved kdf c a) b) = without b (up_to kdf (moved kdf c a) b)) as Hm by done.
  assert (forall a b, moved kdf (moved kdf c a) b = ch_set_chainKey (ch_chainKey (moved kdf (moved kdf c a) b))
     (ch_set_messageKeys (ch_messageKeys (moved kdf (moved kdf c a) b)) c)) as Hs by (by intros; destruct c).
  rewrite (Hs a b), (Hs b a). f_equal; [|f_equal].
  - assert (forall a b, ch_chainKey (moved kdf (moved kdf c a) b) =
      if ((a <? ch_idx c) && (b <? ch_idx c))%N then ch_chainKey c else
      Some (CkS (Some (N.max a b + 1)%N) (Some (cKey (Nat.iter (how_many c a `max` how_many c b) (ck_next C) (ch_getChainKey kdf c)))))) as Hk.
    { clear. intros a b. unfold moved at 1. cbn [ch_chainKey ch_set_chainKey].
      rewrite idx_moved, ck_moved.
      assert (how_many (moved kdf c a) b = how_many c b - how_many c a) as ->.
      { unfold how_many at 1. rewrite idx_moved. unfold how_many. lia. }
      rewrite <- Nat.iter_add.
      destruct (N.ltb_spec a (ch_idx c)) as [La|La].
      - rewrite (how_many_0 c a La), N.add_0_r. cbn [andb]. destruct (N.ltb_spec b (ch_idx c)) as [Lb|Lb].
        + unfold moved. cbn [ch_chainKey ch_set_chainKey]. by rewrite (proj2 (N.ltb_lt _ _)).
        + rewrite N.max_r by lia. do 5 f_equal. lia.
      - cbn [andb]. destruct (N.ltb_spec b (ch_idx c + N.of_nat (how_many c a))) as [Lb|Lb].
        + unfold moved. cbn [ch_chainKey ch_set_chainKey]. rewrite (proj2 (N.ltb_ge _ _)) by done.
          unfold how_many in *. rewrite N.max_l by lia. do 5 f_equal. lia.
        + unfold how_many in *. rewrite N.max_r by lia. do 5 f_equal. lia. }
    rewrite !Hk. by rewrite andb_comm, N.max_comm, Nat.max_comm.
  - rewrite !Hm, !up_to_moved, Nat.max_comm. apply without_comm.
Qed.

Lemma take_diamond kdf c a b ka ca kb cb :
  chain_inv c -> a <> b -> chainTake C kdf c a = Ok (ka, ca) -> chainTake C kdf c b = Ok (kb, cb) ->
  chainTake C kdf ca b = Ok (kb, moved kdf ca b).
Proof.
  intros Hc Hne Ha Hb. pose proof (proj1 (chainTake_inv _ _ _ _ _ _ Hc Ha)) as Hca.
  apply take_moved in Ha as (Hwa & -> & _); [|done].
  apply take_moved in Hb as (Hwb & -> & e & He & Hi & ->); [|done].
  apply take_intro; [done| | |done].
  - unfold within in *. rewrite idx_moved. lia.
  - rewrite up_to_moved. apply elem_without. split; [lia|].
    unfold up_to in He. apply elem_of_app in He as [He|He]; apply elem_of_app; [by left|right].
    apply elem_of_list_fmap in He as (i & -> & Hin%elem_of_seq). apply elem_of_list_fmap. exists i. split; [done|].
    apply elem_of_seq. lia.
Qed.
End chains.

(** ** One state *)

Section pure.
Context (C : crypto).

Definition reading (s : ss_s) (m : whisperMessage) (mk : messageKeys) : res bytes :=
  remoteId ← st_getRemoteIdentityKey s;
  localId ← st_getLocalIdentityKey s;
  _ ← whisper_verifyMac C m (wVersion m) remoteId localId (mMac mk);
  aes_decrypt C (mCipher mk) (mIv mk) (wBody m).

Lemma openWith_iff kdf c s m pt c' :
  openWith C kdf c s m = Ok (pt, c') <-> exists mk, chainTake C kdf c (wCounter m) = Ok (mk, c') /\ reading s m mk = Ok pt.
Proof.
  unfold openWith, reading. split.
  - intros ([mk c1] & H1 & (ri & H2 & (li & H3 & (u & H4 & (p & H5 & [= -> ->])%bind_ok_inv)%bind_ok_inv)%bind_ok_inv)%bind_ok_inv)%bind_ok_inv.
    cbn [fst snd] in *. exists mk. split; [done|]. by rewrite H2, bind_ok, H3, bind_ok, H4, bind_ok.
  - intros (mk & H1 & (ri & H2 & (li & H3 & (u & H4 & H5)%bind_ok_inv)%bind_ok_inv)%bind_ok_inv).
    rewrite H1, bind_ok, H2, bind_ok, H3, bind_ok. cbn [fst snd]. by rewrite H4, bind_ok, H5, bind_ok.
Qed.

Definition upd (j : nat) (c : ch_s) (s : ss_s) : ss_s := st_clearUnacknowledgedPreKeyMessage (st_putReceiverChain j c s).
Notation found R s c j := (find_chain R (ss_receiverChains s) 0 = Ok (Some (c, j))).

Lemma chainStep_known s R ek kdf c j :
  found R s c j -> hkdf_createFor (st_getSessionVersion s) = Ok kdf -> chainStep C s R ek = Ok (ch_getChainKey kdf c, s).
Proof.
  intros Hf Hk. unfold chainStep, st_hasReceiverChain, st_getReceiverChain. rewrite Hf, !bind_ok.
  unfold st_getReceiverChainKey. by rewrite (theReceiverChain_ok _ _ _ Hf), bind_ok, Hk, !bind_ok.
Qed.

Lemma pure_known s m ek pt s' c j :
  found (wRatchetKey m) s c j ->
  decryptPure C s m ek = Ok (pt, s') <->
  st_hasSenderChain s = true /\ wVersion m = st_getSessionVersion s /\
  exists kdf mk c', hkdf_createFor (st_getSessionVersion s) = Ok kdf /\ chainTake C kdf c (wCounter m) = Ok (mk, c') /\
    reading s m mk = Ok pt /\ s' = upd j c' s.
Proof.
  intros Hf. split.
  - intros (H1 & H2 & kdf & c0 & j0 & s1 & c' & Hk & Hs & Hf1 & Ho & ->)%decryptPure_ok_inv.
    rewrite (chainStep_known _ _ _ _ _ _ Hf Hk) in Hs. assert (s1 = s) as -> by congruence. clear Hs.
    rewrite Hf in Hf1. assert (c0 = c) as -> by congruence. assert (j0 = j) as -> by congruence. apply openWith_iff in Ho as (mk & Ht & Hr).
    split_and!; [done..|]. exists kdf, mk, c'. by split_and!.
  - intros (H1 & H2 & kdf & mk & c' & Hk & Ht & Hr & ->).
    rewrite (decryptPure_step _ _ _ _ kdf _ _ _ _ H1 H2 (chainStep_known _ _ ek _ _ _ Hf Hk) Hf eq_refl).
    by rewrite (proj2 (openWith_iff _ _ _ _ pt c')) by eauto.
Qed.

Lemma pure_known_ek s m ek ek' c j : found (wRatchetKey m) s c j -> decryptPure C s m ek = decryptPure C s m ek'.
Proof.
  intros Hf. unfold decryptPure. destruct (negb _); [done|]. destruct (negb _); [done|].
  assert (chainStep C s (wRatchetKey m) ek = chainStep C s (wRatchetKey m) ek') as ->; [|done].
  unfold chainStep, st_hasReceiverChain, st_getReceiverChain. by rewrite Hf, !bind_ok.
Qed.

(** Replacing a chain by one with the same ratchet key does not change which chain is found. *)
Lemma find_other key l i j c c0 c' :
  find_chain key l 0 = Ok (Some (c, j)) -> i <> j -> l !! i = Some c0 -> ch_ratchetKey c' = ch_ratchetKey c0 ->
  find_chain key (<[i := c']> l) 0 = Ok (Some (c, j)).
Proof.
  intros (l1 & l2 & -> & -> & Hc & Hl1)%find_chain_some Hne Hi Hk. cbn in Hne.
  destruct (decide (i < length l1)) as [L|L].
  - rewrite insert_app_l by done. rewrite <- (insert_length l1 i c'). apply (find_chain_app key _ c l2 0); [done|].
    apply Forall_insert; [done|]. rewrite lookup_app_l in Hi by done. rewrite Forall_lookup in Hl1.
    destruct (Hl1 _ _ Hi) as (k & Hp & Hn). exists k. split; [|done]. unfold chain_pub in *. by rewrite Hk.
  - replace i with (length l1 + S (i - length l1 - 1)) by lia. rewrite insert_app_r. cbn.
    by apply (find_chain_app key l1 c _ 0).
Qed.
Lemma find_missing key l i c0 c' :
  find_chain key l 0 = Ok None -> l !! i = Some c0 -> ch_ratchetKey c' = ch_ratchetKey c0 ->
  find_chain key (<[i := c']> l) 0 = Ok None.
Proof.
  rewrite !find_chain_none. intros H Hi Hk. apply Forall_insert; [done|]. rewrite Forall_lookup in H.
  destruct (H _ _ Hi) as (k & Hp & Hn). exists k. split; [|done]. unfold chain_pub in *. by rewrite Hk.
Qed.

Lemma upd_found s m c j c' R c0 i :
  found (wRatchetKey m) s c j -> ch_ratchetKey c' = ch_ratchetKey c -> found R s c0 i ->
  found R (upd j c' s) (if decide (i = j) then c' else c0) i.
Proof.
  intros Hf Hk Hi. destruct (decide (i = j)) as [->|Hne].
  - apply (find_chain_put R s c0 j c'); [done|]. apply find_chain_lookup in Hf, Hi. congruence.
  - apply (find_other R _ j i c0 c c'); [done|congruence|by eapply find_chain_lookup|done].
Qed.

Lemma diamond_known ek s a b pa pb sa sb ca ja cb jb :
  state_inv s -> (wRatchetKey a, wCounter a) <> (wRatchetKey b, wCounter b) ->
  found (wRatchetKey a) s ca ja -> found (wRatchetKey b) s cb jb ->
  decryptPure C s a ek = Ok (pa, sa) -> decryptPure C s b ek = Ok (pb, sb) ->
  exists s', decryptPure C sa b ek = Ok (pb, s') /\ decryptPure C sb a ek = Ok (pa, s').
Proof.
  intros (_ & Hch & _) Hne Hfa Hfb Ha Hb.
  pose proof (find_chain_lookup _ _ _ _ Hfa) as Hla. pose proof (find_chain_lookup _ _ _ _ Hfb) as Hlb.
  rewrite Forall_lookup in Hch. pose proof (Hch _ _ Hla) as Hia. pose proof (Hch _ _ Hlb) as Hib.
  apply (pure_known s a ek pa sa ca ja Hfa) in Ha as (H1 & Hva & kdf & ka & ca' & Hk & Hta & Hra & ->).
  apply (pure_known s b ek pb sb cb jb Hfb) in Hb as (_ & Hvb & kdf' & kb & cb' & Hk' & Htb & Hrb & ->).
  rewrite Hk in Hk'. injection Hk' as <-.
  pose proof (chainTake_inv C _ _ _ _ _ Hia Hta) as (_ & _ & _ & Hca).
  pose proof (chainTake_inv C _ _ _ _ _ Hib Htb) as (_ & _ & _ & Hcb).
  pose proof (upd_found s a ca ja ca' _ cb jb Hfa Hca Hfb) as Hfb'.
  pose proof (upd_found s b cb jb cb' _ ca ja Hfb Hcb Hfa) as Hfa'.
  destruct (decide (ja = jb)) as [<-|Hj].
  - rewrite decide_True in Hfb' by done. rewrite Hla in Hlb. injection Hlb as <-.
    assert (wRatchetKey a = wRatchetKey b) as Hr.
    { apply find_chain_some in Hfa as (? & ? & _ & _ & Hp & _), Hfb as (? & ? & _ & _ & Hp' & _). congruence. }
    assert (wCounter a <> wCounter b) as Hn by congruence.
    pose proof (take_diamond C kdf _ _ _ _ _ _ _ Hia Hn Hta Htb) as Hb'.
    pose proof (take_diamond C kdf _ _ _ _ _ _ _ Hia (not_eq_sym Hn) Htb Hta) as Ha'.
    apply take_moved in Hta as (_ & -> & _); [|done]. apply take_moved in Htb as (_ & -> & _); [|done].
    exists (upd ja (moved C kdf (moved C kdf ca (wCounter a)) (wCounter b)) s). split.
    + apply (pure_known _ _ _ _ _ _ _ Hfb'). split_and!; [done..|]. eexists kdf, kb, _. split_and!; [done|exact Hb'|done|].
      unfold upd, st_clearUnacknowledgedPreKeyMessage, st_putReceiverChain. cbn. by rewrite list_insert_insert.
    + apply (pure_known _ _ _ _ _ _ _ Hfa'). split_and!; [done..|]. eexists kdf, ka, _. split_and!; [done|exact Ha'|done|].
      rewrite moved_swap. unfold upd, st_clearUnacknowledgedPreKeyMessage, st_putReceiverChain. cbn. by rewrite list_insert_insert.
  - rewrite decide_False in Hfb' by congruence.
    exists (upd jb cb' (upd ja ca' s)). split.
    + apply (pure_known _ _ _ _ _ _ _ Hfb'). split_and!; [done..|]. eexists kdf, kb, _. by split_and!.
    + apply (pure_known _ _ _ _ _ _ _ Hfa'). split_and!; [done..|]. eexists kdf, ka, _. split_and!; [done..|].
      unfold upd, st_clearUnacknowledgedPreKeyMessage, st_putReceiverChain. cbn. by rewrite list_insert_commute.
Qed.

(** ** A new chain *)

Lemma stepped_same ek s ck s1 m :
  st_hasSenderChain s = true -> chainStep C s (wRatchetKey m) ek = Ok (ck, s1) -> decryptPure C s m ek = decryptPure C s1 m ek.
Proof.
  intros Hsc Hs. pose proof (chainStep_inv C _ _ _ _ _ Hs) as (kdf & c & j & Hk & Hf & Hck & Hor).
  assert (st_hasSenderChain s1 = true /\ st_getSessionVersion s1 = st_getSessionVersion s) as [H1 H2].
  { destruct Hor as [->|(_ & _ & our & x & y & _ & _ & _ & _ & ->)]; done. }
  rewrite <- H2 in Hk. pose proof (chainStep_known _ _ ek _ _ _ Hf Hk) as Hs1.
  unfold decryptPure. rewrite Hsc, H1, H2, Hs, Hs1, <- Hck. done.
Qed.

Section new.
Context (R : bytes) (ek : keypair) (s : ss_s) (ck : chainKey) (s1 : ss_s).
Context (Hno : find_chain R (ss_receiverChains s) 0 = Ok None) (Hroom : length (ss_receiverChains s) < 5).
Context (Hstep : chainStep C s R ek = Ok (ck, s1)) (Hsc : st_hasSenderChain s = true) (Hwf : ss_wf s).

Lemma new_chains : exists c, ss_receiverChains s1 = ss_receiverChains s ++ [c].
Proof using Hno Hroom Hstep.
  clear Hsc Hwf. apply chainStep_inv in Hstep as (kdf & c & j & _ & Hf & _ & [->|(_ & _ & our & x & y & _ & _ & _ & _ & ->)]).
  - congruence.
  - exists (newChain R x.2). unfold steppedState. cbn [ss_receiverChains ss_set_senderChain ss_set_previousCounter ss_set_receiverChains ss_set_rootKey].
    unfold trimChains. rewrite app_length. cbn [length]. by rewrite (proj2 (Nat.ltb_ge _ _)) by lia.
Qed.
Lemma new_found key c j : found key s c j -> found key s1 c j.
Proof using Hno Hroom Hstep.
  destruct new_chains as [x ->]. intros (l1 & l2 & -> & -> & Hc & Hl1)%find_chain_some.
  rewrite <- app_assoc. by apply (find_chain_app key l1 c _ 0).
Qed.
Lemma new_same : st_hasSenderChain s1 = true /\ st_getSessionVersion s1 = st_getSessionVersion s /\
  st_getRemoteIdentityKey s1 = st_getRemoteIdentityKey s /\ st_getLocalIdentityKey s1 = st_getLocalIdentityKey s.
Proof using Hsc Hstep.
  clear Hno Hroom Hwf. apply chainStep_inv in Hstep as (kdf & c & j & _ & _ & _ & [->|(_ & _ & our & x & y & _ & _ & _ & _ & ->)]); done.
Qed.
Lemma new_there : exists c j, found R s1 c j.
Proof using Hstep.
  clear Hno Hroom Hsc Hwf. apply chainStep_inv in Hstep as (kdf & c & j & _ & Hf & _). eauto.
Qed.

Lemma new_upd key c j c' :
  found key s c j -> ch_ratchetKey c' = ch_ratchetKey c -> ss_wf (upd j c' s) -> chainStep C (upd j c' s) R ek = Ok (ck, upd j c' s1).
Proof using Hno Hroom Hstep Hwf.
  intros Hf Hk Hwf'. clear Hsc. pose proof (find_chain_lookup _ _ _ _ Hf) as Hl.
  pose proof Hstep as Hstep'. clear Hstep.
  pose proof (chainStep_inv C _ _ _ _ _ Hstep') as (kdf & c0 & j0 & Hkdf & Hf' & Hck & [->|(_ & _ & our & x & y & Hour & Hx & Hy & -> & ->)]); [congruence|].
  assert (find_chain R (ss_receiverChains (upd j c' s)) 0 = Ok None) as Hno' by (by eapply find_missing).
  rewrite (chainStep_new C _ _ ek our kdf x y Hno' Hkdf Hour Hx Hy Hwf').
  assert (x.2 = ck) as Hxc.
  { pose proof (chainStep_new C _ _ ek our kdf x y Hno Hkdf Hour Hx Hy Hwf). congruence. }
  rewrite Hxc. do 2 f_equal. unfold steppedState, upd, st_clearUnacknowledgedPreKeyMessage, st_putReceiverChain, trimChains.
  cbn [ss_receiverChains ss_set_senderChain ss_set_previousCounter ss_set_receiverChains ss_set_rootKey ss_set_pendingPreKey].
  rewrite !app_length, insert_length. cbn [length]. rewrite !(proj2 (Nat.ltb_ge _ _)) by lia.
  rewrite insert_app_l by (by eapply lookup_lt_Some). done.
Qed.
End new.

Definition placedP (R : bytes) (s : ss_s) (m : whisperMessage) : Prop :=
  (exists c j, found (wRatchetKey m) s c j) \/
  wRatchetKey m = R /\ find_chain R (ss_receiverChains s) 0 = Ok None /\ length (ss_receiverChains s) < 5.
Lemma placed_iff R s m : placed R s m <-> placedP R s m.
Proof.
  unfold placed, placedP. rewrite no_receiving_iff. setoid_rewrite receiving_iff. done.
Qed.

Lemma pure_good s m ek pt s' : good s -> decryptPure C s m ek = Ok (pt, s') -> good s'.
Proof. intros [H1 H2] H. split; [by eapply decryptPure_wf|by eapply decryptPure_inv]. Qed.

Lemma diamond_new R ek s a b pa pb sa sb ca ja :
  good s -> (wRatchetKey a, wCounter a) <> (wRatchetKey b, wCounter b) ->
  found (wRatchetKey a) s ca ja ->
  wRatchetKey b = R -> find_chain R (ss_receiverChains s) 0 = Ok None -> length (ss_receiverChains s) < 5 ->
  decryptPure C s a ek = Ok (pa, sa) -> decryptPure C s b ek = Ok (pb, sb) ->
  exists s', decryptPure C sa b ek = Ok (pb, s') /\ decryptPure C sb a ek = Ok (pa, s').
Proof.
  intros Hg Hne Hfa <- Hno Hroom Ha Hb. pose proof (pure_good _ _ _ _ _ Hg Ha) as [Hwa _]. destruct Hg as [Hwf Hi].
  pose proof Hb as (Hsc & _ & kdf0 & c0 & j0 & s1 & c0' & _ & Hstep & _)%decryptPure_ok_inv.
  apply (pure_known s a ek pa sa ca ja Hfa) in Ha as (_ & Hva & kdf & ka & ca' & Hk & Hta & Hra & ->).
  pose proof Hi as (_ & Hch & _). rewrite Forall_lookup in Hch.
  pose proof (chainTake_inv C _ _ _ _ _ (Hch _ _ (find_chain_lookup _ _ _ _ Hfa)) Hta) as (_ & _ & _ & Hca).
  pose proof (new_same (wRatchetKey b) ek s _ s1 Hstep Hsc) as (E1 & E2 & E3 & E4).
  destruct (new_there (wRatchetKey b) ek s _ s1 Hstep) as (cb & jb & Hfb).
  pose proof (new_found (wRatchetKey b) ek s _ s1 Hno Hroom Hstep _ _ _ Hfa) as Hfa1.
  assert (decryptPure C s1 a ek = Ok (pa, upd ja ca' s1)) as Ha1.
  { apply (pure_known _ _ _ _ _ _ _ Hfa1). rewrite E2. split_and!; [done..|]. exists kdf, ka, ca'. split_and!; [done..| |done].
    unfold reading. by rewrite E3, E4. }
  rewrite (stepped_same _ _ _ _ _ Hsc Hstep) in Hb.
  destruct (diamond_known ek s1 a b pa pb _ sb ca ja cb jb (chainStep_state_inv C _ _ _ _ _ Hsc Hi Hstep) Hne Hfa1 Hfb Ha1 Hb) as (s' & H1 & H2).
  exists s'. split; [|done]. rewrite <- H1. eapply stepped_same; [done|].
  by apply (new_upd (wRatchetKey b) ek s _ s1 Hno Hroom Hstep Hwf (wRatchetKey a) ca).
Qed.

Lemma diamond R ek s a b pa pb sa sb :
  good s -> placedP R s a -> placedP R s b -> (wRatchetKey a, wCounter a) <> (wRatchetKey b, wCounter b) ->
  decryptPure C s a ek = Ok (pa, sa) -> decryptPure C s b ek = Ok (pb, sb) ->
  exists s', decryptPure C sa b ek = Ok (pb, s') /\ decryptPure C sb a ek = Ok (pa, s').
Proof.
  intros Hg [(ca & ja & Hfa)|(Ra & Na & La)] [(cb & jb & Hfb)|(Rb & Nb & Lb)] Hne Ha Hb.
  - eapply diamond_known; [apply Hg|exact Hne|exact Hfa|exact Hfb|exact Ha|exact Hb].
  - eapply diamond_new; [exact Hg|exact Hne|exact Hfa|exact Rb|exact Nb|exact Lb|exact Ha|exact Hb].
  - destruct (diamond_new R ek s b a pb pa sb sa cb jb) as (s' & H1 & H2); [done|congruence|done..|]. by exists s'.
  - pose proof Hb as (Hsc & _ & kdf0 & c0 & j0 & s1 & c0' & _ & Hstep & Hf & _)%decryptPure_ok_inv.
    rewrite (stepped_same _ _ _ _ _ Hsc Hstep) in Hb.
    rewrite Rb in Hstep, Hf. rewrite <- Ra in Hstep. rewrite (stepped_same _ _ _ _ _ Hsc Hstep) in Ha.
    eapply diamond_known; [|exact Hne| | |exact Ha|exact Hb].
    + eapply chainStep_state_inv; [exact Hsc|apply Hg|exact Hstep].
    + rewrite Ra. exact Hf.
    + rewrite Rb. exact Hf.
Qed.

(** What a step does to the places of the other messages. *)
Lemma step_found R ek s a pa sa key c j :
  good s -> placedP R s a -> decryptPure C s a ek = Ok (pa, sa) -> found key s c j -> exists c', found key sa c' j.
Proof.
  intros [Hwf Hi] Hp Ha Hk.
  assert (forall s ca ja, state_inv s -> found (wRatchetKey a) s ca ja -> decryptPure C s a ek = Ok (pa, sa) -> found key s c j -> exists c', found key sa c' j) as HK.
  { clear. intros s ca ja Hi Hfa Ha Hk. apply (pure_known s a ek pa sa ca ja Hfa) in Ha as (_ & Hva & kdf & ka & ca' & _ & Hta & Hra & ->).
    pose proof Hi as (_ & Hch & _). rewrite Forall_lookup in Hch.
    pose proof (chainTake_inv C _ _ _ _ _ (Hch _ _ (find_chain_lookup _ _ _ _ Hfa)) Hta) as (_ & _ & _ & Hca).
    eexists. eapply upd_found; [exact Hfa|exact Hca|exact Hk]. }
  destruct Hp as [(ca & ja & Hfa)|(<- & Na & La)]; [by eapply HK|].
  pose proof Ha as (Hsc & _ & kdf0 & c0 & j0 & s1 & c0' & _ & Hstep & Hf & _)%decryptPure_ok_inv.
  rewrite (stepped_same _ _ _ _ _ Hsc Hstep) in Ha.
  eapply HK; [|exact Hf|exact Ha|].
  - eapply chainStep_state_inv; [exact Hsc|exact Hi|exact Hstep].
  - eapply new_found; [exact Na|exact La|exact Hstep|exact Hk].
Qed.
Lemma step_there ek s a pa sa : good s -> decryptPure C s a ek = Ok (pa, sa) -> exists c j, found (wRatchetKey a) sa c j.
Proof.
  intros [_ Hi] (Hsc & _ & kdf0 & c0 & j0 & s1 & c0' & _ & Hstep & Hf & Ho & ->)%decryptPure_ok_inv.
  apply openWith_iff in Ho as (mk & Ht & _).
  assert (state_inv s1) as (_ & Hch & _). { eapply chainStep_state_inv; [exact Hsc|exact Hi|exact Hstep]. }
  rewrite Forall_lookup in Hch. pose proof (chainTake_inv C _ _ _ _ _ (Hch _ _ (find_chain_lookup _ _ _ _ Hf)) Ht) as (_ & _ & _ & Hca).
  exists c0', j0. by apply (find_chain_put _ s1 c0 j0 c0').
Qed.
Lemma step_missing R ek s a pa sa :
  good s -> (exists c j, found (wRatchetKey a) s c j) -> decryptPure C s a ek = Ok (pa, sa) ->
  find_chain R (ss_receiverChains s) 0 = Ok None ->
  find_chain R (ss_receiverChains sa) 0 = Ok None /\ length (ss_receiverChains sa) = length (ss_receiverChains s).
Proof.
  intros [_ Hi] (ca & ja & Hfa) Ha Hno. apply (pure_known s a ek pa sa ca ja Hfa) in Ha as (_ & Hva & kdf & ka & ca' & _ & Hta & Hra & ->).
  pose proof Hi as (_ & Hch & _). rewrite Forall_lookup in Hch.
  pose proof (chainTake_inv C _ _ _ _ _ (Hch _ _ (find_chain_lookup _ _ _ _ Hfa)) Hta) as (_ & _ & _ & Hca).
  split; [|apply insert_length]. eapply find_missing; [exact Hno|by eapply find_chain_lookup|exact Hca].
Qed.
Lemma step_placed R ek s a pa sa b :
  good s -> placedP R s a -> decryptPure C s a ek = Ok (pa, sa) -> placedP R s b -> placedP R sa b.
Proof.
  intros Hg Hpa Ha [(cb & jb & Hfb)|(Rb & Nb & Lb)].
  - left. destruct (step_found _ _ _ _ _ _ _ _ _ Hg Hpa Ha Hfb) as (c' & Hc). eauto.
  - destruct Hpa as [Hfa|(Ra & _)].
    + right. destruct (step_missing R ek s a pa sa Hg Hfa Ha Nb) as [H1 H2]. split_and!; [done..|lia].
    + left. rewrite Rb, <- Ra. by eapply step_there.
Qed.

(** ** Any order *)

Notation item := (whisperMessage * bytes)%type.
Fixpoint reads (ek : keypair) (s : ss_s) (l : list item) (s' : ss_s) : Prop :=
  match l with
  | [] => s' = s
  | x :: l => exists s1, decryptPure C s x.1 ek = Ok (x.2, s1) /\ reads ek s1 l s'
  end.
Definition open_in (R : bytes) (ek : keypair) (s : ss_s) (x : item) : Prop :=
  placedP R s x.1 /\ exists s', decryptPure C s x.1 ek = Ok (x.2, s').

Lemma open_next R ek s x s1 l :
  good s -> NoDup (place <$> x :: l) -> Forall (open_in R ek s) (x :: l) -> decryptPure C s x.1 ek = Ok (x.2, s1) ->
  Forall (open_in R ek s1) l.
Proof.
  intros Hg [Hn _]%NoDup_cons [[Hp _] Hl]%Forall_cons Hx. rewrite Forall_forall in Hl. apply Forall_forall. intros y Hy.
  destruct (Hl y Hy) as (Hpy & sy & Hsy). split; [exact (step_placed _ _ _ _ _ _ _ Hg Hp Hx Hpy)|].
  destruct (diamond R ek s x.1 y.1 x.2 y.2 s1 sy) as (s' & H1 & _); [done..| |done|done|by exists s'].
  intros E. apply Hn. apply elem_of_list_fmap. by exists y.
Qed.

Lemma reads_exist R ek l : forall s, good s -> NoDup (place <$> l) -> Forall (open_in R ek s) l -> exists s', reads ek s l s'.
Proof.
  induction l as [|x l IH]; intros s Hg Hn Hl; [by exists s|].
  pose proof Hl as [(_ & s1 & Hx) _]%Forall_cons. pose proof (open_next _ _ _ _ _ _ Hg Hn Hl Hx) as Hl1.
  pose proof Hn as [_ Hn1]%NoDup_cons. destruct (IH s1 (pure_good _ _ _ _ _ Hg Hx) Hn1 Hl1) as (s' & Hs').
  by exists s', s1.
Qed.

Lemma reads_perm R ek l l' : Permutation l l' -> forall s s', good s -> NoDup (place <$> l) -> Forall (open_in R ek s) l ->
  reads ek s l s' -> reads ek s l' s'.
Proof.
  induction 1 as [|x l l' Hp IH|x y l|l1 l2 l3 Hp1 IH1 Hp2 IH2]; intros s s' Hg Hn Hl Hr.
  - done.
  - destruct Hr as (s1 & Hx & Hr). exists s1. split; [done|]. apply IH; [by eapply pure_good| |by eapply open_next|done].
    by apply NoDup_cons in Hn as [_ ?].
  - destruct Hr as (s1 & Hy & s2 & Hx & Hr).
    pose proof Hl as [[Hpy _] [(Hpx & sx & Hsx) _]%Forall_cons]%Forall_cons.
    destruct (diamond R ek s y.1 x.1 y.2 x.2 s1 sx) as (s3 & H1 & H2); [done..| |done|done|].
    { intros E. apply NoDup_cons in Hn as [Hn _]. apply Hn. apply elem_of_cons. left. exact E. }
    assert (s3 = s2) as -> by congruence. exists sx. split; [done|]. by exists s2.
  - eapply IH2; [done| | |by eapply IH1].
    + by rewrite <- Hp1.
    + by rewrite <- Hp1.
Qed.
End pure.

(** ** The stores *)

Section worlds.
Context (C : crypto) (Hok : crypto_ok C).
Notation found R s c j := (find_chain R (ss_receiverChains s) 0 = Ok (Some (c, j))).

Definition knows (R : bytes) (s : ss_s) : bool :=
  match find_chain R (ss_receiverChains s) 0 with Ok (Some _) => true | _ => false end.

Lemma knows_iff R s : knows R s = true <-> exists c j, found R s c j.
Proof.
  unfold knows. destruct (find_chain R (ss_receiverChains s) 0) as [[[c j]|]|e]; split; try done; [by eauto|by intros (? & ? & ?)..].
Qed.
Lemma finds_same R l l' i : map ch_ratchetKey l = map ch_ratchetKey l' ->
  match find_chain R l i with Ok (Some _) => true | _ => false end = match find_chain R l' i with Ok (Some _) => true | _ => false end.
Proof.
  revert l' i. induction l as [|c l IH]; intros [|c' l'] i H; try done. injection H as H1 H2. cbn [find_chain]. rewrite H1.
  destruct (decodePoint (default [] (ch_ratchetKey c')) 0) as [k|e]; [|done]. rewrite !bind_ok. destruct (pub_eqb k R); [done|]. by apply IH.
Qed.
Lemma knows_known R ek s a pa sa :
  good s -> (exists c j, found (wRatchetKey a) s c j) -> decryptPure C s a ek = Ok (pa, sa) -> knows R sa = knows R s.
Proof.
  intros [_ Hi] (ca & ja & Hfa) Ha. apply (pure_known C s a ek pa sa ca ja Hfa) in Ha as (_ & Hva & kdf & ka & ca' & _ & Hta & Hra & ->).
  pose proof Hi as (_ & Hch & _). rewrite Forall_lookup in Hch. pose proof (find_chain_lookup _ _ _ _ Hfa) as Hl.
  pose proof (chainTake_inv C _ _ _ _ _ (Hch _ _ Hl) Hta) as (_ & _ & _ & Hca).
  unfold knows. apply finds_same. change (ss_receiverChains (upd ja ca' s)) with (<[ja := ca']> (ss_receiverChains s)).
  change (map ?f ?l) with (f <$> l). rewrite list_fmap_insert. apply list_insert_id. by rewrite list_lookup_fmap, Hl, Hca.
Qed.
Lemma knows_step R ek s a pa sa :
  good s -> placedP R s a -> decryptPure C s a ek = Ok (pa, sa) -> knows R s = true -> knows R sa = true.
Proof.
  intros Hg Hp Ha (c & j & Hc)%knows_iff. destruct (step_found _ _ _ _ _ _ _ _ _ _ Hg Hp Ha Hc) as (c' & Hc'). apply knows_iff. eauto.
Qed.
Lemma knows_reads R ek l : forall s s', good s -> NoDup (place <$> l) -> Forall (open_in C R ek s) l -> reads C ek s l s' ->
  knows R s = true -> knows R s' = true.
Proof.
  induction l as [|x l IH]; intros s s' Hg Hn Hl Hr Hk; [by cbn in Hr; subst|].
  destruct Hr as (s1 & Hx & Hr). pose proof Hl as [[Hp _] _]%Forall_cons. pose proof Hn as [_ Hn1]%NoDup_cons.
  eapply (IH s1 s'); [by eapply pure_good|done|by eapply open_next|done|by eapply knows_step].
Qed.

Lemma run_state_placed R s m w pt s' :
  placedP R s m -> decryptPure C s m (kp_at C w (w_pos w)) = Ok (pt, s') ->
  run (decryptWithSessionState C s m) w =
    (Ok (pt, s'), if knows (wRatchetKey m) s then w else w_set_pos (S (w_pos w)) w).
Proof using Hok.
  intros Hp H. unfold decryptPure in H. unfold decryptWithSessionState, knows.
  destruct (negb (st_hasSenderChain s)); [done|]. destruct (negb _); [done|]. rewrite run_bind.
  apply bind_ok_inv in H as (x & Hx & H). revert Hx. unfold getOrCreateChainKey, chainStep.
  unfold st_hasReceiverChain, st_getReceiverChain.
  destruct Hp as [(c & j & Hf)|(Hr & Hf & _)].
  - rewrite run_bind, run_lift, Hf, !bind_ok, run_bind, run_lift.
    intros (k & Hk & [= <-])%bind_ok_inv. rewrite Hk. cbn [run]. by rewrite run_lift, H.
  - rewrite <- Hr in Hf. rewrite run_bind, run_lift, Hf, !bind_ok, run_bind, run_lift.
    intros (y & Hy & Hx)%bind_ok_inv. rewrite Hy. rewrite run_bind, (run_generateKeyPair C Hok), run_lift.
    rewrite Hx. by rewrite run_lift, H.
Qed.

Lemma run_msg_placed R r d m w pt s' rec :
  is_Some (w_sessions w !! (r, d)) -> session_at w r d = Ok rec ->
  placedP R (sr_state rec) m -> decryptPure C (sr_state rec) m (kp_at C w (w_pos w)) = Ok (pt, s') ->
  run (decryptMsg C r d m) w = (Ok pt,
    let w1 := if knows (wRatchetKey m) (sr_state rec) then w else w_set_pos (S (w_pos w)) w in
    w_set_sessions (<[(r, d) := sr_serialize (sr_setState s' rec)]> (w_sessions w)) w1).
Proof using Hok.
  intros Hs Hrec Hp H. unfold decryptMsg. rewrite run_bind, run_do. cbn [step_call]. rewrite bool_decide_eq_true_2 by done.
  rewrite run_bind, run_do, load_session, Hrec, run_bind. unfold decryptWithSessionRecord.
  rewrite run_catch, run_bind, (run_state_placed R _ _ _ _ _ Hp H). cbn [run fst snd].
  rewrite run_bind, run_do. cbn [step_call fst snd run]. by destruct (knows _ _).
Qed.

(** The world in which a sequence of messages ends. *)
Definition ended (R : bytes) (r d : Z) (w : world) (s s' : ss_s) (rec : sessionRecord) : world :=
  w_set_sessions (<[(r, d) := sr_serialize (sr_setState s' rec)]> (w_sessions w))
    (w_set_pos (if knows R s then w_pos w else if knows R s' then S (w_pos w) else w_pos w) w).

Lemma all_read_reads R r d ek l : l <> [] -> forall w rec s',
  is_Some (w_sessions w !! (r, d)) -> session_at w r d = Ok rec -> record_inv rec ->
  (knows R (sr_state rec) = false -> ek = kp_at C w (w_pos w)) ->
  NoDup (place <$> l) -> Forall (open_in C R ek (sr_state rec)) l -> reads C ek (sr_state rec) l s' ->
  all_read C r d l w (ended R r d w (sr_state rec) s' rec).
Proof using Hok.
  induction l as [|x l IH]; [done|]. intros _ w rec s' Hs Hrec Hi Hek Hn Hl (s1 & Hx & Hr).
  assert (good (sr_state rec)) as Hg.
  { pose proof Hi as ([Hw _] & _ & [H _]%Forall_cons). by split. }
  pose proof Hl as [[Hp _] _]%Forall_cons.
  assert (decryptPure C (sr_state rec) x.1 (kp_at C w (w_pos w)) = Ok (x.2, s1)) as Hx'.
  { destruct Hp as [(c & j & Hf)|(Ha & Hf & _)].
    - rewrite <- Hx. by eapply pure_known_ek.
    - rewrite <- Hek; [done|]. unfold knows. by rewrite Hf. }
  assert (record_inv (sr_setState s1 rec)) as Hi1.
  { apply (decrypted_inv C rec x.1 x.2); [done|]. by exists 0, (sr_state rec), ek, s1. }
  assert (run (decryptMsg C r d x.1) w = (Ok x.2, ended R r d w (sr_state rec) s1 rec)) as Hrun.
  { rewrite (run_msg_placed R _ _ _ _ _ _ _ Hs Hrec Hp Hx'). cbn zeta. f_equal. unfold ended. f_equal.
    destruct Hp as [(c & j & Hf)|(Ha & Hf & _)].
    - assert (knows (wRatchetKey x.1) (sr_state rec) = true) as -> by (unfold knows; by rewrite Hf).
      destruct (knows R (sr_state rec)) eqn:E; [by destruct w|].
      assert (knows R s1 = false) as ->; [|by destruct w].
      rewrite <- E. eapply knows_known; [exact Hg|by eauto|exact Hx].
    - rewrite Ha. assert (knows R (sr_state rec) = false) as -> by (unfold knows; by rewrite Hf).
      destruct (step_there C ek _ _ _ _ Hg Hx) as (c & j & Hc). rewrite Ha in Hc.
      assert (knows R s1 = true) as -> by (unfold knows; by rewrite Hc). done. }
  exists (ended R r d w (sr_state rec) s1 rec). split; [done|].
  destruct l as [|y l]; [by cbn in Hr; subst|].
  assert (NoDup (place <$> y :: l)) as Hn1 by (by apply NoDup_cons in Hn as [_ ?]).
  assert (knows R (sr_state rec) = true -> knows R s1 = true) as M1 by (by eapply knows_step).
  assert (knows R s1 = true -> knows R s' = true) as M2.
  { apply (knows_reads R ek (y :: l)); [by eapply pure_good|exact Hn1|by eapply open_next|exact Hr]. }
  set (rec1 := SessionRecord false s1 (sr_previous rec)).
  assert (session_at (ended R r d w (sr_state rec) s1 rec) r d = Ok rec1) as Hrec1.
  { unfold session_at, ended. cbn [w_set_sessions w_sessions]. rewrite lookup_insert. rewrite StateFacts.sr_roundtrip; [done|]. apply Hi1. }
  specialize (IH ltac:(done) (ended R r d w (sr_state rec) s1 rec) rec1 s').
  replace (ended R r d w (sr_state rec) s' rec) with (ended R r d (ended R r d w (sr_state rec) s1 rec) (sr_state rec1) s' rec1).
  - apply IH; [|done|done| |done| |done].
    + unfold ended. cbn [w_set_sessions w_sessions]. rewrite lookup_insert. eauto.
    + cbn [sr_state rec1]. intros E. assert (knows R (sr_state rec) = false) as E0.
      { destruct (knows R (sr_state rec)); [|done]. by rewrite M1 in E. }
      rewrite Hek by done. unfold ended. by rewrite E0, E.
    + cbn [sr_state rec1]. by eapply open_next.
  - unfold ended. cbn. rewrite insert_insert.
    destruct (knows R (sr_state rec)), (knows R s1), (knows R s'); try done; by (specialize (M1 eq_refl) || specialize (M2 eq_refl)).
Qed.

Lemma pair_order w r d rec R l :
  reachable C w -> session_at w r d = Ok rec ->
  Forall (fun x => placed R (sr_state rec) x.1 /\ answers C (sr_state rec) x.1 (Ok x.2)) l -> NoDup (map place l) ->
  exists w', forall l', Permutation l l' -> all_read C r d l' w w'.
Proof using Hok.
  intros Hw%(reachable_inv C) Hrec Hl Hn. destruct (decide (l = [])) as [->|Hne].
  { exists w. intros l' ->%Permutation_nil. done. }
  pose proof (proj1 (Hw _ _ _ Hrec)) as Hi.
  assert (good (sr_state rec)) as Hg. { pose proof Hi as ([Hwf _] & _ & [H _]%Forall_cons). by split. }
  set (ek := kp_at C w (w_pos w)). assert (kp_ok ek) as Hek by (by apply kp_at_ok).
  assert (Forall (open_in C R ek (sr_state rec)) l) as Ho.
  { eapply Forall_impl; [exact Hl|]. intros x [Hp Ha]. split; [by apply placed_iff|].
    apply (verdict_ok C _ _ _ _ Hek). specialize (Ha w). pose proof (answers_verdict C Hok (sr_state rec) x.1 w) as Hv. congruence. }
  destruct (reads_exist C R ek l (sr_state rec) Hg Hn Ho) as (s' & Hs').
  exists (ended R r d w (sr_state rec) s' rec). intros l' Hp. apply all_read_reads with ek; try done.
  - intros ->. apply Hne. by apply Permutation_nil.
  - destruct (w_sessions w !! (r, d)) eqn:E; [by eauto|]. unfold session_at in Hrec. rewrite E in Hrec. injection Hrec as <-.
    destruct l as [|x l]; [done|]. apply Forall_cons in Ho as [(_ & s1 & Hx) _]. done.
  - change (map ?f ?x) with (f <$> x) in Hn. by rewrite <- Hp.
  - by rewrite <- Hp.
  - by eapply reads_perm.
Qed.
End worlds.
