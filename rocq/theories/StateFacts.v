(** Facts about session states and records. *)
From Verif Require Import PyBase Wire Protos ProtoFacts Crypto Ecc Kdf Messages State.

(** ** Setters with range checks *)

Lemma set_u32_ok n : (n < 2 ^ 32)%N -> set_u32 n = Ok n.
Proof. intros H. unfold set_u32. by rewrite (proj2 (N.ltb_lt _ _)). Qed.
Lemma set_u32_inv n v : set_u32 n = Ok v -> v = n /\ (n < 2 ^ 32)%N.
Proof. unfold set_u32. destruct (n <? 2 ^ 32)%N eqn:E; [|done]. intros [= <-]. by apply N.ltb_lt in E. Qed.
Lemma set_u32_err n e : set_u32 n = Err e -> e = EValueError /\ (2 ^ 32 <= n)%N.
Proof. unfold set_u32. destruct (n <? 2 ^ 32)%N eqn:E; [done|]. intros [= <-]. by apply N.ltb_ge in E. Qed.

(** ** Records survive the store *)

Definition rec_wf (r : sessionRecord) : Prop := ss_wf (sr_state r) /\ Forall ss_wf (sr_previous r).

Lemma sr_serialize_nonnil r : sr_serialize r <> [].
Proof.
  unfold sr_serialize, rs_enc, rs_fields. intros H.
  apply enc_fields_nil_inv in H. by destruct r.
Qed.

(** What comes back after a store and a load is the same record, no longer fresh. *)
Lemma sr_roundtrip r :
  rec_wf r -> sr_deserialize (sr_serialize r) = Ok (SessionRecord false (sr_state r) (sr_previous r)).
Proof.
  intros [H1 H2]. unfold sr_deserialize.
  destruct (sr_serialize r) as [|b l] eqn:E; [by apply sr_serialize_nonnil in E|].
  rewrite <- E. unfold sr_serialize. rewrite rs_roundtrip by done. done.
Qed.

Lemma sr_deserialize_wf bs r : sr_deserialize bs = Ok r -> rec_wf r.
Proof.
  unfold sr_deserialize. destruct bs as [|b bs].
  - intros [= <-]. split; [|constructor]. exact ss_empty_wf.
  - intros (x & Hx & [= <-])%bind_ok_inv. apply rs_parse_wf in Hx as [H1 H2].
    split; cbn [sr_state sr_previous]; [|done]. destruct (rs_currentSession x); [exact H1|exact ss_empty_wf].
Qed.

Lemma sr_deserialize_err bs e : sr_deserialize bs = Err e -> e = EDecodeError.
Proof.
  unfold sr_deserialize. destruct bs; [done|].
  intros [H|(x & _ & [=])]%bind_err_inv. by eapply rs_parse_err.
Qed.

(** A loaded record is fresh exactly when nothing was stored. *)
Lemma sr_deserialize_fresh bs r : sr_deserialize bs = Ok r -> sr_fresh r = bool_decide (bs = []).
Proof.
  unfold sr_deserialize. destruct bs; [by intros [= <-]|].
  intros (x & Hx & [= <-])%bind_ok_inv. done.
Qed.

(** ** Receiver chain lookup *)

(** The ratchet key of a stored chain. *)
Definition chain_pub (c : ch_s) : res bytes := decodePoint (default [] (ch_ratchetKey c)) 0.

Lemma find_chain_some key l i c j :
  find_chain key l i = Ok (Some (c, j)) ->
  exists l1 l2, l = l1 ++ c :: l2 /\ j = (i + length l1)%nat /\ chain_pub c = Ok key /\
    Forall (fun x => exists k, chain_pub x = Ok k /\ k <> key) l1.
Proof.
  revert i. induction l as [|x l IH]; intros i; cbn [find_chain]; [done|].
  intros (k & Hk & H)%bind_ok_inv. unfold pub_eqb in H.
  destruct (bool_decide_reflect (k = key)) as [->|Hne].
  - injection H as <- <-. exists [], l. cbn [length app]. split_and!; [done|lia|done|constructor].
  - apply IH in H as (l1 & l2 & -> & -> & Hc & Hl1).
    exists (x :: l1), l2. cbn [length app]. split_and!; [done|lia|done|]. constructor; eauto.
Qed.

Lemma find_chain_app key l1 c l2 i :
  chain_pub c = Ok key -> Forall (fun x => exists k, chain_pub x = Ok k /\ k <> key) l1 ->
  find_chain key (l1 ++ c :: l2) i = Ok (Some (c, (i + length l1)%nat)).
Proof.
  intros Hc Hl1. revert i. induction Hl1 as [|x l1 (k & Hk & Hne) Hl1 IH]; intros i; cbn [find_chain app length].
  - unfold chain_pub in Hc. rewrite Hc. rewrite bind_ok. unfold pub_eqb.
    rewrite bool_decide_eq_true_2 by done. by rewrite Nat.add_0_r.
  - unfold chain_pub in Hk. rewrite Hk, bind_ok. unfold pub_eqb.
    rewrite bool_decide_eq_false_2 by done. rewrite IH. do 3 f_equal. lia.
Qed.

Lemma find_chain_none key l i :
  find_chain key l i = Ok None <-> Forall (fun x => exists k, chain_pub x = Ok k /\ k <> key) l.
Proof.
  split.
  - revert i. induction l as [|x l IH]; intros i; cbn [find_chain]; [by constructor|].
    intros (k & Hk & H)%bind_ok_inv. unfold pub_eqb in H.
    destruct (bool_decide_reflect (k = key)) as [->|Hne]; [done|]. constructor; eauto.
  - intros Hl. revert i. induction Hl as [|x l (k & Hk & Hne) Hl IH]; intros i; cbn [find_chain]; [done|].
    unfold chain_pub in Hk. rewrite Hk, bind_ok. unfold pub_eqb.
    by rewrite bool_decide_eq_false_2.
Qed.

Lemma find_chain_err key l i e : find_chain key l i = Err e -> e = EIndexError \/ e = EInvalidKey.
Proof.
  revert i. induction l as [|x l IH]; intros i; cbn [find_chain]; [done|].
  intros [H|(k & Hk & H)]%bind_err_inv; [by eapply decodePoint_err|].
  destruct (pub_eqb k key); [done|]. eauto.
Qed.

(** Replacing the found chain by one with the same ratchet key. *)
Lemma find_chain_insert key l c j c' :
  find_chain key l 0 = Ok (Some (c, j)) -> ch_ratchetKey c' = ch_ratchetKey c ->
  find_chain key (<[j := c']> l) 0 = Ok (Some (c', j)).
Proof.
  intros (l1 & l2 & -> & -> & Hc & Hl1)%find_chain_some Hk. cbn.
  replace (length l1) with (length l1 + 0)%nat at 1 by lia. rewrite insert_app_r. cbn.
  apply (find_chain_app key l1 c' l2 0); [|done]. unfold chain_pub in *. by rewrite Hk.
Qed.

Lemma find_chain_lookup key l c j : find_chain key l 0 = Ok (Some (c, j)) -> l !! j = Some c.
Proof. intros (l1 & l2 & -> & -> & _)%find_chain_some. by rewrite list_lookup_middle. Qed.

(** ** Well-formedness is preserved *)

Lemma ch_putChainKey_inv c x y :
  ch_putChainKey c x = Ok y ->
  y = ch_set_chainKey (Some (CkS (Some (cIndex c)) (Some (cKey c)))) x /\ (cIndex c < 2 ^ 32)%N.
Proof. intros (i & (-> & Hi)%set_u32_inv & [= <-])%bind_ok_inv. done. Qed.

Lemma ch_putChainKey_wf c x y : ch_wf x -> ch_putChainKey c x = Ok y -> ch_wf y.
Proof. intros [H1 H2] [-> Hi]%ch_putChainKey_inv. split; cbn; [done|done]. Qed.

Lemma st_addReceiverChain_wf k c s s' : ss_wf s -> st_addReceiverChain k c s = Ok s' -> ss_wf s'.
Proof.
  unfold ss_wf. intros Hwf (x & Hx & [= <-])%bind_ok_inv. destruct_and? Hwf.
  apply ch_putChainKey_wf in Hx; [|by repeat constructor].
  assert (Forall ch_wf (ss_receiverChains s ++ [x])) as Hl by (apply Forall_app; auto).
  cbn -[drop]. split_and!; try done. case_match; [|done]. by apply Forall_drop.
Qed.

Lemma st_setSenderChain_wf kp c s s' : ss_wf s -> st_setSenderChain kp c s = Ok s' -> ss_wf s'.
Proof.
  unfold ss_wf. intros Hwf (x & Hx & [= <-])%bind_ok_inv. destruct_and? Hwf.
  assert (ch_wf (st_senderChain s)) as Hs by (unfold st_senderChain; destruct (ss_senderChain s); [done|exact ch_empty_wf]).
  apply ch_putChainKey_wf in Hx; [|done]. by split_and!.
Qed.

Lemma st_setSenderChainKey_wf c s s' : ss_wf s -> st_setSenderChainKey c s = Ok s' -> ss_wf s'.
Proof.
  unfold ss_wf. intros Hwf (x & Hx & [= <-])%bind_ok_inv. destruct_and? Hwf.
  assert (ch_wf (st_senderChain s)) as Hs by (unfold st_senderChain; destruct (ss_senderChain s); [done|exact ch_empty_wf]).
  apply ch_putChainKey_wf in Hx; [|done]. by split_and!.
Qed.

Lemma st_setPreviousCounter_wf n s s' : ss_wf s -> st_setPreviousCounter n s = Ok s' -> ss_wf s'.
Proof.
  unfold ss_wf. intros Hwf (x & (-> & Hx)%set_u32_inv & [= <-])%bind_ok_inv. destruct_and? Hwf.
  by split_and!.
Qed.

Lemma st_setRootKey_wf r s : ss_wf s -> ss_wf (st_setRootKey r s).
Proof. done. Qed.
Lemma st_clear_wf s : ss_wf s -> ss_wf (st_clearUnacknowledgedPreKeyMessage s).
Proof. unfold ss_wf. intros Hwf. destruct_and? Hwf. by split_and!. Qed.
Lemma st_setAliceBaseKey_wf k s : ss_wf s -> ss_wf (st_setAliceBaseKey k s).
Proof. done. Qed.
Lemma st_setIdentities_wf a b s : ss_wf s -> ss_wf (st_setLocalIdentityKey a (st_setRemoteIdentityKey b s)).
Proof. done. Qed.
Lemma st_setSessionVersion_wf v s : (v < 2 ^ 32)%N -> ss_wf s -> ss_wf (st_setSessionVersion v s).
Proof. unfold ss_wf. intros Hv Hwf. destruct_and? Hwf. by split_and!. Qed.

Lemma st_setLocalRegistrationId_wf n s s' : ss_wf s -> st_setLocalRegistrationId n s = Ok s' -> ss_wf s'.
Proof.
  unfold ss_wf. intros Hwf (x & (-> & Hx)%set_u32_inv & [= <-])%bind_ok_inv. destruct_and? Hwf. by split_and!.
Qed.
Lemma st_setRemoteRegistrationId_wf n s s' : ss_wf s -> st_setRemoteRegistrationId n s = Ok s' -> ss_wf s'.
Proof.
  unfold ss_wf. intros Hwf (x & (-> & Hx)%set_u32_inv & [= <-])%bind_ok_inv. destruct_and? Hwf. by split_and!.
Qed.

Lemma set_i32_inv n z : set_i32 n = Ok z -> z = Z.of_N n /\ (n < 2 ^ 31)%N.
Proof. unfold set_i32. destruct (n <? 2 ^ 31)%N eqn:E; [|done]. intros [= <-]. by apply N.ltb_lt in E. Qed.

Lemma st_setUnacknowledgedPreKeyMessage_wf p i b s s' :
  ss_wf s -> st_setUnacknowledgedPreKeyMessage p i b s = Ok s' -> ss_wf s'.
Proof.
  unfold st_setUnacknowledgedPreKeyMessage. unfold ss_wf at 1.
  intros Hwf (z & (-> & Hz)%set_i32_inv & (q & Hq & [= <-])%bind_ok_inv)%bind_ok_inv.
  destruct_and? Hwf.
  assert (pp_wf (default pp_empty (ss_pendingPreKey s))) as [Hp1 Hp2].
  { destruct (ss_pendingPreKey s); [done|]. by split. }
  assert (pp_wf q) as Hqwf.
  { destruct p as [j|].
    - apply bind_ok_inv in Hq as (j' & (-> & Hj)%set_u32_inv & [= <-]). split; cbn; [done|]. lia.
    - injection Hq as <-. split; cbn; [done|]. lia. }
  unfold ss_wf. by split_and!.
Qed.

Lemma st_setPendingKeyExchange_wf q a b c s s' :
  ss_wf s -> st_setPendingKeyExchange q a b c s = Ok s' -> ss_wf s'.
Proof.
  unfold ss_wf. intros Hwf (x & (-> & Hx)%set_u32_inv & [= <-])%bind_ok_inv. destruct_and? Hwf. by split_and!.
Qed.

Lemma st_putReceiverChain_wf i c s : ss_wf s -> ch_wf c -> ss_wf (st_putReceiverChain i c s).
Proof. unfold ss_wf. intros Hwf Hc. destruct_and? Hwf. split_and!; try done. cbn. by apply Forall_insert. Qed.

Lemma st_theReceiverChain_inv k s x :
  st_theReceiverChain k s = Ok x -> find_chain k (ss_receiverChains s) 0 = Ok (Some x).
Proof. intros (o & Ho & H)%bind_ok_inv. destruct o; [|done]. injection H as ->. done. Qed.

Lemma st_theReceiverChain_wf k s x : ss_wf s -> st_theReceiverChain k s = Ok x -> ch_wf x.1.
Proof.
  unfold ss_wf. intros Hwf Hx%st_theReceiverChain_inv. destruct_and? Hwf. destruct x as [c j].
  apply find_chain_lookup in Hx. by eapply Forall_lookup_1.
Qed.

Lemma st_setMessageKeys_wf k m s s' : ss_wf s -> st_setMessageKeys k m s = Ok s' -> ss_wf s'.
Proof.
  intros Hwf (x & Hx & (i & (-> & Hi)%set_u32_inv & [= <-])%bind_ok_inv)%bind_ok_inv.
  apply st_putReceiverChain_wf; [done|].
  apply st_theReceiverChain_wf in Hx as [H1 H2]; [|done]. split; cbn; [done|].
  apply Forall_app. split; [done|]. constructor; [|done]. done.
Qed.

Lemma st_setReceiverChainKey_wf k c s s' : ss_wf s -> st_setReceiverChainKey k c s = Ok s' -> ss_wf s'.
Proof.
  intros Hwf (x & Hx & (y & Hy & [= <-])%bind_ok_inv)%bind_ok_inv.
  apply st_putReceiverChain_wf; [done|].
  apply st_theReceiverChain_wf in Hx; [|done]. by eapply ch_putChainKey_wf.
Qed.

Lemma take_messageKey_some n l m r :
  take_messageKey n l = Some (m, r) ->
  exists l1 l2, l = l1 ++ m :: l2 /\ r = l1 ++ l2 /\ mk_hasIndex n m = true /\
    Forall (fun x => mk_hasIndex n x = false) l1.
Proof.
  revert m r. induction l as [|x l IH]; intros m r; cbn [take_messageKey]; [done|].
  destruct (mk_hasIndex n x) eqn:E.
  - intros [= <- <-]. exists [], l. by repeat constructor.
  - destruct (take_messageKey n l) as [[y r']|] eqn:E'; [|done]. intros [= <- <-].
    destruct (IH y r' eq_refl) as (l1 & l2 & -> & -> & H & Hl1).
    exists (x :: l1), l2. by repeat constructor.
Qed.

Lemma take_messageKey_none n l : take_messageKey n l = None <-> Forall (fun x => mk_hasIndex n x = false) l.
Proof.
  induction l as [|x l IH]; cbn [take_messageKey]; [done|].
  rewrite Forall_cons. destruct (mk_hasIndex n x) eqn:E; [split; [done|intros [? _]; done]|].
  destruct (take_messageKey n l) as [[y r']|] eqn:E'.
  - split; [done|]. intros [_ H]. by apply IH in H.
  - split; [|done]. intros _. split; [done|]. by apply IH.
Qed.

Lemma existsb_hasIndex n l : existsb (mk_hasIndex n) l = false <-> Forall (fun x => mk_hasIndex n x = false) l.
Proof.
  induction l as [|x l IH]; cbn [existsb]; [done|].
  rewrite orb_false_iff, Forall_cons, IH. done.
Qed.

Lemma st_removeMessageKeys_wf k n s x : ss_wf s -> st_removeMessageKeys k n s = Ok x -> ss_wf x.2.
Proof.
  intros Hwf (y & Hy & H)%bind_ok_inv.
  pose proof (st_theReceiverChain_wf _ _ _ Hwf Hy) as [H1 H2].
  destruct (take_messageKey n (ch_messageKeys y.1)) as [[m r]|] eqn:E; injection H as <-; [|done].
  apply st_putReceiverChain_wf; [done|]. split; cbn; [done|].
  apply take_messageKey_some in E as (l1 & l2 & E & -> & _). rewrite E in H2.
  apply Forall_app in H2 as [? [? ?]%Forall_cons]. by apply Forall_app.
Qed.

(** ** Records *)

Lemma sr_promoteState_wf s r : ss_wf s -> rec_wf r -> rec_wf (sr_promoteState s r).
Proof.
  intros Hs [H1 H2]. split; [done|]. cbn -[take].
  assert (Forall ss_wf (sr_state r :: sr_previous r)) by (by constructor).
  case_match; [by apply Forall_take|done].
Qed.

Lemma sr_archive_wf r : rec_wf r -> rec_wf (sr_archiveCurrentState r).
Proof. apply sr_promoteState_wf. exact ss_empty_wf. Qed.
