(** Facts about the in-memory stores. *)
From Verif Require Import PyBase Wire Protos ProtoFacts State StateFacts Prog Stores SpecStores.

Section dict.
Context {K V : Type} `{EqDecision K}.
Implicit Types (d : dict K V) (k : K).

Definition keys d : list K := map fst d.

Lemma dict_get_none k d : dict_get k d = None <-> k ∉ keys d.
Proof.
  induction d as [|[k' v] d IH]; cbn [dict_get keys map fst]; [split; [intros _; apply not_elem_of_nil|done]|].
  rewrite not_elem_of_cons. case_bool_decide as E; [|fold (keys d); rewrite IH; naive_solver]. naive_solver.
Qed.
Lemma dict_in_iff k d : dict_in k d = true <-> k ∈ keys d.
Proof.
  unfold dict_in. destruct (dict_get k d) eqn:E.
  - split; [|done]. intros _. destruct (decide (k ∈ keys d)) as [|H]; [done|]. apply dict_get_none in H. congruence.
  - apply dict_get_none in E. split; [done|]. intros H. by destruct E.
Qed.

Lemma dict_get_set k k' v d : dict_get k' (dict_set k v d) = if bool_decide (k = k') then Some v else dict_get k' d.
Proof.
  induction d as [|[k2 v2] d IH]; cbn [dict_set dict_get]; [done|].
  destruct (decide (k2 = k)) as [E|E].
  - rewrite (bool_decide_true _ E). cbn [dict_get]. subst k2. by case_bool_decide.
  - rewrite (bool_decide_false _ E). cbn [dict_get]. rewrite IH. repeat case_bool_decide; congruence.
Qed.
Lemma keys_set k v d : keys (dict_set k v d) = if dict_in k d then keys d else keys d ++ [k].
Proof.
  unfold dict_in. induction d as [|[k2 v2] d IH]; cbn [dict_set dict_get keys map fst app]; [done|].
  case_bool_decide as E; [by subst|]. cbn [map fst]. unfold keys in IH. rewrite IH. by destruct (dict_get k d).
Qed.
Lemma nodup_set k v d : NoDup (keys d) -> NoDup (keys (dict_set k v d)).
Proof.
  intros H. rewrite keys_set. destruct (dict_in k d) eqn:E; [done|]. apply NoDup_app. split_and!; [done| |apply NoDup_singleton].
  intros x Hx ->%elem_of_list_singleton. apply dict_in_iff in Hx. congruence.
Qed.

Lemma dict_remove_keys k d : sublist (keys (dict_remove k d)) (keys d).
Proof.
  induction d as [|[k2 v2] d IH]; cbn [dict_remove keys map fst]; [constructor|].
  case_bool_decide; cbn [map fst]; by constructor.
Qed.
Lemma nodup_remove k d : NoDup (keys d) -> NoDup (keys (dict_remove k d)).
Proof. 
  induction d as [|[k2 v2] d IH]; cbn [dict_remove keys map fst]; [done|]. intros [H1 H2]%NoDup_cons.
  case_bool_decide; [done|]. cbn [map fst]. apply NoDup_cons. split; [|by apply IH].
  intros Hin. apply H1. eapply elem_of_submseteq; [done|]. apply sublist_submseteq, dict_remove_keys.
Qed.
Lemma dict_get_remove k k' d :
  NoDup (keys d) -> dict_get k' (dict_remove k d) = if bool_decide (k = k') then None else dict_get k' d.
Proof.
  induction d as [|[k2 v2] d IH]; cbn [dict_remove dict_get keys map fst]; [by case_bool_decide|].
  intros [H1 H2]%NoDup_cons. destruct (decide (k2 = k)) as [E|E].
  - rewrite (bool_decide_true _ E). subst k2. case_bool_decide as E'; [|done]. subst k'. by apply dict_get_none.
  - rewrite (bool_decide_false _ E). cbn [dict_get]. rewrite IH by done. repeat case_bool_decide; congruence.
Qed.
Lemma dict_remove_split k v l1 l2 :
  k ∉ keys l1 -> dict_remove k (l1 ++ (k, v) :: l2) = (l1 ++ l2 : dict K V).
Proof.
  induction l1 as [|[k2 v2] l1 IH]; cbn [app dict_remove keys map fst].
  - intros _. by rewrite bool_decide_true.
  - intros [H1 H2]%not_elem_of_cons. rewrite bool_decide_false by done. by rewrite IH.
Qed.

Lemma nodup_del k d : NoDup (keys d) -> NoDup (keys (dict_del k d).2).
Proof. intros H. unfold dict_del. destruct (dict_in k d); [by apply nodup_remove|done]. Qed.
Lemma dict_get_del k k' d :
  NoDup (keys d) -> dict_get k' (dict_del k d).2 = if bool_decide (k = k') then None else dict_get k' d.
Proof.
  intros H. unfold dict_del. destruct (dict_in k d) eqn:E; [by apply dict_get_remove|].
  cbn [snd]. case_bool_decide; [|done]. subst k'. apply dict_get_none. intros Hk%dict_in_iff. congruence.
Qed.

(** The loop that deletes while it iterates. *)
Lemma dict_del_loop_none sel l d :
  Forall (fun k => sel k = false) l -> dict_del_loop sel (length d) l d = (Ok tt, d).
Proof.
  induction 1 as [|k l Hk Hl IH]; cbn [dict_del_loop]; rewrite Nat.eqb_refl; [done|]. by rewrite Hk.
Qed.
Lemma dict_del_loop_first sel ks1 k v ks2 l1 l2 :
  Forall (fun k => sel k = false) ks1 -> sel k = true -> k ∉ keys l1 ->
  dict_del_loop sel (length (l1 ++ (k, v) :: l2)) (ks1 ++ k :: ks2) (l1 ++ (k, v) :: l2)
  = (Err ERuntimeError, l1 ++ l2).
Proof.
  intros H1 Hk Hn. induction H1 as [|k0 ks1 Hk0 _ IH]; cbn [app dict_del_loop]; rewrite Nat.eqb_refl.
  - rewrite Hk. unfold dict_del.
    assert (dict_in k (l1 ++ (k, v) :: l2) = true) as ->.
    { apply dict_in_iff. unfold keys. rewrite map_app. apply elem_of_app. right. apply elem_of_cons. by left. }
    rewrite dict_remove_split by done.
    assert (Nat.eqb (length (l1 ++ l2)) (length (l1 ++ (k, v) :: l2)) = false) as E.
    { apply Nat.eqb_neq. rewrite !app_length. cbn [length]. lia. }
    destruct ks2; cbn [dict_del_loop]; by rewrite E.
  - by rewrite Hk0.
Qed.
End dict.

(** ** Histories of the session store *)

Definition sel_of (r : Z) : Z * Z -> bool := fun k => (k.1 =? r)%Z.

(** The first session of a recipient. *)
Lemma split_first r (s : sessionDict) :
  Forall (fun k => sel_of r k = false) (keys s) \/
  exists l1 d v l2, s = l1 ++ ((r, d), v) :: l2 /\ Forall (fun k => sel_of r k = false) (keys l1).
Proof.
  induction s as [|[[r' d] v] s IH]; [left; constructor|].
  destruct (Z.eqb_spec r' r) as [E|E].
  - right. subst r'. exists [], d, v, s. split; [done|constructor].
  - assert (sel_of r (r', d) = false) as Hs by (by apply Z.eqb_neq).
    destruct IH as [IH|(l1 & d' & v' & l2 & -> & IH)].
    + left. by constructor.
    + right. exists (((r', d), v) :: l1), d', v', l2. split; [done|]. by constructor.
Qed.

Lemma delete_all_none (s : sessionDict) r :
  (forall d, ss_containsSession r d s = false) -> ss_deleteAllSessions r s = (Ok tt, s).
Proof.
  intros H. apply dict_del_loop_none. apply Forall_forall. intros [r' d] Hk. apply Z.eqb_neq. intros E. cbn in E. subst r'.
  apply dict_in_iff in Hk. specialize (H d). unfold ss_containsSession in H. congruence.
Qed.
Lemma delete_all_some (s : sessionDict) r :
  (exists d, ss_containsSession r d s = true) ->
  exists l1 d v l2, s = l1 ++ ((r, d), v) :: l2 /\ Forall (fun x => x.1.1 <> r) l1 /\
    ss_deleteAllSessions r s = (Err ERuntimeError, l1 ++ l2).
Proof.
  intros (d0 & Hd). destruct (split_first r s) as [H|(l1 & d & v & l2 & -> & H)].
  - unfold ss_containsSession in Hd. apply dict_in_iff in Hd. rewrite Forall_forall in H. specialize (H _ Hd).
    by apply Z.eqb_neq in H.
  - exists l1, d, v, l2. split_and!; [done| |].
    + unfold keys in H. change (map fst l1) with (fst <$> l1) in H. apply Forall_fmap in H.
      eapply Forall_impl; [exact H|]. cbn. intros x Hx. by apply Z.eqb_neq.
    + unfold ss_deleteAllSessions. rewrite map_app. cbn [map fst]. apply dict_del_loop_first; [done|by apply Z.eqb_eq|].
      intros Hin. rewrite Forall_forall in H. specialize (H _ Hin). by apply Z.eqb_neq in H.
Qed.

Lemma delete_all_cases r (s : sessionDict) :
  ss_deleteAllSessions r s = (Ok tt, s) \/
  exists l1 d v l2, s = l1 ++ ((r, d), v) :: l2 /\ ss_deleteAllSessions r s = (Err ERuntimeError, l1 ++ l2).
Proof.
  destruct (split_first r s) as [H|H].
  - left. by apply dict_del_loop_none.
  - right. destruct (delete_all_some s r) as (l1 & d & v & l2 & H1 & _ & H2).
    { destruct H as (l1 & d & v & l2 & -> & _). exists d. apply dict_in_iff. unfold keys. rewrite map_app.
      apply elem_of_app. right. apply elem_of_cons. by left. }
    by exists l1, d, v, l2.
Qed.

Lemma nodup_op o s : NoDup (keys s) -> NoDup (keys (op_does o s)).
Proof.
  intros H. destruct o as [r d rec|r d|r]; cbn [op_does].
  - by apply nodup_set.
  - by apply nodup_del.
  - destruct (delete_all_cases r s) as [->|(l1 & d & v & l2 & -> & ->)]; cbn [snd]; [done|].
    unfold keys in *. rewrite map_app in *. cbn [map fst] in H.
    apply NoDup_app in H as (H1 & H2 & [H3 H4]%NoDup_cons). apply NoDup_app. split_and!; [done| |done].
    intros x Hx Hx2. eapply H2; [done|]. apply elem_of_cons. by right.
Qed.
Lemma store_after_snoc l o : store_after (l ++ [o]) = op_does o (store_after l).
Proof. unfold store_after. by rewrite foldl_app. Qed.
Lemma last_write_snoc r d l o : last_write r d (l ++ [o]) = op_writes r d o (last_write r d l).
Proof. unfold last_write. by rewrite foldl_app. Qed.
Lemma nodup_after l : NoDup (keys (store_after l)).
Proof. induction l as [|o l IH] using rev_ind; [constructor|]. rewrite store_after_snoc. by apply nodup_op. Qed.

Lemma get_deleted k r d s :
  NoDup (keys s) -> dict_get k (ss_deleteSession r d s).2 = if bool_decide ((r, d) = k) then None else dict_get k s.
Proof. exact (dict_get_del (r, d) k s). Qed.

(** What is stored is what was written last. *)
Lemma get_after l r d :
  no_delete_all l -> dict_get (r, d) (store_after l) = sr_serialize <$> last_write r d l.
Proof.
  induction l as [|o l IH] using rev_ind; [done|]. intros [Hl Ho]%Forall_app. specialize (IH Hl).
  rewrite store_after_snoc, last_write_snoc. rewrite Forall_singleton in Ho.
  destruct o as [r' d' rec|r' d'|r']; [| |done]; cbn [op_does op_writes].
  - unfold ss_storeSession. rewrite dict_get_set, IH.
    destruct (Z.eqb_spec r' r), (Z.eqb_spec d' d); case_bool_decide; cbn [andb]; naive_solver.
  - rewrite get_deleted, IH by apply nodup_after.
    destruct (Z.eqb_spec r' r), (Z.eqb_spec d' d); case_bool_decide; cbn [andb]; naive_solver.
Qed.

Lemma load_after l r d :
  no_delete_all l ->
  (forall rec, OStore r d rec ∈ l -> rec_wf rec) ->
  ss_loadSession r d (store_after l) =
    match last_write r d l with
    | Some rec => Ok (SessionRecord false (sr_state rec) (sr_previous rec))
    | None => Ok (SessionRecord true st_new [])
    end.
Proof.
  intros Hl Hw. unfold ss_loadSession. rewrite get_after by done.
  destruct (last_write r d l) as [rec|] eqn:E; [|done]. cbn. apply sr_roundtrip, Hw.
  clear Hl Hw. revert rec E. induction l as [|o l IH] using rev_ind; [done|].
  intros rec. rewrite last_write_snoc. intros H. apply elem_of_app.
  destruct o as [r' d' rec'|r' d'|r']; cbn [op_writes] in H.
  - destruct (Z.eqb_spec r' r), (Z.eqb_spec d' d); cbn [andb] in H; try (left; by apply IH).
    injection H as ->. subst. right. by apply elem_of_list_singleton.
  - destruct ((r' =? r)%Z && (d' =? d)%Z); [done|]. left. by apply IH.
  - destruct (r' =? r)%Z; [done|]. left. by apply IH.
Qed.
Lemma contains_after l r d :
  no_delete_all l -> ss_containsSession r d (store_after l) = true <-> is_Some (last_write r d l).
Proof.
  intros Hl. unfold ss_containsSession, dict_in. rewrite get_after by done.
  destruct (last_write r d l); cbn; split; intros H; eauto; [done|by destruct H].
Qed.

(** The devices of a recipient. *)
Lemma sub_devices_in r d s : d ∈ ss_getSubDeviceSessions r s <-> ss_containsSession r d s = true.
Proof.
  unfold ss_containsSession. rewrite dict_in_iff. unfold ss_getSubDeviceSessions.
  induction s as [|[[r' d'] v] s IH]; cbn [flat_map keys map fst snd]; [split; by intros ?%elem_of_nil|].
  rewrite elem_of_app, elem_of_cons, IH. destruct (Z.eqb_spec r' r).
  - subst r'. rewrite elem_of_list_singleton. naive_solver.
  - rewrite elem_of_nil. naive_solver.
Qed.
Lemma sub_devices_nodup r s : NoDup (keys s) -> NoDup (ss_getSubDeviceSessions r s).
Proof.
  unfold ss_getSubDeviceSessions.
  induction s as [|[[r' d'] v] s IH]; cbn [flat_map keys map fst snd]; [constructor|]. intros [H1 H2]%NoDup_cons.
  destruct (Z.eqb_spec r' r); cbn [app]; [|by apply IH]. subst r'. apply NoDup_cons. split; [|by apply IH].
  intros H. apply H1. apply dict_in_iff, sub_devices_in, H.
Qed.
Lemma sub_devices_after l r :
  NoDup (ss_getSubDeviceSessions r (store_after l)) /\
  forall d, d ∈ ss_getSubDeviceSessions r (store_after l) <-> ss_containsSession r d (store_after l) = true.
Proof. split; [apply sub_devices_nodup, nodup_after|]. intros d. apply sub_devices_in. Qed.

(** ** The maps of the model *)

Definition as_map {V} (s : dict (Z * Z) V) : gmap (Z * Z) V := list_to_map s.
Lemma as_map_lookup {V} (s : dict (Z * Z) V) k : as_map s !! k = dict_get k s.
Proof.
  unfold as_map. induction s as [|[k' v] s IH]; cbn [list_to_map dict_get foldr]; [apply lookup_empty|].
  case_bool_decide as E; [subst; by rewrite lookup_insert|]. by rewrite lookup_insert_ne.
Qed.
Lemma as_map_set {V} (s : dict (Z * Z) V) k v : as_map (dict_set k v s) = <[k := v]> (as_map s).
Proof.
  apply map_eq. intros k'. rewrite as_map_lookup, dict_get_set. case_bool_decide as E.
  - subst. by rewrite lookup_insert.
  - by rewrite lookup_insert_ne, as_map_lookup.
Qed.

Lemma model_sessions w s r d rec :
  w_sessions w = list_to_map s ->
  step_call (CLoadSession r d) w = (ss_loadSession r d s, w) /\
  step_call (CContainsSession r d) w = (Ok (ss_containsSession r d s), w) /\
  step_call (CStoreSession r d rec) w = (Ok tt, w_set_sessions (list_to_map (ss_storeSession r d rec s)) w).
Proof.
  intros E. change (w_sessions w = as_map s) in E. split_and!.
  - cbn [step_call]. rewrite E, as_map_lookup. done.
  - cbn [step_call]. rewrite E, as_map_lookup. unfold ss_containsSession, dict_in. destruct (dict_get (r, d) s).
    + by rewrite bool_decide_true.
    + rewrite bool_decide_false; [done|]. by intros [].
  - cbn [step_call]. rewrite E, <- as_map_set. done.
Qed.

(** ** Signed prekeys *)

Lemma signed_removed i (s : keyDict) :
  NoDup (map fst s) -> sps_containsSignedPreKey i s = true ->
  exists s', sps_removeSignedPreKey i s = (Ok tt, s') /\ sps_containsSignedPreKey i s' = false /\
    forall j, j <> i -> dict_get j s' = dict_get j s.
Proof.
  intros Hd Hi. change (NoDup (keys s)) in Hd. unfold sps_containsSignedPreKey, sps_removeSignedPreKey, dict_del in *. rewrite Hi.
  exists (dict_remove i s). split; [done|]. split.
  - unfold dict_in. rewrite dict_get_remove by done. by rewrite bool_decide_true.
  - intros j Hj. rewrite dict_get_remove by done. rewrite bool_decide_false; done.
Qed.
Lemma axolotl_store_keeps i s : as_removeSignedPreKey i s = (Err ETypeError, s).
Proof. done. Qed.
