(** Properties C62, C63, C64, C65: the in-memory stores. *)
From Verif Require Import PyBase Wire Protos ProtoFacts State StateFacts Crypto Prog Stores SpecStores StoreProofs.
From Verif Require Import SpecSession Toy Ex.

(** Two records for the examples: an unused one and Alice's session with Bob. *)
Definition recA : sessionRecord := get sr_new (session_at alice1 2 1).

(** ** C62: deleteAllSessions deletes all sessions of a recipient, and only those *)

(** It raises and leaves sessions behind. *)
Theorem C62_delete_all_refuted : exists s r d,
  s = store_after [OStore r 1 sr_new; OStore r 2 sr_new] /\
  (ss_deleteAllSessions r s).1 = Err ERuntimeError /\
  ss_containsSession r d (ss_deleteAllSessions r s).2 = true.
Proof. by exists (store_after [OStore 7 1 sr_new; OStore 7 2 sr_new]), 7%Z, 2%Z. Qed.
Print Assumptions C62_delete_all_refuted.

(** What it does: nothing if there is no session; otherwise it deletes the oldest one of the
    recipient, then raises RuntimeError.  Sessions of others stay. *)
Theorem C62_delete_none_partial : forall s r,
  (forall d, ss_containsSession r d s = false) -> ss_deleteAllSessions r s = (Ok tt, s).
Proof. exact delete_all_none. Qed.
Print Assumptions C62_delete_none_partial.

Theorem C62_delete_first_partial : forall s r,
  (exists d, ss_containsSession r d s = true) ->
  exists l1 d v l2, s = l1 ++ ((r, d), v) :: l2 /\ Forall (fun x => x.1.1 <> r) l1 /\
    ss_deleteAllSessions r s = (Err ERuntimeError, l1 ++ l2).
Proof. exact delete_all_some. Qed.
Print Assumptions C62_delete_first_partial.

Example C62_three :
  let s := store_after [OStore 7 1 sr_new; OStore 8 1 sr_new; OStore 7 2 sr_new] in
  let x := ss_deleteAllSessions 7 s in
  x.1 = Err ERuntimeError /\ ss_getSubDeviceSessions 7 x.2 = [2%Z] /\ ss_getSubDeviceSessions 8 x.2 = [1%Z] /\
  (ss_deleteAllSessions 9 s).1 = Ok tt.
Proof. vm_compute. done. Qed.

(** ** C63: removeSignedPreKey removes the signed prekey *)

(** Through InMemoryAxolotlStore it never does: it raises TypeError. *)
Theorem C63_remove_refuted : exists i s,
  sps_containsSignedPreKey i s = true /\ (as_removeSignedPreKey i s).1 = Err ETypeError /\
  sps_containsSignedPreKey i (as_removeSignedPreKey i s).2 = true.
Proof. by exists 9%N, [(9%N, spr_enc bobSigned)]. Qed.
Print Assumptions C63_remove_refuted.

(** The store behind it does remove it. *)
Theorem C63_remove_partial : forall i (s : keyDict),
  NoDup (map fst s) -> sps_containsSignedPreKey i s = true ->
  exists s', sps_removeSignedPreKey i s = (Ok tt, s') /\ sps_containsSignedPreKey i s' = false /\
    forall j, j <> i -> dict_get j s' = dict_get j s.
Proof. exact signed_removed. Qed.
Print Assumptions C63_remove_partial.

Example C63_two :
  let s := sps_storeSignedPreKey 9 bobSigned (sps_storeSignedPreKey 8 bobSigned []) in
  let x := sps_removeSignedPreKey 9 s in
  x.1 = Ok tt /\ sps_containsSignedPreKey 9 x.2 = false /\ sps_loadSignedPreKeys x.2 = Ok [bobSigned].
Proof. vm_compute. done. Qed.

(** ** C64: getSubDeviceSessions lists the devices with a session, each once *)

Theorem C64_devices : forall l r,
  NoDup (ss_getSubDeviceSessions r (store_after l)) /\
  forall d, d ∈ ss_getSubDeviceSessions r (store_after l) <-> ss_containsSession r d (store_after l) = true.
Proof. exact sub_devices_after. Qed.
Print Assumptions C64_devices.

Example C64_listed :
  ss_getSubDeviceSessions 7 (store_after [OStore 7 3 sr_new; OStore 8 1 sr_new; OStore 7 2 recA; OStore 7 3 recA;
    OStore 7 4 sr_new; ODelete 7 4; ODelete 7 5]) = [3%Z; 2%Z].
Proof. vm_compute. done. Qed.

(** ** C65: a store returns what was stored last *)

Theorem C65_contains : forall l r d,
  no_delete_all l -> ss_containsSession r d (store_after l) = true <-> is_Some (last_write r d l).
Proof. exact contains_after. Qed.
Print Assumptions C65_contains.

Theorem C65_load : forall l r d,
  no_delete_all l -> (forall rec, OStore r d rec ∈ l -> rec_wf rec) ->
  ss_loadSession r d (store_after l) =
    match last_write r d l with
    | Some rec => Ok (SessionRecord false (sr_state rec) (sr_previous rec))
    | None => Ok (SessionRecord true st_new [])
    end.
Proof. exact load_after. Qed.
Print Assumptions C65_load.

(** The maps that stand for the stores everywhere else behave like these dictionaries. *)
Theorem C65_model : forall w s r d rec,
  w_sessions w = list_to_map s ->
  step_call (CLoadSession r d) w = (ss_loadSession r d s, w) /\
  step_call (CContainsSession r d) w = (Ok (ss_containsSession r d s), w) /\
  step_call (CStoreSession r d rec) w = (Ok tt, w_set_sessions (list_to_map (ss_storeSession r d rec s)) w).
Proof. exact model_sessions. Qed.
Print Assumptions C65_model.

Example C65_stored :
  let s := store_after [OStore 2 1 sr_new; OStore 2 2 sr_new; OStore 2 1 recA; ODelete 2 2] in
  ss_loadSession 2 1 s = Ok (SessionRecord false (sr_state recA) (sr_previous recA)) /\
  st_hasSenderChain (sr_state recA) = true /\ ss_loadSession 2 2 s = Ok sr_new.
Proof. vm_compute. done. Qed.
