(** Paths in comments of all model files are relative to /repo/axolotl.

    The protobuf messages of protobuf/WhisperTextProtocol.proto and
    protobuf/LocalStorageProtocol.proto as records of optional fields, with
    SerializeToString and ParseFromString.

    Fields are written in field-number order.  Parsing follows protobuf merge
    semantics: the last scalar wins, sub-messages merge, repeated fields append, and
    unknown fields or fields of an unexpected wire type are dropped (the runtime keeps
    unknown fields for re-serialisation; records are only ever written by this library,
    so none occur). *)
From Verif Require Import PyBase Wire.

(** uint32 as read from a varint. *)
Definition u32 (v : N) : N := (v mod 2 ^ 32)%N.

(** int32 as read from a varint (PendingPreKey.signedPreKeyId,
    LocalStorageProtocol.proto:38-42). *)
Definition i32 (v : N) : Z :=
  let u := u32 v in if (u <? 2 ^ 31)%N then Z.of_N u else (Z.of_N u - 2 ^ 32)%Z.

(** int32 as written: negative values are sign-extended to 64 bits. *)
Definition i32_enc (z : Z) : N := Z.to_N (if (z <? 0)%Z then z + 2 ^ 64 else z)%Z.

(** Optional fields as lists of raw fields. *)
Definition optB (n : N) (o : option bytes) : list wfield :=
  match o with Some b => [(n, WLen b)] | None => [] end.
Definition optV (n : N) (o : option N) : list wfield :=
  match o with Some v => [(n, WVar v)] | None => [] end.
Definition optI (n : N) (o : option Z) : list wfield :=
  match o with Some v => [(n, WVar (i32_enc v))] | None => [] end.
Definition optT (n : N) (o : option bool) : list wfield :=
  match o with Some v => [(n, WVar (if v then 1 else 0))] | None => [] end%N.
Definition optF (n : N) (o : option N) : list wfield :=
  match o with Some v => [(n, W64 v)] | None => [] end.
Definition optM {A} (enc : A -> bytes) (n : N) (o : option A) : list wfield :=
  match o with Some m => [(n, WLen (enc m))] | None => [] end.
Definition repM {A} (enc : A -> bytes) (n : N) (l : list A) : list wfield :=
  map (fun m => (n, WLen (enc m))) l.

(** Folding a field interpreter over the raw fields. *)
Fixpoint fold_fields {A} (f : A -> wfield -> res A) (a : A) (fs : list wfield) : res A :=
  match fs with
  | [] => Ok a
  | x :: r => a' ← f a x; fold_fields f a' r
  end.

Lemma fold_fields_app {A} (f : A -> wfield -> res A) a l1 l2 :
  fold_fields f a (l1 ++ l2) = (fold_fields f a l1 ≫= λ a', fold_fields f a' l2).
Proof.
  revert a. induction l1 as [|x l1 IH]; intros a; simpl; [done|].
  destruct (f a x); simpl; [apply IH|done].
Qed.

(** Range checks of the generated setters: assigning outside the range of the field
    raises ValueError. *)
Definition set_u32 (n : N) : res N := if (n <? 2 ^ 32)%N then Ok n else Err EValueError.
Definition set_i32 (n : N) : res Z := if (n <? 2 ^ 31)%N then Ok (Z.of_N n) else Err EValueError.
Definition set_u64 (n : N) : res N := if (n <? 2 ^ 64)%N then Ok n else Err EValueError.

Lemma u32_small n : (n < 2 ^ 32)%N -> u32 n = n.
Proof. apply N.mod_small. Qed.

Lemma i32_i32_enc z : (- 2 ^ 31 <= z < 2 ^ 31)%Z -> i32 (i32_enc z) = z.
Proof.
  intros Hz. unfold i32, i32_enc, u32. destruct (z <? 0)%Z eqn:E.
  - apply Z.ltb_lt in E.
    assert (Z.to_N (z + 2 ^ 64) mod 2 ^ 32 = Z.to_N (z + 2 ^ 32))%N as ->.
    { replace (Z.to_N (z + 2 ^ 64)) with (Z.to_N (z + 2 ^ 32) + (2 ^ 32 - 1) * 2 ^ 32)%N by lia.
      rewrite N.mod_add by lia. apply N.mod_small. lia. }
    rewrite (proj2 (N.ltb_ge _ _)) by lia. lia.
  - apply Z.ltb_ge in E. rewrite N.mod_small by lia.
    rewrite (proj2 (N.ltb_lt _ _)) by lia. lia.
Qed.

Lemma i32_enc_bound z : (- 2 ^ 31 <= z < 2 ^ 31)%Z -> (i32_enc z < 2 ^ 64)%N.
Proof. intros Hz. unfold i32_enc. destruct (z <? 0)%Z eqn:E; [apply Z.ltb_lt in E|apply Z.ltb_ge in E]; lia. Qed.

(** Well-formedness of optional fields (what the setters guarantee). *)
Definition wfV (o : option N) : Prop := match o with Some v => (v < 2 ^ 32)%N | None => True end.
Definition wfI (o : option Z) : Prop := match o with Some v => (- 2 ^ 31 <= v < 2 ^ 31)%Z | None => True end.
Definition wfF (o : option N) : Prop := match o with Some v => (v < 2 ^ 64)%N | None => True end.
Definition wfM {A} (P : A -> Prop) (o : option A) : Prop := match o with Some v => P v | None => True end.

Lemma wf_optB n o : (0 < n < 2 ^ 29)%N -> Forall wf_field (optB n o).
Proof. intros. destruct o; repeat constructor; simpl; lia. Qed.
Lemma wf_optV n o : (0 < n < 2 ^ 29)%N -> wfV o -> Forall wf_field (optV n o).
Proof. intros ? H. destruct o; simpl in *; repeat constructor; simpl; lia. Qed.
Lemma wf_optI n o : (0 < n < 2 ^ 29)%N -> wfI o -> Forall wf_field (optI n o).
Proof.
  intros ? Ho. destruct o as [z|]; cbn [optI wfI] in *; constructor; [|constructor]. split; cbn [fst snd]; [lia|].
  by apply i32_enc_bound.
Qed.
Lemma wf_optT n o : (0 < n < 2 ^ 29)%N -> Forall wf_field (optT n o).
Proof. intros. destruct o as [[]|]; repeat constructor; simpl; lia. Qed.
Lemma wf_optF n o : (0 < n < 2 ^ 29)%N -> wfF o -> Forall wf_field (optF n o).
Proof. intros ? H. destruct o; simpl in *; repeat constructor; simpl; lia. Qed.
Lemma wf_optM {A} (enc : A -> bytes) n o : (0 < n < 2 ^ 29)%N -> Forall wf_field (optM enc n o).
Proof. intros. destruct o; repeat constructor; simpl; lia. Qed.
Lemma wf_repM {A} (enc : A -> bytes) n l : (0 < n < 2 ^ 29)%N -> Forall wf_field (repM enc n l).
Proof. intros. unfold repM. apply Forall_map, Forall_true. intros x. repeat constructor; simpl; lia. Qed.

(** message WhisperMessage, protobuf/WhisperTextProtocol.proto:6-11 *)
Record wm_s := WmS {
  wm_ratchetKey : option bytes;
  wm_counter : option N;
  wm_previousCounter : option N;
  wm_ciphertext : option bytes }.
(** The message with no field set, protobuf/WhisperTextProtocol.proto:6-11. *)
Definition wm_empty : wm_s := WmS None None None None.
(** Assignment to ratchetKey, protobuf/WhisperTextProtocol.proto:6-11. *)
Definition wm_set_ratchetKey (v : option bytes) (m : wm_s) : wm_s := WmS v (m.(wm_counter)) (m.(wm_previousCounter)) (m.(wm_ciphertext)).
(** Assignment to counter, protobuf/WhisperTextProtocol.proto:6-11. *)
Definition wm_set_counter (v : option N) (m : wm_s) : wm_s := WmS (m.(wm_ratchetKey)) v (m.(wm_previousCounter)) (m.(wm_ciphertext)).
(** Assignment to previousCounter, protobuf/WhisperTextProtocol.proto:6-11. *)
Definition wm_set_previousCounter (v : option N) (m : wm_s) : wm_s := WmS (m.(wm_ratchetKey)) (m.(wm_counter)) v (m.(wm_ciphertext)).
(** Assignment to ciphertext, protobuf/WhisperTextProtocol.proto:6-11. *)
Definition wm_set_ciphertext (v : option bytes) (m : wm_s) : wm_s := WmS (m.(wm_ratchetKey)) (m.(wm_counter)) (m.(wm_previousCounter)) v.
(** SerializeToString: message WhisperMessage, protobuf/WhisperTextProtocol.proto:6-11 *)
Definition wm_fields (m : wm_s) : list wfield :=
  optB 1 m.(wm_ratchetKey) ++
  optV 2 m.(wm_counter) ++
  optV 3 m.(wm_previousCounter) ++
  optB 4 m.(wm_ciphertext).
(** SerializeToString, protobuf/WhisperTextProtocol.proto:6-11. *)
Definition wm_enc (m : wm_s) : bytes := enc_fields (wm_fields m).
(** ParseFromString: message WhisperMessage, protobuf/WhisperTextProtocol.proto:6-11 *)
Definition wm_step (m : wm_s) (f : wfield) : res wm_s :=
  match f with
  | (1%N, WLen b) => Ok (wm_set_ratchetKey (Some b) m)
  | (2%N, WVar v) => Ok (wm_set_counter (Some (u32 v)) m)
  | (3%N, WVar v) => Ok (wm_set_previousCounter (Some (u32 v)) m)
  | (4%N, WLen b) => Ok (wm_set_ciphertext (Some b) m)
  | _ => Ok m
  end.
(** MergeFromString, protobuf/WhisperTextProtocol.proto:6-11. *)
Definition wm_merge (m : wm_s) (bs : bytes) : res wm_s :=
  fs ← parse_raw bs; fold_fields wm_step m fs.
(** ParseFromString, protobuf/WhisperTextProtocol.proto:6-11. *)
Definition wm_parse (bs : bytes) : res wm_s := wm_merge wm_empty bs.
(** Values the setters can have produced, protobuf/WhisperTextProtocol.proto:6-11. *)
Definition wm_wf (m : wm_s) : Prop :=
  wfV m.(wm_counter) /\ wfV m.(wm_previousCounter).

Lemma wm_fields_wf m : wm_wf m -> Forall wf_field (wm_fields m).
Proof.
  intros Hwf. unfold wm_wf in Hwf. unfold wm_fields. destruct_and? Hwf.
  repeat (apply Forall_app; split);
  first [apply wf_optB|apply wf_optV|apply wf_optI|apply wf_optT|apply wf_optF|apply wf_optM|apply wf_repM]; (done || lia).
Qed.
Lemma wm_roundtrip m : wm_wf m -> wm_parse (wm_enc m) = Ok m.
Proof.
  intros Hwf. unfold wm_parse, wm_merge, wm_enc.
  rewrite parse_raw_enc by (by apply wm_fields_wf). rewrite bind_ok.
  destruct m as [v0 v1 v2 v3]. unfold wm_wf in Hwf. cbn in Hwf. destruct_and? Hwf.
  unfold wm_fields, wm_empty. cbn [wm_ratchetKey wm_counter wm_previousCounter wm_ciphertext].
  assert (S0 : fold_fields wm_step (WmS None None None None) (optB 1 v0) = Ok (WmS v0 None None None)).
  { by destruct v0. }
  rewrite fold_fields_app, S0, bind_ok. clear S0.
  assert (S1 : fold_fields wm_step (WmS v0 None None None) (optV 2 v1) = Ok (WmS v0 v1 None None)).
  { destruct v1; [|done]. cbn. by rewrite u32_small. }
  rewrite fold_fields_app, S1, bind_ok. clear S1.
  assert (S2 : fold_fields wm_step (WmS v0 v1 None None) (optV 3 v2) = Ok (WmS v0 v1 v2 None)).
  { destruct v2; [|done]. cbn. by rewrite u32_small. }
  rewrite fold_fields_app, S2, bind_ok. clear S2.
  assert (S3 : fold_fields wm_step (WmS v0 v1 v2 None) (optB 4 v3) = Ok (WmS v0 v1 v2 v3)).
  { by destruct v3. }
  exact S3.
Qed.

(** message PreKeyWhisperMessage, protobuf/WhisperTextProtocol.proto:13-20 *)
Record pk_s := PkS {
  pk_preKeyId : option N;
  pk_baseKey : option bytes;
  pk_identityKey : option bytes;
  pk_message : option bytes;
  pk_registrationId : option N;
  pk_signedPreKeyId : option N }.
(** The message with no field set, protobuf/WhisperTextProtocol.proto:13-20. *)
Definition pk_empty : pk_s := PkS None None None None None None.
(** Assignment to preKeyId, protobuf/WhisperTextProtocol.proto:13-20. *)
Definition pk_set_preKeyId (v : option N) (m : pk_s) : pk_s := PkS v (m.(pk_baseKey)) (m.(pk_identityKey)) (m.(pk_message)) (m.(pk_registrationId)) (m.(pk_signedPreKeyId)).
(** Assignment to baseKey, protobuf/WhisperTextProtocol.proto:13-20. *)
Definition pk_set_baseKey (v : option bytes) (m : pk_s) : pk_s := PkS (m.(pk_preKeyId)) v (m.(pk_identityKey)) (m.(pk_message)) (m.(pk_registrationId)) (m.(pk_signedPreKeyId)).
(** Assignment to identityKey, protobuf/WhisperTextProtocol.proto:13-20. *)
Definition pk_set_identityKey (v : option bytes) (m : pk_s) : pk_s := PkS (m.(pk_preKeyId)) (m.(pk_baseKey)) v (m.(pk_message)) (m.(pk_registrationId)) (m.(pk_signedPreKeyId)).
(** Assignment to message, protobuf/WhisperTextProtocol.proto:13-20. *)
Definition pk_set_message (v : option bytes) (m : pk_s) : pk_s := PkS (m.(pk_preKeyId)) (m.(pk_baseKey)) (m.(pk_identityKey)) v (m.(pk_registrationId)) (m.(pk_signedPreKeyId)).
(** Assignment to registrationId, protobuf/WhisperTextProtocol.proto:13-20. *)
Definition pk_set_registrationId (v : option N) (m : pk_s) : pk_s := PkS (m.(pk_preKeyId)) (m.(pk_baseKey)) (m.(pk_identityKey)) (m.(pk_message)) v (m.(pk_signedPreKeyId)).
(** Assignment to signedPreKeyId, protobuf/WhisperTextProtocol.proto:13-20. *)
Definition pk_set_signedPreKeyId (v : option N) (m : pk_s) : pk_s := PkS (m.(pk_preKeyId)) (m.(pk_baseKey)) (m.(pk_identityKey)) (m.(pk_message)) (m.(pk_registrationId)) v.
(** SerializeToString: message PreKeyWhisperMessage, protobuf/WhisperTextProtocol.proto:13-20 *)
Definition pk_fields (m : pk_s) : list wfield :=
  optV 1 m.(pk_preKeyId) ++
  optB 2 m.(pk_baseKey) ++
  optB 3 m.(pk_identityKey) ++
  optB 4 m.(pk_message) ++
  optV 5 m.(pk_registrationId) ++
  optV 6 m.(pk_signedPreKeyId).
(** SerializeToString, protobuf/WhisperTextProtocol.proto:13-20. *)
Definition pk_enc (m : pk_s) : bytes := enc_fields (pk_fields m).
(** ParseFromString: message PreKeyWhisperMessage, protobuf/WhisperTextProtocol.proto:13-20 *)
Definition pk_step (m : pk_s) (f : wfield) : res pk_s :=
  match f with
  | (1%N, WVar v) => Ok (pk_set_preKeyId (Some (u32 v)) m)
  | (2%N, WLen b) => Ok (pk_set_baseKey (Some b) m)
  | (3%N, WLen b) => Ok (pk_set_identityKey (Some b) m)
  | (4%N, WLen b) => Ok (pk_set_message (Some b) m)
  | (5%N, WVar v) => Ok (pk_set_registrationId (Some (u32 v)) m)
  | (6%N, WVar v) => Ok (pk_set_signedPreKeyId (Some (u32 v)) m)
  | _ => Ok m
  end.
(** MergeFromString, protobuf/WhisperTextProtocol.proto:13-20. *)
Definition pk_merge (m : pk_s) (bs : bytes) : res pk_s :=
  fs ← parse_raw bs; fold_fields pk_step m fs.
(** ParseFromString, protobuf/WhisperTextProtocol.proto:13-20. *)
Definition pk_parse (bs : bytes) : res pk_s := pk_merge pk_empty bs.
(** Values the setters can have produced, protobuf/WhisperTextProtocol.proto:13-20. *)
Definition pk_wf (m : pk_s) : Prop :=
  wfV m.(pk_preKeyId) /\ wfV m.(pk_registrationId) /\ wfV m.(pk_signedPreKeyId).

Lemma pk_fields_wf m : pk_wf m -> Forall wf_field (pk_fields m).
Proof.
  intros Hwf. unfold pk_wf in Hwf. unfold pk_fields. destruct_and? Hwf.
  repeat (apply Forall_app; split);
  first [apply wf_optB|apply wf_optV|apply wf_optI|apply wf_optT|apply wf_optF|apply wf_optM|apply wf_repM]; (done || lia).
Qed.
Lemma pk_roundtrip m : pk_wf m -> pk_parse (pk_enc m) = Ok m.
Proof.
  intros Hwf. unfold pk_parse, pk_merge, pk_enc.
  rewrite parse_raw_enc by (by apply pk_fields_wf). rewrite bind_ok.
  destruct m as [v0 v1 v2 v3 v4 v5]. unfold pk_wf in Hwf. cbn in Hwf. destruct_and? Hwf.
  unfold pk_fields, pk_empty. cbn [pk_preKeyId pk_baseKey pk_identityKey pk_message pk_registrationId pk_signedPreKeyId].
  assert (S0 : fold_fields pk_step (PkS None None None None None None) (optV 1 v0) = Ok (PkS v0 None None None None None)).
  { destruct v0; [|done]. cbn. by rewrite u32_small. }
  rewrite fold_fields_app, S0, bind_ok. clear S0.
  assert (S1 : fold_fields pk_step (PkS v0 None None None None None) (optB 2 v1) = Ok (PkS v0 v1 None None None None)).
  { by destruct v1. }
  rewrite fold_fields_app, S1, bind_ok. clear S1.
  assert (S2 : fold_fields pk_step (PkS v0 v1 None None None None) (optB 3 v2) = Ok (PkS v0 v1 v2 None None None)).
  { by destruct v2. }
  rewrite fold_fields_app, S2, bind_ok. clear S2.
  assert (S3 : fold_fields pk_step (PkS v0 v1 v2 None None None) (optB 4 v3) = Ok (PkS v0 v1 v2 v3 None None)).
  { by destruct v3. }
  rewrite fold_fields_app, S3, bind_ok. clear S3.
  assert (S4 : fold_fields pk_step (PkS v0 v1 v2 v3 None None) (optV 5 v4) = Ok (PkS v0 v1 v2 v3 v4 None)).
  { destruct v4; [|done]. cbn. by rewrite u32_small. }
  rewrite fold_fields_app, S4, bind_ok. clear S4.
  assert (S5 : fold_fields pk_step (PkS v0 v1 v2 v3 v4 None) (optV 6 v5) = Ok (PkS v0 v1 v2 v3 v4 v5)).
  { destruct v5; [|done]. cbn. by rewrite u32_small. }
  exact S5.
Qed.

(** message KeyExchangeMessage, protobuf/WhisperTextProtocol.proto:22-28 *)
Record kx_s := KxS {
  kx_id : option N;
  kx_baseKey : option bytes;
  kx_ratchetKey : option bytes;
  kx_identityKey : option bytes;
  kx_baseKeySignature : option bytes }.
(** The message with no field set, protobuf/WhisperTextProtocol.proto:22-28. *)
Definition kx_empty : kx_s := KxS None None None None None.
(** Assignment to id, protobuf/WhisperTextProtocol.proto:22-28. *)
Definition kx_set_id (v : option N) (m : kx_s) : kx_s := KxS v (m.(kx_baseKey)) (m.(kx_ratchetKey)) (m.(kx_identityKey)) (m.(kx_baseKeySignature)).
(** Assignment to baseKey, protobuf/WhisperTextProtocol.proto:22-28. *)
Definition kx_set_baseKey (v : option bytes) (m : kx_s) : kx_s := KxS (m.(kx_id)) v (m.(kx_ratchetKey)) (m.(kx_identityKey)) (m.(kx_baseKeySignature)).
(** Assignment to ratchetKey, protobuf/WhisperTextProtocol.proto:22-28. *)
Definition kx_set_ratchetKey (v : option bytes) (m : kx_s) : kx_s := KxS (m.(kx_id)) (m.(kx_baseKey)) v (m.(kx_identityKey)) (m.(kx_baseKeySignature)).
(** Assignment to identityKey, protobuf/WhisperTextProtocol.proto:22-28. *)
Definition kx_set_identityKey (v : option bytes) (m : kx_s) : kx_s := KxS (m.(kx_id)) (m.(kx_baseKey)) (m.(kx_ratchetKey)) v (m.(kx_baseKeySignature)).
(** Assignment to baseKeySignature, protobuf/WhisperTextProtocol.proto:22-28. *)
Definition kx_set_baseKeySignature (v : option bytes) (m : kx_s) : kx_s := KxS (m.(kx_id)) (m.(kx_baseKey)) (m.(kx_ratchetKey)) (m.(kx_identityKey)) v.
(** SerializeToString: message KeyExchangeMessage, protobuf/WhisperTextProtocol.proto:22-28 *)
Definition kx_fields (m : kx_s) : list wfield :=
  optV 1 m.(kx_id) ++
  optB 2 m.(kx_baseKey) ++
  optB 3 m.(kx_ratchetKey) ++
  optB 4 m.(kx_identityKey) ++
  optB 5 m.(kx_baseKeySignature).
(** SerializeToString, protobuf/WhisperTextProtocol.proto:22-28. *)
Definition kx_enc (m : kx_s) : bytes := enc_fields (kx_fields m).
(** ParseFromString: message KeyExchangeMessage, protobuf/WhisperTextProtocol.proto:22-28 *)
Definition kx_step (m : kx_s) (f : wfield) : res kx_s :=
  match f with
  | (1%N, WVar v) => Ok (kx_set_id (Some (u32 v)) m)
  | (2%N, WLen b) => Ok (kx_set_baseKey (Some b) m)
  | (3%N, WLen b) => Ok (kx_set_ratchetKey (Some b) m)
  | (4%N, WLen b) => Ok (kx_set_identityKey (Some b) m)
  | (5%N, WLen b) => Ok (kx_set_baseKeySignature (Some b) m)
  | _ => Ok m
  end.
(** MergeFromString, protobuf/WhisperTextProtocol.proto:22-28. *)
Definition kx_merge (m : kx_s) (bs : bytes) : res kx_s :=
  fs ← parse_raw bs; fold_fields kx_step m fs.
(** ParseFromString, protobuf/WhisperTextProtocol.proto:22-28. *)
Definition kx_parse (bs : bytes) : res kx_s := kx_merge kx_empty bs.
(** Values the setters can have produced, protobuf/WhisperTextProtocol.proto:22-28. *)
Definition kx_wf (m : kx_s) : Prop :=
  wfV m.(kx_id).

Lemma kx_fields_wf m : kx_wf m -> Forall wf_field (kx_fields m).
Proof.
  intros Hwf. unfold kx_wf in Hwf. unfold kx_fields. destruct_and? Hwf.
  repeat (apply Forall_app; split);
  first [apply wf_optB|apply wf_optV|apply wf_optI|apply wf_optT|apply wf_optF|apply wf_optM|apply wf_repM]; (done || lia).
Qed.
Lemma kx_roundtrip m : kx_wf m -> kx_parse (kx_enc m) = Ok m.
Proof.
  intros Hwf. unfold kx_parse, kx_merge, kx_enc.
  rewrite parse_raw_enc by (by apply kx_fields_wf). rewrite bind_ok.
  destruct m as [v0 v1 v2 v3 v4]. unfold kx_wf in Hwf. cbn in Hwf. destruct_and? Hwf.
  unfold kx_fields, kx_empty. cbn [kx_id kx_baseKey kx_ratchetKey kx_identityKey kx_baseKeySignature].
  assert (S0 : fold_fields kx_step (KxS None None None None None) (optV 1 v0) = Ok (KxS v0 None None None None)).
  { destruct v0; [|done]. cbn. by rewrite u32_small. }
  rewrite fold_fields_app, S0, bind_ok. clear S0.
  assert (S1 : fold_fields kx_step (KxS v0 None None None None) (optB 2 v1) = Ok (KxS v0 v1 None None None)).
  { by destruct v1. }
  rewrite fold_fields_app, S1, bind_ok. clear S1.
  assert (S2 : fold_fields kx_step (KxS v0 v1 None None None) (optB 3 v2) = Ok (KxS v0 v1 v2 None None)).
  { by destruct v2. }
  rewrite fold_fields_app, S2, bind_ok. clear S2.
  assert (S3 : fold_fields kx_step (KxS v0 v1 v2 None None) (optB 4 v3) = Ok (KxS v0 v1 v2 v3 None)).
  { by destruct v3. }
  rewrite fold_fields_app, S3, bind_ok. clear S3.
  assert (S4 : fold_fields kx_step (KxS v0 v1 v2 v3 None) (optB 5 v4) = Ok (KxS v0 v1 v2 v3 v4)).
  { by destruct v4. }
  exact S4.
Qed.

(** message SenderKeyMessage, protobuf/WhisperTextProtocol.proto:30-34 *)
Record sk_s := SkS {
  sk_id : option N;
  sk_iteration : option N;
  sk_ciphertext : option bytes }.
(** The message with no field set, protobuf/WhisperTextProtocol.proto:30-34. *)
Definition sk_empty : sk_s := SkS None None None.
(** Assignment to id, protobuf/WhisperTextProtocol.proto:30-34. *)
Definition sk_set_id (v : option N) (m : sk_s) : sk_s := SkS v (m.(sk_iteration)) (m.(sk_ciphertext)).
(** Assignment to iteration, protobuf/WhisperTextProtocol.proto:30-34. *)
Definition sk_set_iteration (v : option N) (m : sk_s) : sk_s := SkS (m.(sk_id)) v (m.(sk_ciphertext)).
(** Assignment to ciphertext, protobuf/WhisperTextProtocol.proto:30-34. *)
Definition sk_set_ciphertext (v : option bytes) (m : sk_s) : sk_s := SkS (m.(sk_id)) (m.(sk_iteration)) v.
(** SerializeToString: message SenderKeyMessage, protobuf/WhisperTextProtocol.proto:30-34 *)
Definition sk_fields (m : sk_s) : list wfield :=
  optV 1 m.(sk_id) ++
  optV 2 m.(sk_iteration) ++
  optB 3 m.(sk_ciphertext).
(** SerializeToString, protobuf/WhisperTextProtocol.proto:30-34. *)
Definition sk_enc (m : sk_s) : bytes := enc_fields (sk_fields m).
(** ParseFromString: message SenderKeyMessage, protobuf/WhisperTextProtocol.proto:30-34 *)
Definition sk_step (m : sk_s) (f : wfield) : res sk_s :=
  match f with
  | (1%N, WVar v) => Ok (sk_set_id (Some (u32 v)) m)
  | (2%N, WVar v) => Ok (sk_set_iteration (Some (u32 v)) m)
  | (3%N, WLen b) => Ok (sk_set_ciphertext (Some b) m)
  | _ => Ok m
  end.
(** MergeFromString, protobuf/WhisperTextProtocol.proto:30-34. *)
Definition sk_merge (m : sk_s) (bs : bytes) : res sk_s :=
  fs ← parse_raw bs; fold_fields sk_step m fs.
(** ParseFromString, protobuf/WhisperTextProtocol.proto:30-34. *)
Definition sk_parse (bs : bytes) : res sk_s := sk_merge sk_empty bs.
(** Values the setters can have produced, protobuf/WhisperTextProtocol.proto:30-34. *)
Definition sk_wf (m : sk_s) : Prop :=
  wfV m.(sk_id) /\ wfV m.(sk_iteration).

Lemma sk_fields_wf m : sk_wf m -> Forall wf_field (sk_fields m).
Proof.
  intros Hwf. unfold sk_wf in Hwf. unfold sk_fields. destruct_and? Hwf.
  repeat (apply Forall_app; split);
  first [apply wf_optB|apply wf_optV|apply wf_optI|apply wf_optT|apply wf_optF|apply wf_optM|apply wf_repM]; (done || lia).
Qed.
Lemma sk_roundtrip m : sk_wf m -> sk_parse (sk_enc m) = Ok m.
Proof.
  intros Hwf. unfold sk_parse, sk_merge, sk_enc.
  rewrite parse_raw_enc by (by apply sk_fields_wf). rewrite bind_ok.
  destruct m as [v0 v1 v2]. unfold sk_wf in Hwf. cbn in Hwf. destruct_and? Hwf.
  unfold sk_fields, sk_empty. cbn [sk_id sk_iteration sk_ciphertext].
  assert (S0 : fold_fields sk_step (SkS None None None) (optV 1 v0) = Ok (SkS v0 None None)).
  { destruct v0; [|done]. cbn. by rewrite u32_small. }
  rewrite fold_fields_app, S0, bind_ok. clear S0.
  assert (S1 : fold_fields sk_step (SkS v0 None None) (optV 2 v1) = Ok (SkS v0 v1 None)).
  { destruct v1; [|done]. cbn. by rewrite u32_small. }
  rewrite fold_fields_app, S1, bind_ok. clear S1.
  assert (S2 : fold_fields sk_step (SkS v0 v1 None) (optB 3 v2) = Ok (SkS v0 v1 v2)).
  { by destruct v2. }
  exact S2.
Qed.

(** message SenderKeyDistributionMessage, protobuf/WhisperTextProtocol.proto:36-41 *)
Record skd_s := SkdS {
  skd_id : option N;
  skd_iteration : option N;
  skd_chainKey : option bytes;
  skd_signingKey : option bytes }.
(** The message with no field set, protobuf/WhisperTextProtocol.proto:36-41. *)
Definition skd_empty : skd_s := SkdS None None None None.
(** Assignment to id, protobuf/WhisperTextProtocol.proto:36-41. *)
Definition skd_set_id (v : option N) (m : skd_s) : skd_s := SkdS v (m.(skd_iteration)) (m.(skd_chainKey)) (m.(skd_signingKey)).
(** Assignment to iteration, protobuf/WhisperTextProtocol.proto:36-41. *)
Definition skd_set_iteration (v : option N) (m : skd_s) : skd_s := SkdS (m.(skd_id)) v (m.(skd_chainKey)) (m.(skd_signingKey)).
(** Assignment to chainKey, protobuf/WhisperTextProtocol.proto:36-41. *)
Definition skd_set_chainKey (v : option bytes) (m : skd_s) : skd_s := SkdS (m.(skd_id)) (m.(skd_iteration)) v (m.(skd_signingKey)).
(** Assignment to signingKey, protobuf/WhisperTextProtocol.proto:36-41. *)
Definition skd_set_signingKey (v : option bytes) (m : skd_s) : skd_s := SkdS (m.(skd_id)) (m.(skd_iteration)) (m.(skd_chainKey)) v.
(** SerializeToString: message SenderKeyDistributionMessage, protobuf/WhisperTextProtocol.proto:36-41 *)
Definition skd_fields (m : skd_s) : list wfield :=
  optV 1 m.(skd_id) ++
  optV 2 m.(skd_iteration) ++
  optB 3 m.(skd_chainKey) ++
  optB 4 m.(skd_signingKey).
(** SerializeToString, protobuf/WhisperTextProtocol.proto:36-41. *)
Definition skd_enc (m : skd_s) : bytes := enc_fields (skd_fields m).
(** ParseFromString: message SenderKeyDistributionMessage, protobuf/WhisperTextProtocol.proto:36-41 *)
Definition skd_step (m : skd_s) (f : wfield) : res skd_s :=
  match f with
  | (1%N, WVar v) => Ok (skd_set_id (Some (u32 v)) m)
  | (2%N, WVar v) => Ok (skd_set_iteration (Some (u32 v)) m)
  | (3%N, WLen b) => Ok (skd_set_chainKey (Some b) m)
  | (4%N, WLen b) => Ok (skd_set_signingKey (Some b) m)
  | _ => Ok m
  end.
(** MergeFromString, protobuf/WhisperTextProtocol.proto:36-41. *)
Definition skd_merge (m : skd_s) (bs : bytes) : res skd_s :=
  fs ← parse_raw bs; fold_fields skd_step m fs.
(** ParseFromString, protobuf/WhisperTextProtocol.proto:36-41. *)
Definition skd_parse (bs : bytes) : res skd_s := skd_merge skd_empty bs.
(** Values the setters can have produced, protobuf/WhisperTextProtocol.proto:36-41. *)
Definition skd_wf (m : skd_s) : Prop :=
  wfV m.(skd_id) /\ wfV m.(skd_iteration).

Lemma skd_fields_wf m : skd_wf m -> Forall wf_field (skd_fields m).
Proof.
  intros Hwf. unfold skd_wf in Hwf. unfold skd_fields. destruct_and? Hwf.
  repeat (apply Forall_app; split);
  first [apply wf_optB|apply wf_optV|apply wf_optI|apply wf_optT|apply wf_optF|apply wf_optM|apply wf_repM]; (done || lia).
Qed.
Lemma skd_roundtrip m : skd_wf m -> skd_parse (skd_enc m) = Ok m.
Proof.
  intros Hwf. unfold skd_parse, skd_merge, skd_enc.
  rewrite parse_raw_enc by (by apply skd_fields_wf). rewrite bind_ok.
  destruct m as [v0 v1 v2 v3]. unfold skd_wf in Hwf. cbn in Hwf. destruct_and? Hwf.
  unfold skd_fields, skd_empty. cbn [skd_id skd_iteration skd_chainKey skd_signingKey].
  assert (S0 : fold_fields skd_step (SkdS None None None None) (optV 1 v0) = Ok (SkdS v0 None None None)).
  { destruct v0; [|done]. cbn. by rewrite u32_small. }
  rewrite fold_fields_app, S0, bind_ok. clear S0.
  assert (S1 : fold_fields skd_step (SkdS v0 None None None) (optV 2 v1) = Ok (SkdS v0 v1 None None)).
  { destruct v1; [|done]. cbn. by rewrite u32_small. }
  rewrite fold_fields_app, S1, bind_ok. clear S1.
  assert (S2 : fold_fields skd_step (SkdS v0 v1 None None) (optB 3 v2) = Ok (SkdS v0 v1 v2 None)).
  { by destruct v2. }
  rewrite fold_fields_app, S2, bind_ok. clear S2.
  assert (S3 : fold_fields skd_step (SkdS v0 v1 v2 None) (optB 4 v3) = Ok (SkdS v0 v1 v2 v3)).
  { by destruct v3. }
  exact S3.
Qed.

(** message SessionStructure.Chain.ChainKey, protobuf/LocalStorageProtocol.proto:11-14 *)
Record ck_s := CkS {
  ck_index : option N;
  ck_key : option bytes }.
(** The message with no field set, protobuf/LocalStorageProtocol.proto:11-14. *)
Definition ck_empty : ck_s := CkS None None.
(** Assignment to index, protobuf/LocalStorageProtocol.proto:11-14. *)
Definition ck_set_index (v : option N) (m : ck_s) : ck_s := CkS v (m.(ck_key)).
(** Assignment to key, protobuf/LocalStorageProtocol.proto:11-14. *)
Definition ck_set_key (v : option bytes) (m : ck_s) : ck_s := CkS (m.(ck_index)) v.
(** SerializeToString: message SessionStructure.Chain.ChainKey, protobuf/LocalStorageProtocol.proto:11-14 *)
Definition ck_fields (m : ck_s) : list wfield :=
  optV 1 m.(ck_index) ++
  optB 2 m.(ck_key).
(** SerializeToString, protobuf/LocalStorageProtocol.proto:11-14. *)
Definition ck_enc (m : ck_s) : bytes := enc_fields (ck_fields m).
(** ParseFromString: message SessionStructure.Chain.ChainKey, protobuf/LocalStorageProtocol.proto:11-14 *)
Definition ck_step (m : ck_s) (f : wfield) : res ck_s :=
  match f with
  | (1%N, WVar v) => Ok (ck_set_index (Some (u32 v)) m)
  | (2%N, WLen b) => Ok (ck_set_key (Some b) m)
  | _ => Ok m
  end.
(** MergeFromString, protobuf/LocalStorageProtocol.proto:11-14. *)
Definition ck_merge (m : ck_s) (bs : bytes) : res ck_s :=
  fs ← parse_raw bs; fold_fields ck_step m fs.
(** ParseFromString, protobuf/LocalStorageProtocol.proto:11-14. *)
Definition ck_parse (bs : bytes) : res ck_s := ck_merge ck_empty bs.
(** Values the setters can have produced, protobuf/LocalStorageProtocol.proto:11-14. *)
Definition ck_wf (m : ck_s) : Prop :=
  wfV m.(ck_index).

Lemma ck_fields_wf m : ck_wf m -> Forall wf_field (ck_fields m).
Proof.
  intros Hwf. unfold ck_wf in Hwf. unfold ck_fields. destruct_and? Hwf.
  repeat (apply Forall_app; split);
  first [apply wf_optB|apply wf_optV|apply wf_optI|apply wf_optT|apply wf_optF|apply wf_optM|apply wf_repM]; (done || lia).
Qed.
Lemma ck_roundtrip m : ck_wf m -> ck_parse (ck_enc m) = Ok m.
Proof.
  intros Hwf. unfold ck_parse, ck_merge, ck_enc.
  rewrite parse_raw_enc by (by apply ck_fields_wf). rewrite bind_ok.
  destruct m as [v0 v1]. unfold ck_wf in Hwf. cbn in Hwf. destruct_and? Hwf.
  unfold ck_fields, ck_empty. cbn [ck_index ck_key].
  assert (S0 : fold_fields ck_step (CkS None None) (optV 1 v0) = Ok (CkS v0 None)).
  { destruct v0; [|done]. cbn. by rewrite u32_small. }
  rewrite fold_fields_app, S0, bind_ok. clear S0.
  assert (S1 : fold_fields ck_step (CkS v0 None) (optB 2 v1) = Ok (CkS v0 v1)).
  { by destruct v1. }
  exact S1.
Qed.

(** message SessionStructure.Chain.MessageKey, protobuf/LocalStorageProtocol.proto:18-23 *)
Record mk_s := MkS {
  mk_index : option N;
  mk_cipherKey : option bytes;
  mk_macKey : option bytes;
  mk_iv : option bytes }.
(** The message with no field set, protobuf/LocalStorageProtocol.proto:18-23. *)
Definition mk_empty : mk_s := MkS None None None None.
(** Assignment to index, protobuf/LocalStorageProtocol.proto:18-23. *)
Definition mk_set_index (v : option N) (m : mk_s) : mk_s := MkS v (m.(mk_cipherKey)) (m.(mk_macKey)) (m.(mk_iv)).
(** Assignment to cipherKey, protobuf/LocalStorageProtocol.proto:18-23. *)
Definition mk_set_cipherKey (v : option bytes) (m : mk_s) : mk_s := MkS (m.(mk_index)) v (m.(mk_macKey)) (m.(mk_iv)).
(** Assignment to macKey, protobuf/LocalStorageProtocol.proto:18-23. *)
Definition mk_set_macKey (v : option bytes) (m : mk_s) : mk_s := MkS (m.(mk_index)) (m.(mk_cipherKey)) v (m.(mk_iv)).
(** Assignment to iv, protobuf/LocalStorageProtocol.proto:18-23. *)
Definition mk_set_iv (v : option bytes) (m : mk_s) : mk_s := MkS (m.(mk_index)) (m.(mk_cipherKey)) (m.(mk_macKey)) v.
(** SerializeToString: message SessionStructure.Chain.MessageKey, protobuf/LocalStorageProtocol.proto:18-23 *)
Definition mk_fields (m : mk_s) : list wfield :=
  optV 1 m.(mk_index) ++
  optB 2 m.(mk_cipherKey) ++
  optB 3 m.(mk_macKey) ++
  optB 4 m.(mk_iv).
(** SerializeToString, protobuf/LocalStorageProtocol.proto:18-23. *)
Definition mk_enc (m : mk_s) : bytes := enc_fields (mk_fields m).
(** ParseFromString: message SessionStructure.Chain.MessageKey, protobuf/LocalStorageProtocol.proto:18-23 *)
Definition mk_step (m : mk_s) (f : wfield) : res mk_s :=
  match f with
  | (1%N, WVar v) => Ok (mk_set_index (Some (u32 v)) m)
  | (2%N, WLen b) => Ok (mk_set_cipherKey (Some b) m)
  | (3%N, WLen b) => Ok (mk_set_macKey (Some b) m)
  | (4%N, WLen b) => Ok (mk_set_iv (Some b) m)
  | _ => Ok m
  end.
(** MergeFromString, protobuf/LocalStorageProtocol.proto:18-23. *)
Definition mk_merge (m : mk_s) (bs : bytes) : res mk_s :=
  fs ← parse_raw bs; fold_fields mk_step m fs.
(** ParseFromString, protobuf/LocalStorageProtocol.proto:18-23. *)
Definition mk_parse (bs : bytes) : res mk_s := mk_merge mk_empty bs.
(** Values the setters can have produced, protobuf/LocalStorageProtocol.proto:18-23. *)
Definition mk_wf (m : mk_s) : Prop :=
  wfV m.(mk_index).

Lemma mk_fields_wf m : mk_wf m -> Forall wf_field (mk_fields m).
Proof.
  intros Hwf. unfold mk_wf in Hwf. unfold mk_fields. destruct_and? Hwf.
  repeat (apply Forall_app; split);
  first [apply wf_optB|apply wf_optV|apply wf_optI|apply wf_optT|apply wf_optF|apply wf_optM|apply wf_repM]; (done || lia).
Qed.
Lemma mk_roundtrip m : mk_wf m -> mk_parse (mk_enc m) = Ok m.
Proof.
  intros Hwf. unfold mk_parse, mk_merge, mk_enc.
  rewrite parse_raw_enc by (by apply mk_fields_wf). rewrite bind_ok.
  destruct m as [v0 v1 v2 v3]. unfold mk_wf in Hwf. cbn in Hwf. destruct_and? Hwf.
  unfold mk_fields, mk_empty. cbn [mk_index mk_cipherKey mk_macKey mk_iv].
  assert (S0 : fold_fields mk_step (MkS None None None None) (optV 1 v0) = Ok (MkS v0 None None None)).
  { destruct v0; [|done]. cbn. by rewrite u32_small. }
  rewrite fold_fields_app, S0, bind_ok. clear S0.
  assert (S1 : fold_fields mk_step (MkS v0 None None None) (optB 2 v1) = Ok (MkS v0 v1 None None)).
  { by destruct v1. }
  rewrite fold_fields_app, S1, bind_ok. clear S1.
  assert (S2 : fold_fields mk_step (MkS v0 v1 None None) (optB 3 v2) = Ok (MkS v0 v1 v2 None)).
  { by destruct v2. }
  rewrite fold_fields_app, S2, bind_ok. clear S2.
  assert (S3 : fold_fields mk_step (MkS v0 v1 v2 None) (optB 4 v3) = Ok (MkS v0 v1 v2 v3)).
  { by destruct v3. }
  exact S3.
Qed.

(** message SessionStructure.Chain, protobuf/LocalStorageProtocol.proto:7-26 *)
Record ch_s := ChS {
  ch_ratchetKey : option bytes;
  ch_ratchetKeyPrivate : option bytes;
  ch_chainKey : option ck_s;
  ch_messageKeys : list mk_s }.
(** The message with no field set, protobuf/LocalStorageProtocol.proto:7-26. *)
Definition ch_empty : ch_s := ChS None None None [].
(** Assignment to ratchetKey, protobuf/LocalStorageProtocol.proto:7-26. *)
Definition ch_set_ratchetKey (v : option bytes) (m : ch_s) : ch_s := ChS v (m.(ch_ratchetKeyPrivate)) (m.(ch_chainKey)) (m.(ch_messageKeys)).
(** Assignment to ratchetKeyPrivate, protobuf/LocalStorageProtocol.proto:7-26. *)
Definition ch_set_ratchetKeyPrivate (v : option bytes) (m : ch_s) : ch_s := ChS (m.(ch_ratchetKey)) v (m.(ch_chainKey)) (m.(ch_messageKeys)).
(** Assignment to chainKey, protobuf/LocalStorageProtocol.proto:7-26. *)
Definition ch_set_chainKey (v : option ck_s) (m : ch_s) : ch_s := ChS (m.(ch_ratchetKey)) (m.(ch_ratchetKeyPrivate)) v (m.(ch_messageKeys)).
(** Assignment to messageKeys, protobuf/LocalStorageProtocol.proto:7-26. *)
Definition ch_set_messageKeys (v : list mk_s) (m : ch_s) : ch_s := ChS (m.(ch_ratchetKey)) (m.(ch_ratchetKeyPrivate)) (m.(ch_chainKey)) v.
(** SerializeToString: message SessionStructure.Chain, protobuf/LocalStorageProtocol.proto:7-26 *)
Definition ch_fields (m : ch_s) : list wfield :=
  optB 1 m.(ch_ratchetKey) ++
  optB 2 m.(ch_ratchetKeyPrivate) ++
  optM ck_enc 3 m.(ch_chainKey) ++
  repM mk_enc 4 m.(ch_messageKeys).
(** SerializeToString, protobuf/LocalStorageProtocol.proto:7-26. *)
Definition ch_enc (m : ch_s) : bytes := enc_fields (ch_fields m).
(** ParseFromString: message SessionStructure.Chain, protobuf/LocalStorageProtocol.proto:7-26 *)
Definition ch_step (m : ch_s) (f : wfield) : res ch_s :=
  match f with
  | (1%N, WLen b) => Ok (ch_set_ratchetKey (Some b) m)
  | (2%N, WLen b) => Ok (ch_set_ratchetKeyPrivate (Some b) m)
  | (3%N, WLen b) => c ← ck_merge (default ck_empty m.(ch_chainKey)) b; Ok (ch_set_chainKey (Some c) m)
  | (4%N, WLen b) => c ← mk_merge mk_empty b; Ok (ch_set_messageKeys (m.(ch_messageKeys) ++ [c]) m)
  | _ => Ok m
  end.
(** MergeFromString, protobuf/LocalStorageProtocol.proto:7-26. *)
Definition ch_merge (m : ch_s) (bs : bytes) : res ch_s :=
  fs ← parse_raw bs; fold_fields ch_step m fs.
(** ParseFromString, protobuf/LocalStorageProtocol.proto:7-26. *)
Definition ch_parse (bs : bytes) : res ch_s := ch_merge ch_empty bs.
(** Values the setters can have produced, protobuf/LocalStorageProtocol.proto:7-26. *)
Definition ch_wf (m : ch_s) : Prop :=
  wfM ck_wf m.(ch_chainKey) /\ Forall mk_wf m.(ch_messageKeys).

Lemma ch_fields_wf m : ch_wf m -> Forall wf_field (ch_fields m).
Proof.
  intros Hwf. unfold ch_wf in Hwf. unfold ch_fields. destruct_and? Hwf.
  repeat (apply Forall_app; split);
  first [apply wf_optB|apply wf_optV|apply wf_optI|apply wf_optT|apply wf_optF|apply wf_optM|apply wf_repM]; (done || lia).
Qed.
Lemma ch_roundtrip m : ch_wf m -> ch_parse (ch_enc m) = Ok m.
Proof.
  intros Hwf. unfold ch_parse, ch_merge, ch_enc.
  rewrite parse_raw_enc by (by apply ch_fields_wf). rewrite bind_ok.
  destruct m as [v0 v1 v2 v3]. unfold ch_wf in Hwf. cbn in Hwf. destruct_and? Hwf.
  unfold ch_fields, ch_empty. cbn [ch_ratchetKey ch_ratchetKeyPrivate ch_chainKey ch_messageKeys].
  assert (S0 : fold_fields ch_step (ChS None None None []) (optB 1 v0) = Ok (ChS v0 None None [])).
  { by destruct v0. }
  rewrite fold_fields_app, S0, bind_ok. clear S0.
  assert (S1 : fold_fields ch_step (ChS v0 None None []) (optB 2 v1) = Ok (ChS v0 v1 None [])).
  { by destruct v1. }
  rewrite fold_fields_app, S1, bind_ok. clear S1.
  assert (S2 : fold_fields ch_step (ChS v0 v1 None []) (optM ck_enc 3 v2) = Ok (ChS v0 v1 v2 [])).
  { destruct v2 as [x|]; [|done]. cbn -[ck_merge ck_enc].
    change (ck_merge ck_empty (ck_enc x)) with (ck_parse (ck_enc x)). by rewrite ck_roundtrip. }
  rewrite fold_fields_app, S2, bind_ok. clear S2.
  assert (S3 : fold_fields ch_step (ChS v0 v1 v2 []) (repM mk_enc 4 v3) = Ok (ChS v0 v1 v2 v3)).
  { cut (forall acc, fold_fields ch_step (ChS v0 v1 v2 (acc)) (repM mk_enc 4 v3) = Ok (ChS v0 v1 v2 (acc ++ v3))).
    { intros Hacc. apply (Hacc []). }
    match goal with H : Forall mk_wf v3 |- _ => induction H as [|x l Hx Hl IH] end; intros acc;
    [by rewrite app_nil_r|]. cbn [repM map fold_fields]. cbn -[mk_merge mk_enc fold_fields].
    change (mk_merge mk_empty (mk_enc x)) with (mk_parse (mk_enc x)).
    rewrite mk_roundtrip by done. rewrite bind_ok. etransitivity; [exact (IH (acc ++ [x]))|]. by rewrite <- app_assoc. }
  exact S3.
Qed.

(** message SessionStructure.PendingKeyExchange, protobuf/LocalStorageProtocol.proto:28-36 *)
Record px_s := PxS {
  px_sequence : option N;
  px_baseKey : option bytes;
  px_baseKeyPrivate : option bytes;
  px_ratchetKey : option bytes;
  px_ratchetKeyPrivate : option bytes;
  px_identityKey : option bytes;
  px_identityKeyPrivate : option bytes }.
(** The message with no field set, protobuf/LocalStorageProtocol.proto:28-36. *)
Definition px_empty : px_s := PxS None None None None None None None.
(** Assignment to sequence, protobuf/LocalStorageProtocol.proto:28-36. *)
Definition px_set_sequence (v : option N) (m : px_s) : px_s := PxS v (m.(px_baseKey)) (m.(px_baseKeyPrivate)) (m.(px_ratchetKey)) (m.(px_ratchetKeyPrivate)) (m.(px_identityKey)) (m.(px_identityKeyPrivate)).
(** Assignment to baseKey, protobuf/LocalStorageProtocol.proto:28-36. *)
Definition px_set_baseKey (v : option bytes) (m : px_s) : px_s := PxS (m.(px_sequence)) v (m.(px_baseKeyPrivate)) (m.(px_ratchetKey)) (m.(px_ratchetKeyPrivate)) (m.(px_identityKey)) (m.(px_identityKeyPrivate)).
(** Assignment to baseKeyPrivate, protobuf/LocalStorageProtocol.proto:28-36. *)
Definition px_set_baseKeyPrivate (v : option bytes) (m : px_s) : px_s := PxS (m.(px_sequence)) (m.(px_baseKey)) v (m.(px_ratchetKey)) (m.(px_ratchetKeyPrivate)) (m.(px_identityKey)) (m.(px_identityKeyPrivate)).
(** Assignment to ratchetKey, protobuf/LocalStorageProtocol.proto:28-36. *)
Definition px_set_ratchetKey (v : option bytes) (m : px_s) : px_s := PxS (m.(px_sequence)) (m.(px_baseKey)) (m.(px_baseKeyPrivate)) v (m.(px_ratchetKeyPrivate)) (m.(px_identityKey)) (m.(px_identityKeyPrivate)).
(** Assignment to ratchetKeyPrivate, protobuf/LocalStorageProtocol.proto:28-36. *)
Definition px_set_ratchetKeyPrivate (v : option bytes) (m : px_s) : px_s := PxS (m.(px_sequence)) (m.(px_baseKey)) (m.(px_baseKeyPrivate)) (m.(px_ratchetKey)) v (m.(px_identityKey)) (m.(px_identityKeyPrivate)).
(** Assignment to identityKey, protobuf/LocalStorageProtocol.proto:28-36. *)
Definition px_set_identityKey (v : option bytes) (m : px_s) : px_s := PxS (m.(px_sequence)) (m.(px_baseKey)) (m.(px_baseKeyPrivate)) (m.(px_ratchetKey)) (m.(px_ratchetKeyPrivate)) v (m.(px_identityKeyPrivate)).
(** Assignment to identityKeyPrivate, protobuf/LocalStorageProtocol.proto:28-36. *)
Definition px_set_identityKeyPrivate (v : option bytes) (m : px_s) : px_s := PxS (m.(px_sequence)) (m.(px_baseKey)) (m.(px_baseKeyPrivate)) (m.(px_ratchetKey)) (m.(px_ratchetKeyPrivate)) (m.(px_identityKey)) v.
(** SerializeToString: message SessionStructure.PendingKeyExchange, protobuf/LocalStorageProtocol.proto:28-36 *)
Definition px_fields (m : px_s) : list wfield :=
  optV 1 m.(px_sequence) ++
  optB 2 m.(px_baseKey) ++
  optB 3 m.(px_baseKeyPrivate) ++
  optB 4 m.(px_ratchetKey) ++
  optB 5 m.(px_ratchetKeyPrivate) ++
  optB 7 m.(px_identityKey) ++
  optB 8 m.(px_identityKeyPrivate).
(** SerializeToString, protobuf/LocalStorageProtocol.proto:28-36. *)
Definition px_enc (m : px_s) : bytes := enc_fields (px_fields m).
(** ParseFromString: message SessionStructure.PendingKeyExchange, protobuf/LocalStorageProtocol.proto:28-36 *)
Definition px_step (m : px_s) (f : wfield) : res px_s :=
  match f with
  | (1%N, WVar v) => Ok (px_set_sequence (Some (u32 v)) m)
  | (2%N, WLen b) => Ok (px_set_baseKey (Some b) m)
  | (3%N, WLen b) => Ok (px_set_baseKeyPrivate (Some b) m)
  | (4%N, WLen b) => Ok (px_set_ratchetKey (Some b) m)
  | (5%N, WLen b) => Ok (px_set_ratchetKeyPrivate (Some b) m)
  | (7%N, WLen b) => Ok (px_set_identityKey (Some b) m)
  | (8%N, WLen b) => Ok (px_set_identityKeyPrivate (Some b) m)
  | _ => Ok m
  end.
(** MergeFromString, protobuf/LocalStorageProtocol.proto:28-36. *)
Definition px_merge (m : px_s) (bs : bytes) : res px_s :=
  fs ← parse_raw bs; fold_fields px_step m fs.
(** ParseFromString, protobuf/LocalStorageProtocol.proto:28-36. *)
Definition px_parse (bs : bytes) : res px_s := px_merge px_empty bs.
(** Values the setters can have produced, protobuf/LocalStorageProtocol.proto:28-36. *)
Definition px_wf (m : px_s) : Prop :=
  wfV m.(px_sequence).

Lemma px_fields_wf m : px_wf m -> Forall wf_field (px_fields m).
Proof.
  intros Hwf. unfold px_wf in Hwf. unfold px_fields. destruct_and? Hwf.
  repeat (apply Forall_app; split);
  first [apply wf_optB|apply wf_optV|apply wf_optI|apply wf_optT|apply wf_optF|apply wf_optM|apply wf_repM]; (done || lia).
Qed.
Lemma px_roundtrip m : px_wf m -> px_parse (px_enc m) = Ok m.
Proof.
  intros Hwf. unfold px_parse, px_merge, px_enc.
  rewrite parse_raw_enc by (by apply px_fields_wf). rewrite bind_ok.
  destruct m as [v0 v1 v2 v3 v4 v5 v6]. unfold px_wf in Hwf. cbn in Hwf. destruct_and? Hwf.
  unfold px_fields, px_empty. cbn [px_sequence px_baseKey px_baseKeyPrivate px_ratchetKey px_ratchetKeyPrivate px_identityKey px_identityKeyPrivate].
  assert (S0 : fold_fields px_step (PxS None None None None None None None) (optV 1 v0) = Ok (PxS v0 None None None None None None)).
  { destruct v0; [|done]. cbn. by rewrite u32_small. }
  rewrite fold_fields_app, S0, bind_ok. clear S0.
  assert (S1 : fold_fields px_step (PxS v0 None None None None None None) (optB 2 v1) = Ok (PxS v0 v1 None None None None None)).
  { by destruct v1. }
  rewrite fold_fields_app, S1, bind_ok. clear S1.
  assert (S2 : fold_fields px_step (PxS v0 v1 None None None None None) (optB 3 v2) = Ok (PxS v0 v1 v2 None None None None)).
  { by destruct v2. }
  rewrite fold_fields_app, S2, bind_ok. clear S2.
  assert (S3 : fold_fields px_step (PxS v0 v1 v2 None None None None) (optB 4 v3) = Ok (PxS v0 v1 v2 v3 None None None)).
  { by destruct v3. }
  rewrite fold_fields_app, S3, bind_ok. clear S3.
  assert (S4 : fold_fields px_step (PxS v0 v1 v2 v3 None None None) (optB 5 v4) = Ok (PxS v0 v1 v2 v3 v4 None None)).
  { by destruct v4. }
  rewrite fold_fields_app, S4, bind_ok. clear S4.
  assert (S5 : fold_fields px_step (PxS v0 v1 v2 v3 v4 None None) (optB 7 v5) = Ok (PxS v0 v1 v2 v3 v4 v5 None)).
  { by destruct v5. }
  rewrite fold_fields_app, S5, bind_ok. clear S5.
  assert (S6 : fold_fields px_step (PxS v0 v1 v2 v3 v4 v5 None) (optB 8 v6) = Ok (PxS v0 v1 v2 v3 v4 v5 v6)).
  { by destruct v6. }
  exact S6.
Qed.

(** message SessionStructure.PendingPreKey, protobuf/LocalStorageProtocol.proto:38-42 *)
Record pp_s := PpS {
  pp_preKeyId : option N;
  pp_baseKey : option bytes;
  pp_signedPreKeyId : option Z }.
(** The message with no field set, protobuf/LocalStorageProtocol.proto:38-42. *)
Definition pp_empty : pp_s := PpS None None None.
(** Assignment to preKeyId, protobuf/LocalStorageProtocol.proto:38-42. *)
Definition pp_set_preKeyId (v : option N) (m : pp_s) : pp_s := PpS v (m.(pp_baseKey)) (m.(pp_signedPreKeyId)).
(** Assignment to baseKey, protobuf/LocalStorageProtocol.proto:38-42. *)
Definition pp_set_baseKey (v : option bytes) (m : pp_s) : pp_s := PpS (m.(pp_preKeyId)) v (m.(pp_signedPreKeyId)).
(** Assignment to signedPreKeyId, protobuf/LocalStorageProtocol.proto:38-42. *)
Definition pp_set_signedPreKeyId (v : option Z) (m : pp_s) : pp_s := PpS (m.(pp_preKeyId)) (m.(pp_baseKey)) v.
(** SerializeToString: message SessionStructure.PendingPreKey, protobuf/LocalStorageProtocol.proto:38-42 *)
Definition pp_fields (m : pp_s) : list wfield :=
  optV 1 m.(pp_preKeyId) ++
  optB 2 m.(pp_baseKey) ++
  optI 3 m.(pp_signedPreKeyId).
(** SerializeToString, protobuf/LocalStorageProtocol.proto:38-42. *)
Definition pp_enc (m : pp_s) : bytes := enc_fields (pp_fields m).
(** ParseFromString: message SessionStructure.PendingPreKey, protobuf/LocalStorageProtocol.proto:38-42 *)
Definition pp_step (m : pp_s) (f : wfield) : res pp_s :=
  match f with
  | (1%N, WVar v) => Ok (pp_set_preKeyId (Some (u32 v)) m)
  | (2%N, WLen b) => Ok (pp_set_baseKey (Some b) m)
  | (3%N, WVar v) => Ok (pp_set_signedPreKeyId (Some (i32 v)) m)
  | _ => Ok m
  end.
(** MergeFromString, protobuf/LocalStorageProtocol.proto:38-42. *)
Definition pp_merge (m : pp_s) (bs : bytes) : res pp_s :=
  fs ← parse_raw bs; fold_fields pp_step m fs.
(** ParseFromString, protobuf/LocalStorageProtocol.proto:38-42. *)
Definition pp_parse (bs : bytes) : res pp_s := pp_merge pp_empty bs.
(** Values the setters can have produced, protobuf/LocalStorageProtocol.proto:38-42. *)
Definition pp_wf (m : pp_s) : Prop :=
  wfV m.(pp_preKeyId) /\ wfI m.(pp_signedPreKeyId).

Lemma pp_fields_wf m : pp_wf m -> Forall wf_field (pp_fields m).
Proof.
  intros Hwf. unfold pp_wf in Hwf. unfold pp_fields. destruct_and? Hwf.
  repeat (apply Forall_app; split);
  first [apply wf_optB|apply wf_optV|apply wf_optI|apply wf_optT|apply wf_optF|apply wf_optM|apply wf_repM]; (done || lia).
Qed.
Lemma pp_roundtrip m : pp_wf m -> pp_parse (pp_enc m) = Ok m.
Proof.
  intros Hwf. unfold pp_parse, pp_merge, pp_enc.
  rewrite parse_raw_enc by (by apply pp_fields_wf). rewrite bind_ok.
  destruct m as [v0 v1 v2]. unfold pp_wf in Hwf. cbn in Hwf. destruct_and? Hwf.
  unfold pp_fields, pp_empty. cbn [pp_preKeyId pp_baseKey pp_signedPreKeyId].
  assert (S0 : fold_fields pp_step (PpS None None None) (optV 1 v0) = Ok (PpS v0 None None)).
  { destruct v0; [|done]. cbn. by rewrite u32_small. }
  rewrite fold_fields_app, S0, bind_ok. clear S0.
  assert (S1 : fold_fields pp_step (PpS v0 None None) (optB 2 v1) = Ok (PpS v0 v1 None)).
  { by destruct v1. }
  rewrite fold_fields_app, S1, bind_ok. clear S1.
  assert (S2 : fold_fields pp_step (PpS v0 v1 None) (optI 3 v2) = Ok (PpS v0 v1 v2)).
  { destruct v2 as [z|]; [|done]. cbn [optI fold_fields]. cbn -[i32 i32_enc]. by rewrite i32_i32_enc. }
  exact S2.
Qed.

(** message SessionStructure, protobuf/LocalStorageProtocol.proto:6-62 *)
Record ss_s := SsS {
  ss_version : option N;
  ss_localIdentity : option bytes;
  ss_remoteIdentity : option bytes;
  ss_rootKey : option bytes;
  ss_previousCounter : option N;
  ss_senderChain : option ch_s;
  ss_receiverChains : list ch_s;
  ss_pendingKeyExchange : option px_s;
  ss_pendingPreKey : option pp_s;
  ss_remoteRegId : option N;
  ss_localRegId : option N;
  ss_needsRefresh : option bool;
  ss_aliceBaseKey : option bytes }.
(** The message with no field set, protobuf/LocalStorageProtocol.proto:6-62. *)
Definition ss_empty : ss_s := SsS None None None None None None [] None None None None None None.
(** Assignment to version, protobuf/LocalStorageProtocol.proto:6-62. *)
Definition ss_set_version (v : option N) (m : ss_s) : ss_s := SsS v (m.(ss_localIdentity)) (m.(ss_remoteIdentity)) (m.(ss_rootKey)) (m.(ss_previousCounter)) (m.(ss_senderChain)) (m.(ss_receiverChains)) (m.(ss_pendingKeyExchange)) (m.(ss_pendingPreKey)) (m.(ss_remoteRegId)) (m.(ss_localRegId)) (m.(ss_needsRefresh)) (m.(ss_aliceBaseKey)).
(** Assignment to localIdentity, protobuf/LocalStorageProtocol.proto:6-62. *)
Definition ss_set_localIdentity (v : option bytes) (m : ss_s) : ss_s := SsS (m.(ss_version)) v (m.(ss_remoteIdentity)) (m.(ss_rootKey)) (m.(ss_previousCounter)) (m.(ss_senderChain)) (m.(ss_receiverChains)) (m.(ss_pendingKeyExchange)) (m.(ss_pendingPreKey)) (m.(ss_remoteRegId)) (m.(ss_localRegId)) (m.(ss_needsRefresh)) (m.(ss_aliceBaseKey)).
(** Assignment to remoteIdentity, protobuf/LocalStorageProtocol.proto:6-62. *)
Definition ss_set_remoteIdentity (v : option bytes) (m : ss_s) : ss_s := SsS (m.(ss_version)) (m.(ss_localIdentity)) v (m.(ss_rootKey)) (m.(ss_previousCounter)) (m.(ss_senderChain)) (m.(ss_receiverChains)) (m.(ss_pendingKeyExchange)) (m.(ss_pendingPreKey)) (m.(ss_remoteRegId)) (m.(ss_localRegId)) (m.(ss_needsRefresh)) (m.(ss_aliceBaseKey)).
(** Assignment to rootKey, protobuf/LocalStorageProtocol.proto:6-62. *)
Definition ss_set_rootKey (v : option bytes) (m : ss_s) : ss_s := SsS (m.(ss_version)) (m.(ss_localIdentity)) (m.(ss_remoteIdentity)) v (m.(ss_previousCounter)) (m.(ss_senderChain)) (m.(ss_receiverChains)) (m.(ss_pendingKeyExchange)) (m.(ss_pendingPreKey)) (m.(ss_remoteRegId)) (m.(ss_localRegId)) (m.(ss_needsRefresh)) (m.(ss_aliceBaseKey)).
(** Assignment to previousCounter, protobuf/LocalStorageProtocol.proto:6-62. *)
Definition ss_set_previousCounter (v : option N) (m : ss_s) : ss_s := SsS (m.(ss_version)) (m.(ss_localIdentity)) (m.(ss_remoteIdentity)) (m.(ss_rootKey)) v (m.(ss_senderChain)) (m.(ss_receiverChains)) (m.(ss_pendingKeyExchange)) (m.(ss_pendingPreKey)) (m.(ss_remoteRegId)) (m.(ss_localRegId)) (m.(ss_needsRefresh)) (m.(ss_aliceBaseKey)).
(** Assignment to senderChain, protobuf/LocalStorageProtocol.proto:6-62. *)
Definition ss_set_senderChain (v : option ch_s) (m : ss_s) : ss_s := SsS (m.(ss_version)) (m.(ss_localIdentity)) (m.(ss_remoteIdentity)) (m.(ss_rootKey)) (m.(ss_previousCounter)) v (m.(ss_receiverChains)) (m.(ss_pendingKeyExchange)) (m.(ss_pendingPreKey)) (m.(ss_remoteRegId)) (m.(ss_localRegId)) (m.(ss_needsRefresh)) (m.(ss_aliceBaseKey)).
(** Assignment to receiverChains, protobuf/LocalStorageProtocol.proto:6-62. *)
Definition ss_set_receiverChains (v : list ch_s) (m : ss_s) : ss_s := SsS (m.(ss_version)) (m.(ss_localIdentity)) (m.(ss_remoteIdentity)) (m.(ss_rootKey)) (m.(ss_previousCounter)) (m.(ss_senderChain)) v (m.(ss_pendingKeyExchange)) (m.(ss_pendingPreKey)) (m.(ss_remoteRegId)) (m.(ss_localRegId)) (m.(ss_needsRefresh)) (m.(ss_aliceBaseKey)).
(** Assignment to pendingKeyExchange, protobuf/LocalStorageProtocol.proto:6-62. *)
Definition ss_set_pendingKeyExchange (v : option px_s) (m : ss_s) : ss_s := SsS (m.(ss_version)) (m.(ss_localIdentity)) (m.(ss_remoteIdentity)) (m.(ss_rootKey)) (m.(ss_previousCounter)) (m.(ss_senderChain)) (m.(ss_receiverChains)) v (m.(ss_pendingPreKey)) (m.(ss_remoteRegId)) (m.(ss_localRegId)) (m.(ss_needsRefresh)) (m.(ss_aliceBaseKey)).
(** Assignment to pendingPreKey, protobuf/LocalStorageProtocol.proto:6-62. *)
Definition ss_set_pendingPreKey (v : option pp_s) (m : ss_s) : ss_s := SsS (m.(ss_version)) (m.(ss_localIdentity)) (m.(ss_remoteIdentity)) (m.(ss_rootKey)) (m.(ss_previousCounter)) (m.(ss_senderChain)) (m.(ss_receiverChains)) (m.(ss_pendingKeyExchange)) v (m.(ss_remoteRegId)) (m.(ss_localRegId)) (m.(ss_needsRefresh)) (m.(ss_aliceBaseKey)).
(** Assignment to remoteRegId, protobuf/LocalStorageProtocol.proto:6-62. *)
Definition ss_set_remoteRegId (v : option N) (m : ss_s) : ss_s := SsS (m.(ss_version)) (m.(ss_localIdentity)) (m.(ss_remoteIdentity)) (m.(ss_rootKey)) (m.(ss_previousCounter)) (m.(ss_senderChain)) (m.(ss_receiverChains)) (m.(ss_pendingKeyExchange)) (m.(ss_pendingPreKey)) v (m.(ss_localRegId)) (m.(ss_needsRefresh)) (m.(ss_aliceBaseKey)).
(** Assignment to localRegId, protobuf/LocalStorageProtocol.proto:6-62. *)
Definition ss_set_localRegId (v : option N) (m : ss_s) : ss_s := SsS (m.(ss_version)) (m.(ss_localIdentity)) (m.(ss_remoteIdentity)) (m.(ss_rootKey)) (m.(ss_previousCounter)) (m.(ss_senderChain)) (m.(ss_receiverChains)) (m.(ss_pendingKeyExchange)) (m.(ss_pendingPreKey)) (m.(ss_remoteRegId)) v (m.(ss_needsRefresh)) (m.(ss_aliceBaseKey)).
(** Assignment to needsRefresh, protobuf/LocalStorageProtocol.proto:6-62. *)
Definition ss_set_needsRefresh (v : option bool) (m : ss_s) : ss_s := SsS (m.(ss_version)) (m.(ss_localIdentity)) (m.(ss_remoteIdentity)) (m.(ss_rootKey)) (m.(ss_previousCounter)) (m.(ss_senderChain)) (m.(ss_receiverChains)) (m.(ss_pendingKeyExchange)) (m.(ss_pendingPreKey)) (m.(ss_remoteRegId)) (m.(ss_localRegId)) v (m.(ss_aliceBaseKey)).
(** Assignment to aliceBaseKey, protobuf/LocalStorageProtocol.proto:6-62. *)
Definition ss_set_aliceBaseKey (v : option bytes) (m : ss_s) : ss_s := SsS (m.(ss_version)) (m.(ss_localIdentity)) (m.(ss_remoteIdentity)) (m.(ss_rootKey)) (m.(ss_previousCounter)) (m.(ss_senderChain)) (m.(ss_receiverChains)) (m.(ss_pendingKeyExchange)) (m.(ss_pendingPreKey)) (m.(ss_remoteRegId)) (m.(ss_localRegId)) (m.(ss_needsRefresh)) v.
(** SerializeToString: message SessionStructure, protobuf/LocalStorageProtocol.proto:6-62 *)
Definition ss_fields (m : ss_s) : list wfield :=
  optV 1 m.(ss_version) ++
  optB 2 m.(ss_localIdentity) ++
  optB 3 m.(ss_remoteIdentity) ++
  optB 4 m.(ss_rootKey) ++
  optV 5 m.(ss_previousCounter) ++
  optM ch_enc 6 m.(ss_senderChain) ++
  repM ch_enc 7 m.(ss_receiverChains) ++
  optM px_enc 8 m.(ss_pendingKeyExchange) ++
  optM pp_enc 9 m.(ss_pendingPreKey) ++
  optV 10 m.(ss_remoteRegId) ++
  optV 11 m.(ss_localRegId) ++
  optT 12 m.(ss_needsRefresh) ++
  optB 13 m.(ss_aliceBaseKey).
(** SerializeToString, protobuf/LocalStorageProtocol.proto:6-62. *)
Definition ss_enc (m : ss_s) : bytes := enc_fields (ss_fields m).
(** ParseFromString: message SessionStructure, protobuf/LocalStorageProtocol.proto:6-62 *)
Definition ss_step (m : ss_s) (f : wfield) : res ss_s :=
  match f with
  | (1%N, WVar v) => Ok (ss_set_version (Some (u32 v)) m)
  | (2%N, WLen b) => Ok (ss_set_localIdentity (Some b) m)
  | (3%N, WLen b) => Ok (ss_set_remoteIdentity (Some b) m)
  | (4%N, WLen b) => Ok (ss_set_rootKey (Some b) m)
  | (5%N, WVar v) => Ok (ss_set_previousCounter (Some (u32 v)) m)
  | (6%N, WLen b) => c ← ch_merge (default ch_empty m.(ss_senderChain)) b; Ok (ss_set_senderChain (Some c) m)
  | (7%N, WLen b) => c ← ch_merge ch_empty b; Ok (ss_set_receiverChains (m.(ss_receiverChains) ++ [c]) m)
  | (8%N, WLen b) => c ← px_merge (default px_empty m.(ss_pendingKeyExchange)) b; Ok (ss_set_pendingKeyExchange (Some c) m)
  | (9%N, WLen b) => c ← pp_merge (default pp_empty m.(ss_pendingPreKey)) b; Ok (ss_set_pendingPreKey (Some c) m)
  | (10%N, WVar v) => Ok (ss_set_remoteRegId (Some (u32 v)) m)
  | (11%N, WVar v) => Ok (ss_set_localRegId (Some (u32 v)) m)
  | (12%N, WVar v) => Ok (ss_set_needsRefresh (Some (negb (v =? 0)%N)) m)
  | (13%N, WLen b) => Ok (ss_set_aliceBaseKey (Some b) m)
  | _ => Ok m
  end.
(** MergeFromString, protobuf/LocalStorageProtocol.proto:6-62. *)
Definition ss_merge (m : ss_s) (bs : bytes) : res ss_s :=
  fs ← parse_raw bs; fold_fields ss_step m fs.
(** ParseFromString, protobuf/LocalStorageProtocol.proto:6-62. *)
Definition ss_parse (bs : bytes) : res ss_s := ss_merge ss_empty bs.
(** Values the setters can have produced, protobuf/LocalStorageProtocol.proto:6-62. *)
Definition ss_wf (m : ss_s) : Prop :=
  wfV m.(ss_version) /\ wfV m.(ss_previousCounter) /\ wfM ch_wf m.(ss_senderChain) /\ Forall ch_wf m.(ss_receiverChains) /\ wfM px_wf m.(ss_pendingKeyExchange) /\ wfM pp_wf m.(ss_pendingPreKey) /\ wfV m.(ss_remoteRegId) /\ wfV m.(ss_localRegId).

Lemma ss_fields_wf m : ss_wf m -> Forall wf_field (ss_fields m).
Proof.
  intros Hwf. unfold ss_wf in Hwf. unfold ss_fields. destruct_and? Hwf.
  repeat (apply Forall_app; split);
  first [apply wf_optB|apply wf_optV|apply wf_optI|apply wf_optT|apply wf_optF|apply wf_optM|apply wf_repM]; (done || lia).
Qed.
Lemma ss_roundtrip m : ss_wf m -> ss_parse (ss_enc m) = Ok m.
Proof.
  intros Hwf. unfold ss_parse, ss_merge, ss_enc.
  rewrite parse_raw_enc by (by apply ss_fields_wf). rewrite bind_ok.
  destruct m as [v0 v1 v2 v3 v4 v5 v6 v7 v8 v9 v10 v11 v12]. unfold ss_wf in Hwf. cbn in Hwf. destruct_and? Hwf.
  unfold ss_fields, ss_empty. cbn [ss_version ss_localIdentity ss_remoteIdentity ss_rootKey ss_previousCounter ss_senderChain ss_receiverChains ss_pendingKeyExchange ss_pendingPreKey ss_remoteRegId ss_localRegId ss_needsRefresh ss_aliceBaseKey].
  assert (S0 : fold_fields ss_step (SsS None None None None None None [] None None None None None None) (optV 1 v0) = Ok (SsS v0 None None None None None [] None None None None None None)).
  { destruct v0; [|done]. cbn. by rewrite u32_small. }
  rewrite fold_fields_app, S0, bind_ok. clear S0.
  assert (S1 : fold_fields ss_step (SsS v0 None None None None None [] None None None None None None) (optB 2 v1) = Ok (SsS v0 v1 None None None None [] None None None None None None)).
  { by destruct v1. }
  rewrite fold_fields_app, S1, bind_ok. clear S1.
  assert (S2 : fold_fields ss_step (SsS v0 v1 None None None None [] None None None None None None) (optB 3 v2) = Ok (SsS v0 v1 v2 None None None [] None None None None None None)).
  { by destruct v2. }
  rewrite fold_fields_app, S2, bind_ok. clear S2.
  assert (S3 : fold_fields ss_step (SsS v0 v1 v2 None None None [] None None None None None None) (optB 4 v3) = Ok (SsS v0 v1 v2 v3 None None [] None None None None None None)).
  { by destruct v3. }
  rewrite fold_fields_app, S3, bind_ok. clear S3.
  assert (S4 : fold_fields ss_step (SsS v0 v1 v2 v3 None None [] None None None None None None) (optV 5 v4) = Ok (SsS v0 v1 v2 v3 v4 None [] None None None None None None)).
  { destruct v4; [|done]. cbn. by rewrite u32_small. }
  rewrite fold_fields_app, S4, bind_ok. clear S4.
  assert (S5 : fold_fields ss_step (SsS v0 v1 v2 v3 v4 None [] None None None None None None) (optM ch_enc 6 v5) = Ok (SsS v0 v1 v2 v3 v4 v5 [] None None None None None None)).
  { destruct v5 as [x|]; [|done]. cbn -[ch_merge ch_enc].
    change (ch_merge ch_empty (ch_enc x)) with (ch_parse (ch_enc x)). by rewrite ch_roundtrip. }
  rewrite fold_fields_app, S5, bind_ok. clear S5.
  assert (S6 : fold_fields ss_step (SsS v0 v1 v2 v3 v4 v5 [] None None None None None None) (repM ch_enc 7 v6) = Ok (SsS v0 v1 v2 v3 v4 v5 v6 None None None None None None)).
  { cut (forall acc, fold_fields ss_step (SsS v0 v1 v2 v3 v4 v5 (acc) None None None None None None) (repM ch_enc 7 v6) = Ok (SsS v0 v1 v2 v3 v4 v5 (acc ++ v6) None None None None None None)).
    { intros Hacc. apply (Hacc []). }
    match goal with H : Forall ch_wf v6 |- _ => induction H as [|x l Hx Hl IH] end; intros acc;
    [by rewrite app_nil_r|]. cbn [repM map fold_fields]. cbn -[ch_merge ch_enc fold_fields].
    change (ch_merge ch_empty (ch_enc x)) with (ch_parse (ch_enc x)).
    rewrite ch_roundtrip by done. rewrite bind_ok. etransitivity; [exact (IH (acc ++ [x]))|]. by rewrite <- app_assoc. }
  rewrite fold_fields_app, S6, bind_ok. clear S6.
  assert (S7 : fold_fields ss_step (SsS v0 v1 v2 v3 v4 v5 v6 None None None None None None) (optM px_enc 8 v7) = Ok (SsS v0 v1 v2 v3 v4 v5 v6 v7 None None None None None)).
  { destruct v7 as [x|]; [|done]. cbn -[px_merge px_enc].
    change (px_merge px_empty (px_enc x)) with (px_parse (px_enc x)). by rewrite px_roundtrip. }
  rewrite fold_fields_app, S7, bind_ok. clear S7.
  assert (S8 : fold_fields ss_step (SsS v0 v1 v2 v3 v4 v5 v6 v7 None None None None None) (optM pp_enc 9 v8) = Ok (SsS v0 v1 v2 v3 v4 v5 v6 v7 v8 None None None None)).
  { destruct v8 as [x|]; [|done]. cbn -[pp_merge pp_enc].
    change (pp_merge pp_empty (pp_enc x)) with (pp_parse (pp_enc x)). by rewrite pp_roundtrip. }
  rewrite fold_fields_app, S8, bind_ok. clear S8.
  assert (S9 : fold_fields ss_step (SsS v0 v1 v2 v3 v4 v5 v6 v7 v8 None None None None) (optV 10 v9) = Ok (SsS v0 v1 v2 v3 v4 v5 v6 v7 v8 v9 None None None)).
  { destruct v9; [|done]. cbn. by rewrite u32_small. }
  rewrite fold_fields_app, S9, bind_ok. clear S9.
  assert (S10 : fold_fields ss_step (SsS v0 v1 v2 v3 v4 v5 v6 v7 v8 v9 None None None) (optV 11 v10) = Ok (SsS v0 v1 v2 v3 v4 v5 v6 v7 v8 v9 v10 None None)).
  { destruct v10; [|done]. cbn. by rewrite u32_small. }
  rewrite fold_fields_app, S10, bind_ok. clear S10.
  assert (S11 : fold_fields ss_step (SsS v0 v1 v2 v3 v4 v5 v6 v7 v8 v9 v10 None None) (optT 12 v11) = Ok (SsS v0 v1 v2 v3 v4 v5 v6 v7 v8 v9 v10 v11 None)).
  { by destruct v11 as [[]|]. }
  rewrite fold_fields_app, S11, bind_ok. clear S11.
  assert (S12 : fold_fields ss_step (SsS v0 v1 v2 v3 v4 v5 v6 v7 v8 v9 v10 v11 None) (optB 13 v12) = Ok (SsS v0 v1 v2 v3 v4 v5 v6 v7 v8 v9 v10 v11 v12)).
  { by destruct v12. }
  exact S12.
Qed.

(** message RecordStructure, protobuf/LocalStorageProtocol.proto:64-67 *)
Record rs_s := RsS {
  rs_currentSession : option ss_s;
  rs_previousSessions : list ss_s }.
(** The message with no field set, protobuf/LocalStorageProtocol.proto:64-67. *)
Definition rs_empty : rs_s := RsS None [].
(** Assignment to currentSession, protobuf/LocalStorageProtocol.proto:64-67. *)
Definition rs_set_currentSession (v : option ss_s) (m : rs_s) : rs_s := RsS v (m.(rs_previousSessions)).
(** Assignment to previousSessions, protobuf/LocalStorageProtocol.proto:64-67. *)
Definition rs_set_previousSessions (v : list ss_s) (m : rs_s) : rs_s := RsS (m.(rs_currentSession)) v.
(** SerializeToString: message RecordStructure, protobuf/LocalStorageProtocol.proto:64-67 *)
Definition rs_fields (m : rs_s) : list wfield :=
  optM ss_enc 1 m.(rs_currentSession) ++
  repM ss_enc 2 m.(rs_previousSessions).
(** SerializeToString, protobuf/LocalStorageProtocol.proto:64-67. *)
Definition rs_enc (m : rs_s) : bytes := enc_fields (rs_fields m).
(** ParseFromString: message RecordStructure, protobuf/LocalStorageProtocol.proto:64-67 *)
Definition rs_step (m : rs_s) (f : wfield) : res rs_s :=
  match f with
  | (1%N, WLen b) => c ← ss_merge (default ss_empty m.(rs_currentSession)) b; Ok (rs_set_currentSession (Some c) m)
  | (2%N, WLen b) => c ← ss_merge ss_empty b; Ok (rs_set_previousSessions (m.(rs_previousSessions) ++ [c]) m)
  | _ => Ok m
  end.
(** MergeFromString, protobuf/LocalStorageProtocol.proto:64-67. *)
Definition rs_merge (m : rs_s) (bs : bytes) : res rs_s :=
  fs ← parse_raw bs; fold_fields rs_step m fs.
(** ParseFromString, protobuf/LocalStorageProtocol.proto:64-67. *)
Definition rs_parse (bs : bytes) : res rs_s := rs_merge rs_empty bs.
(** Values the setters can have produced, protobuf/LocalStorageProtocol.proto:64-67. *)
Definition rs_wf (m : rs_s) : Prop :=
  wfM ss_wf m.(rs_currentSession) /\ Forall ss_wf m.(rs_previousSessions).

Lemma rs_fields_wf m : rs_wf m -> Forall wf_field (rs_fields m).
Proof.
  intros Hwf. unfold rs_wf in Hwf. unfold rs_fields. destruct_and? Hwf.
  repeat (apply Forall_app; split);
  first [apply wf_optB|apply wf_optV|apply wf_optI|apply wf_optT|apply wf_optF|apply wf_optM|apply wf_repM]; (done || lia).
Qed.
Lemma rs_roundtrip m : rs_wf m -> rs_parse (rs_enc m) = Ok m.
Proof.
  intros Hwf. unfold rs_parse, rs_merge, rs_enc.
  rewrite parse_raw_enc by (by apply rs_fields_wf). rewrite bind_ok.
  destruct m as [v0 v1]. unfold rs_wf in Hwf. cbn in Hwf. destruct_and? Hwf.
  unfold rs_fields, rs_empty. cbn [rs_currentSession rs_previousSessions].
  assert (S0 : fold_fields rs_step (RsS None []) (optM ss_enc 1 v0) = Ok (RsS v0 [])).
  { destruct v0 as [x|]; [|done]. cbn -[ss_merge ss_enc].
    change (ss_merge ss_empty (ss_enc x)) with (ss_parse (ss_enc x)). by rewrite ss_roundtrip. }
  rewrite fold_fields_app, S0, bind_ok. clear S0.
  assert (S1 : fold_fields rs_step (RsS v0 []) (repM ss_enc 2 v1) = Ok (RsS v0 v1)).
  { cut (forall acc, fold_fields rs_step (RsS v0 (acc)) (repM ss_enc 2 v1) = Ok (RsS v0 (acc ++ v1))).
    { intros Hacc. apply (Hacc []). }
    match goal with H : Forall ss_wf v1 |- _ => induction H as [|x l Hx Hl IH] end; intros acc;
    [by rewrite app_nil_r|]. cbn [repM map fold_fields]. cbn -[ss_merge ss_enc fold_fields].
    change (ss_merge ss_empty (ss_enc x)) with (ss_parse (ss_enc x)).
    rewrite ss_roundtrip by done. rewrite bind_ok. etransitivity; [exact (IH (acc ++ [x]))|]. by rewrite <- app_assoc. }
  exact S1.
Qed.

(** message PreKeyRecordStructure, protobuf/LocalStorageProtocol.proto:69-73 *)
Record pr_s := PrS {
  pr_id : option N;
  pr_publicKey : option bytes;
  pr_privateKey : option bytes }.
(** The message with no field set, protobuf/LocalStorageProtocol.proto:69-73. *)
Definition pr_empty : pr_s := PrS None None None.
(** Assignment to id, protobuf/LocalStorageProtocol.proto:69-73. *)
Definition pr_set_id (v : option N) (m : pr_s) : pr_s := PrS v (m.(pr_publicKey)) (m.(pr_privateKey)).
(** Assignment to publicKey, protobuf/LocalStorageProtocol.proto:69-73. *)
Definition pr_set_publicKey (v : option bytes) (m : pr_s) : pr_s := PrS (m.(pr_id)) v (m.(pr_privateKey)).
(** Assignment to privateKey, protobuf/LocalStorageProtocol.proto:69-73. *)
Definition pr_set_privateKey (v : option bytes) (m : pr_s) : pr_s := PrS (m.(pr_id)) (m.(pr_publicKey)) v.
(** SerializeToString: message PreKeyRecordStructure, protobuf/LocalStorageProtocol.proto:69-73 *)
Definition pr_fields (m : pr_s) : list wfield :=
  optV 1 m.(pr_id) ++
  optB 2 m.(pr_publicKey) ++
  optB 3 m.(pr_privateKey).
(** SerializeToString, protobuf/LocalStorageProtocol.proto:69-73. *)
Definition pr_enc (m : pr_s) : bytes := enc_fields (pr_fields m).
(** ParseFromString: message PreKeyRecordStructure, protobuf/LocalStorageProtocol.proto:69-73 *)
Definition pr_step (m : pr_s) (f : wfield) : res pr_s :=
  match f with
  | (1%N, WVar v) => Ok (pr_set_id (Some (u32 v)) m)
  | (2%N, WLen b) => Ok (pr_set_publicKey (Some b) m)
  | (3%N, WLen b) => Ok (pr_set_privateKey (Some b) m)
  | _ => Ok m
  end.
(** MergeFromString, protobuf/LocalStorageProtocol.proto:69-73. *)
Definition pr_merge (m : pr_s) (bs : bytes) : res pr_s :=
  fs ← parse_raw bs; fold_fields pr_step m fs.
(** ParseFromString, protobuf/LocalStorageProtocol.proto:69-73. *)
Definition pr_parse (bs : bytes) : res pr_s := pr_merge pr_empty bs.
(** Values the setters can have produced, protobuf/LocalStorageProtocol.proto:69-73. *)
Definition pr_wf (m : pr_s) : Prop :=
  wfV m.(pr_id).

Lemma pr_fields_wf m : pr_wf m -> Forall wf_field (pr_fields m).
Proof.
  intros Hwf. unfold pr_wf in Hwf. unfold pr_fields. destruct_and? Hwf.
  repeat (apply Forall_app; split);
  first [apply wf_optB|apply wf_optV|apply wf_optI|apply wf_optT|apply wf_optF|apply wf_optM|apply wf_repM]; (done || lia).
Qed.
Lemma pr_roundtrip m : pr_wf m -> pr_parse (pr_enc m) = Ok m.
Proof.
  intros Hwf. unfold pr_parse, pr_merge, pr_enc.
  rewrite parse_raw_enc by (by apply pr_fields_wf). rewrite bind_ok.
  destruct m as [v0 v1 v2]. unfold pr_wf in Hwf. cbn in Hwf. destruct_and? Hwf.
  unfold pr_fields, pr_empty. cbn [pr_id pr_publicKey pr_privateKey].
  assert (S0 : fold_fields pr_step (PrS None None None) (optV 1 v0) = Ok (PrS v0 None None)).
  { destruct v0; [|done]. cbn. by rewrite u32_small. }
  rewrite fold_fields_app, S0, bind_ok. clear S0.
  assert (S1 : fold_fields pr_step (PrS v0 None None) (optB 2 v1) = Ok (PrS v0 v1 None)).
  { by destruct v1. }
  rewrite fold_fields_app, S1, bind_ok. clear S1.
  assert (S2 : fold_fields pr_step (PrS v0 v1 None) (optB 3 v2) = Ok (PrS v0 v1 v2)).
  { by destruct v2. }
  exact S2.
Qed.

(** message SignedPreKeyRecordStructure, protobuf/LocalStorageProtocol.proto:75-81 *)
Record spr_s := SprS {
  spr_id : option N;
  spr_publicKey : option bytes;
  spr_privateKey : option bytes;
  spr_signature : option bytes;
  spr_timestamp : option N }.
(** The message with no field set, protobuf/LocalStorageProtocol.proto:75-81. *)
Definition spr_empty : spr_s := SprS None None None None None.
(** Assignment to id, protobuf/LocalStorageProtocol.proto:75-81. *)
Definition spr_set_id (v : option N) (m : spr_s) : spr_s := SprS v (m.(spr_publicKey)) (m.(spr_privateKey)) (m.(spr_signature)) (m.(spr_timestamp)).
(** Assignment to publicKey, protobuf/LocalStorageProtocol.proto:75-81. *)
Definition spr_set_publicKey (v : option bytes) (m : spr_s) : spr_s := SprS (m.(spr_id)) v (m.(spr_privateKey)) (m.(spr_signature)) (m.(spr_timestamp)).
(** Assignment to privateKey, protobuf/LocalStorageProtocol.proto:75-81. *)
Definition spr_set_privateKey (v : option bytes) (m : spr_s) : spr_s := SprS (m.(spr_id)) (m.(spr_publicKey)) v (m.(spr_signature)) (m.(spr_timestamp)).
(** Assignment to signature, protobuf/LocalStorageProtocol.proto:75-81. *)
Definition spr_set_signature (v : option bytes) (m : spr_s) : spr_s := SprS (m.(spr_id)) (m.(spr_publicKey)) (m.(spr_privateKey)) v (m.(spr_timestamp)).
(** Assignment to timestamp, protobuf/LocalStorageProtocol.proto:75-81. *)
Definition spr_set_timestamp (v : option N) (m : spr_s) : spr_s := SprS (m.(spr_id)) (m.(spr_publicKey)) (m.(spr_privateKey)) (m.(spr_signature)) v.
(** SerializeToString: message SignedPreKeyRecordStructure, protobuf/LocalStorageProtocol.proto:75-81 *)
Definition spr_fields (m : spr_s) : list wfield :=
  optV 1 m.(spr_id) ++
  optB 2 m.(spr_publicKey) ++
  optB 3 m.(spr_privateKey) ++
  optB 4 m.(spr_signature) ++
  optF 5 m.(spr_timestamp).
(** SerializeToString, protobuf/LocalStorageProtocol.proto:75-81. *)
Definition spr_enc (m : spr_s) : bytes := enc_fields (spr_fields m).
(** ParseFromString: message SignedPreKeyRecordStructure, protobuf/LocalStorageProtocol.proto:75-81 *)
Definition spr_step (m : spr_s) (f : wfield) : res spr_s :=
  match f with
  | (1%N, WVar v) => Ok (spr_set_id (Some (u32 v)) m)
  | (2%N, WLen b) => Ok (spr_set_publicKey (Some b) m)
  | (3%N, WLen b) => Ok (spr_set_privateKey (Some b) m)
  | (4%N, WLen b) => Ok (spr_set_signature (Some b) m)
  | (5%N, W64 v) => Ok (spr_set_timestamp (Some v) m)
  | _ => Ok m
  end.
(** MergeFromString, protobuf/LocalStorageProtocol.proto:75-81. *)
Definition spr_merge (m : spr_s) (bs : bytes) : res spr_s :=
  fs ← parse_raw bs; fold_fields spr_step m fs.
(** ParseFromString, protobuf/LocalStorageProtocol.proto:75-81. *)
Definition spr_parse (bs : bytes) : res spr_s := spr_merge spr_empty bs.
(** Values the setters can have produced, protobuf/LocalStorageProtocol.proto:75-81. *)
Definition spr_wf (m : spr_s) : Prop :=
  wfV m.(spr_id) /\ wfF m.(spr_timestamp).

Lemma spr_fields_wf m : spr_wf m -> Forall wf_field (spr_fields m).
Proof.
  intros Hwf. unfold spr_wf in Hwf. unfold spr_fields. destruct_and? Hwf.
  repeat (apply Forall_app; split);
  first [apply wf_optB|apply wf_optV|apply wf_optI|apply wf_optT|apply wf_optF|apply wf_optM|apply wf_repM]; (done || lia).
Qed.
Lemma spr_roundtrip m : spr_wf m -> spr_parse (spr_enc m) = Ok m.
Proof.
  intros Hwf. unfold spr_parse, spr_merge, spr_enc.
  rewrite parse_raw_enc by (by apply spr_fields_wf). rewrite bind_ok.
  destruct m as [v0 v1 v2 v3 v4]. unfold spr_wf in Hwf. cbn in Hwf. destruct_and? Hwf.
  unfold spr_fields, spr_empty. cbn [spr_id spr_publicKey spr_privateKey spr_signature spr_timestamp].
  assert (S0 : fold_fields spr_step (SprS None None None None None) (optV 1 v0) = Ok (SprS v0 None None None None)).
  { destruct v0; [|done]. cbn. by rewrite u32_small. }
  rewrite fold_fields_app, S0, bind_ok. clear S0.
  assert (S1 : fold_fields spr_step (SprS v0 None None None None) (optB 2 v1) = Ok (SprS v0 v1 None None None)).
  { by destruct v1. }
  rewrite fold_fields_app, S1, bind_ok. clear S1.
  assert (S2 : fold_fields spr_step (SprS v0 v1 None None None) (optB 3 v2) = Ok (SprS v0 v1 v2 None None)).
  { by destruct v2. }
  rewrite fold_fields_app, S2, bind_ok. clear S2.
  assert (S3 : fold_fields spr_step (SprS v0 v1 v2 None None) (optB 4 v3) = Ok (SprS v0 v1 v2 v3 None)).
  { by destruct v3. }
  rewrite fold_fields_app, S3, bind_ok. clear S3.
  assert (S4 : fold_fields spr_step (SprS v0 v1 v2 v3 None) (optF 5 v4) = Ok (SprS v0 v1 v2 v3 v4)).
  { by destruct v4. }
  exact S4.
Qed.

(** message IdentityKeyPairStructure, protobuf/LocalStorageProtocol.proto:83-86 *)
Record ik_s := IkS {
  ik_publicKey : option bytes;
  ik_privateKey : option bytes }.
(** The message with no field set, protobuf/LocalStorageProtocol.proto:83-86. *)
Definition ik_empty : ik_s := IkS None None.
(** Assignment to publicKey, protobuf/LocalStorageProtocol.proto:83-86. *)
Definition ik_set_publicKey (v : option bytes) (m : ik_s) : ik_s := IkS v (m.(ik_privateKey)).
(** Assignment to privateKey, protobuf/LocalStorageProtocol.proto:83-86. *)
Definition ik_set_privateKey (v : option bytes) (m : ik_s) : ik_s := IkS (m.(ik_publicKey)) v.
(** SerializeToString: message IdentityKeyPairStructure, protobuf/LocalStorageProtocol.proto:83-86 *)
Definition ik_fields (m : ik_s) : list wfield :=
  optB 1 m.(ik_publicKey) ++
  optB 2 m.(ik_privateKey).
(** SerializeToString, protobuf/LocalStorageProtocol.proto:83-86. *)
Definition ik_enc (m : ik_s) : bytes := enc_fields (ik_fields m).
(** ParseFromString: message IdentityKeyPairStructure, protobuf/LocalStorageProtocol.proto:83-86 *)
Definition ik_step (m : ik_s) (f : wfield) : res ik_s :=
  match f with
  | (1%N, WLen b) => Ok (ik_set_publicKey (Some b) m)
  | (2%N, WLen b) => Ok (ik_set_privateKey (Some b) m)
  | _ => Ok m
  end.
(** MergeFromString, protobuf/LocalStorageProtocol.proto:83-86. *)
Definition ik_merge (m : ik_s) (bs : bytes) : res ik_s :=
  fs ← parse_raw bs; fold_fields ik_step m fs.
(** ParseFromString, protobuf/LocalStorageProtocol.proto:83-86. *)
Definition ik_parse (bs : bytes) : res ik_s := ik_merge ik_empty bs.
(** Values the setters can have produced, protobuf/LocalStorageProtocol.proto:83-86. *)
Definition ik_wf (m : ik_s) : Prop :=
  True.

Lemma ik_fields_wf m : ik_wf m -> Forall wf_field (ik_fields m).
Proof.
  intros Hwf. unfold ik_wf in Hwf. unfold ik_fields. destruct_and? Hwf.
  repeat (apply Forall_app; split);
  first [apply wf_optB|apply wf_optV|apply wf_optI|apply wf_optT|apply wf_optF|apply wf_optM|apply wf_repM]; (done || lia).
Qed.
Lemma ik_roundtrip m : ik_wf m -> ik_parse (ik_enc m) = Ok m.
Proof.
  intros Hwf. unfold ik_parse, ik_merge, ik_enc.
  rewrite parse_raw_enc by (by apply ik_fields_wf). rewrite bind_ok.
  destruct m as [v0 v1]. unfold ik_wf in Hwf. cbn in Hwf. destruct_and? Hwf.
  unfold ik_fields, ik_empty. cbn [ik_publicKey ik_privateKey].
  assert (S0 : fold_fields ik_step (IkS None None) (optB 1 v0) = Ok (IkS v0 None)).
  { by destruct v0. }
  rewrite fold_fields_app, S0, bind_ok. clear S0.
  assert (S1 : fold_fields ik_step (IkS v0 None) (optB 2 v1) = Ok (IkS v0 v1)).
  { by destruct v1. }
  exact S1.
Qed.

(** message SenderKeyStateStructure.SenderChainKey, protobuf/LocalStorageProtocol.proto:89-92 *)
Record sck_s := SckS {
  sck_iteration : option N;
  sck_seed : option bytes }.
(** The message with no field set, protobuf/LocalStorageProtocol.proto:89-92. *)
Definition sck_empty : sck_s := SckS None None.
(** Assignment to iteration, protobuf/LocalStorageProtocol.proto:89-92. *)
Definition sck_set_iteration (v : option N) (m : sck_s) : sck_s := SckS v (m.(sck_seed)).
(** Assignment to seed, protobuf/LocalStorageProtocol.proto:89-92. *)
Definition sck_set_seed (v : option bytes) (m : sck_s) : sck_s := SckS (m.(sck_iteration)) v.
(** SerializeToString: message SenderKeyStateStructure.SenderChainKey, protobuf/LocalStorageProtocol.proto:89-92 *)
Definition sck_fields (m : sck_s) : list wfield :=
  optV 1 m.(sck_iteration) ++
  optB 2 m.(sck_seed).
(** SerializeToString, protobuf/LocalStorageProtocol.proto:89-92. *)
Definition sck_enc (m : sck_s) : bytes := enc_fields (sck_fields m).
(** ParseFromString: message SenderKeyStateStructure.SenderChainKey, protobuf/LocalStorageProtocol.proto:89-92 *)
Definition sck_step (m : sck_s) (f : wfield) : res sck_s :=
  match f with
  | (1%N, WVar v) => Ok (sck_set_iteration (Some (u32 v)) m)
  | (2%N, WLen b) => Ok (sck_set_seed (Some b) m)
  | _ => Ok m
  end.
(** MergeFromString, protobuf/LocalStorageProtocol.proto:89-92. *)
Definition sck_merge (m : sck_s) (bs : bytes) : res sck_s :=
  fs ← parse_raw bs; fold_fields sck_step m fs.
(** ParseFromString, protobuf/LocalStorageProtocol.proto:89-92. *)
Definition sck_parse (bs : bytes) : res sck_s := sck_merge sck_empty bs.
(** Values the setters can have produced, protobuf/LocalStorageProtocol.proto:89-92. *)
Definition sck_wf (m : sck_s) : Prop :=
  wfV m.(sck_iteration).

Lemma sck_fields_wf m : sck_wf m -> Forall wf_field (sck_fields m).
Proof.
  intros Hwf. unfold sck_wf in Hwf. unfold sck_fields. destruct_and? Hwf.
  repeat (apply Forall_app; split);
  first [apply wf_optB|apply wf_optV|apply wf_optI|apply wf_optT|apply wf_optF|apply wf_optM|apply wf_repM]; (done || lia).
Qed.
Lemma sck_roundtrip m : sck_wf m -> sck_parse (sck_enc m) = Ok m.
Proof.
  intros Hwf. unfold sck_parse, sck_merge, sck_enc.
  rewrite parse_raw_enc by (by apply sck_fields_wf). rewrite bind_ok.
  destruct m as [v0 v1]. unfold sck_wf in Hwf. cbn in Hwf. destruct_and? Hwf.
  unfold sck_fields, sck_empty. cbn [sck_iteration sck_seed].
  assert (S0 : fold_fields sck_step (SckS None None) (optV 1 v0) = Ok (SckS v0 None)).
  { destruct v0; [|done]. cbn. by rewrite u32_small. }
  rewrite fold_fields_app, S0, bind_ok. clear S0.
  assert (S1 : fold_fields sck_step (SckS v0 None) (optB 2 v1) = Ok (SckS v0 v1)).
  { by destruct v1. }
  exact S1.
Qed.

(** message SenderKeyStateStructure.SenderMessageKey, protobuf/LocalStorageProtocol.proto:94-97 *)
Record smk_s := SmkS {
  smk_iteration : option N;
  smk_seed : option bytes }.
(** The message with no field set, protobuf/LocalStorageProtocol.proto:94-97. *)
Definition smk_empty : smk_s := SmkS None None.
(** Assignment to iteration, protobuf/LocalStorageProtocol.proto:94-97. *)
Definition smk_set_iteration (v : option N) (m : smk_s) : smk_s := SmkS v (m.(smk_seed)).
(** Assignment to seed, protobuf/LocalStorageProtocol.proto:94-97. *)
Definition smk_set_seed (v : option bytes) (m : smk_s) : smk_s := SmkS (m.(smk_iteration)) v.
(** SerializeToString: message SenderKeyStateStructure.SenderMessageKey, protobuf/LocalStorageProtocol.proto:94-97 *)
Definition smk_fields (m : smk_s) : list wfield :=
  optV 1 m.(smk_iteration) ++
  optB 2 m.(smk_seed).
(** SerializeToString, protobuf/LocalStorageProtocol.proto:94-97. *)
Definition smk_enc (m : smk_s) : bytes := enc_fields (smk_fields m).
(** ParseFromString: message SenderKeyStateStructure.SenderMessageKey, protobuf/LocalStorageProtocol.proto:94-97 *)
Definition smk_step (m : smk_s) (f : wfield) : res smk_s :=
  match f with
  | (1%N, WVar v) => Ok (smk_set_iteration (Some (u32 v)) m)
  | (2%N, WLen b) => Ok (smk_set_seed (Some b) m)
  | _ => Ok m
  end.
(** MergeFromString, protobuf/LocalStorageProtocol.proto:94-97. *)
Definition smk_merge (m : smk_s) (bs : bytes) : res smk_s :=
  fs ← parse_raw bs; fold_fields smk_step m fs.
(** ParseFromString, protobuf/LocalStorageProtocol.proto:94-97. *)
Definition smk_parse (bs : bytes) : res smk_s := smk_merge smk_empty bs.
(** Values the setters can have produced, protobuf/LocalStorageProtocol.proto:94-97. *)
Definition smk_wf (m : smk_s) : Prop :=
  wfV m.(smk_iteration).

Lemma smk_fields_wf m : smk_wf m -> Forall wf_field (smk_fields m).
Proof.
  intros Hwf. unfold smk_wf in Hwf. unfold smk_fields. destruct_and? Hwf.
  repeat (apply Forall_app; split);
  first [apply wf_optB|apply wf_optV|apply wf_optI|apply wf_optT|apply wf_optF|apply wf_optM|apply wf_repM]; (done || lia).
Qed.
Lemma smk_roundtrip m : smk_wf m -> smk_parse (smk_enc m) = Ok m.
Proof.
  intros Hwf. unfold smk_parse, smk_merge, smk_enc.
  rewrite parse_raw_enc by (by apply smk_fields_wf). rewrite bind_ok.
  destruct m as [v0 v1]. unfold smk_wf in Hwf. cbn in Hwf. destruct_and? Hwf.
  unfold smk_fields, smk_empty. cbn [smk_iteration smk_seed].
  assert (S0 : fold_fields smk_step (SmkS None None) (optV 1 v0) = Ok (SmkS v0 None)).
  { destruct v0; [|done]. cbn. by rewrite u32_small. }
  rewrite fold_fields_app, S0, bind_ok. clear S0.
  assert (S1 : fold_fields smk_step (SmkS v0 None) (optB 2 v1) = Ok (SmkS v0 v1)).
  { by destruct v1. }
  exact S1.
Qed.

(** message SenderKeyStateStructure.SenderSigningKey, protobuf/LocalStorageProtocol.proto:99-102 *)
Record ssk_s := SskS {
  ssk_public : option bytes;
  ssk_private : option bytes }.
(** The message with no field set, protobuf/LocalStorageProtocol.proto:99-102. *)
Definition ssk_empty : ssk_s := SskS None None.
(** Assignment to public, protobuf/LocalStorageProtocol.proto:99-102. *)
Definition ssk_set_public (v : option bytes) (m : ssk_s) : ssk_s := SskS v (m.(ssk_private)).
(** Assignment to private, protobuf/LocalStorageProtocol.proto:99-102. *)
Definition ssk_set_private (v : option bytes) (m : ssk_s) : ssk_s := SskS (m.(ssk_public)) v.
(** SerializeToString: message SenderKeyStateStructure.SenderSigningKey, protobuf/LocalStorageProtocol.proto:99-102 *)
Definition ssk_fields (m : ssk_s) : list wfield :=
  optB 1 m.(ssk_public) ++
  optB 2 m.(ssk_private).
(** SerializeToString, protobuf/LocalStorageProtocol.proto:99-102. *)
Definition ssk_enc (m : ssk_s) : bytes := enc_fields (ssk_fields m).
(** ParseFromString: message SenderKeyStateStructure.SenderSigningKey, protobuf/LocalStorageProtocol.proto:99-102 *)
Definition ssk_step (m : ssk_s) (f : wfield) : res ssk_s :=
  match f with
  | (1%N, WLen b) => Ok (ssk_set_public (Some b) m)
  | (2%N, WLen b) => Ok (ssk_set_private (Some b) m)
  | _ => Ok m
  end.
(** MergeFromString, protobuf/LocalStorageProtocol.proto:99-102. *)
Definition ssk_merge (m : ssk_s) (bs : bytes) : res ssk_s :=
  fs ← parse_raw bs; fold_fields ssk_step m fs.
(** ParseFromString, protobuf/LocalStorageProtocol.proto:99-102. *)
Definition ssk_parse (bs : bytes) : res ssk_s := ssk_merge ssk_empty bs.
(** Values the setters can have produced, protobuf/LocalStorageProtocol.proto:99-102. *)
Definition ssk_wf (m : ssk_s) : Prop :=
  True.

Lemma ssk_fields_wf m : ssk_wf m -> Forall wf_field (ssk_fields m).
Proof.
  intros Hwf. unfold ssk_wf in Hwf. unfold ssk_fields. destruct_and? Hwf.
  repeat (apply Forall_app; split);
  first [apply wf_optB|apply wf_optV|apply wf_optI|apply wf_optT|apply wf_optF|apply wf_optM|apply wf_repM]; (done || lia).
Qed.
Lemma ssk_roundtrip m : ssk_wf m -> ssk_parse (ssk_enc m) = Ok m.
Proof.
  intros Hwf. unfold ssk_parse, ssk_merge, ssk_enc.
  rewrite parse_raw_enc by (by apply ssk_fields_wf). rewrite bind_ok.
  destruct m as [v0 v1]. unfold ssk_wf in Hwf. cbn in Hwf. destruct_and? Hwf.
  unfold ssk_fields, ssk_empty. cbn [ssk_public ssk_private].
  assert (S0 : fold_fields ssk_step (SskS None None) (optB 1 v0) = Ok (SskS v0 None)).
  { by destruct v0. }
  rewrite fold_fields_app, S0, bind_ok. clear S0.
  assert (S1 : fold_fields ssk_step (SskS v0 None) (optB 2 v1) = Ok (SskS v0 v1)).
  { by destruct v1. }
  exact S1.
Qed.

(** message SenderKeyStateStructure, protobuf/LocalStorageProtocol.proto:88-108 *)
Record st_s := StS {
  st_senderKeyId : option N;
  st_senderChainKey : option sck_s;
  st_senderSigningKey : option ssk_s;
  st_senderMessageKeys : list smk_s }.
(** The message with no field set, protobuf/LocalStorageProtocol.proto:88-108. *)
Definition st_empty : st_s := StS None None None [].
(** Assignment to senderKeyId, protobuf/LocalStorageProtocol.proto:88-108. *)
Definition st_set_senderKeyId (v : option N) (m : st_s) : st_s := StS v (m.(st_senderChainKey)) (m.(st_senderSigningKey)) (m.(st_senderMessageKeys)).
(** Assignment to senderChainKey, protobuf/LocalStorageProtocol.proto:88-108. *)
Definition st_set_senderChainKey (v : option sck_s) (m : st_s) : st_s := StS (m.(st_senderKeyId)) v (m.(st_senderSigningKey)) (m.(st_senderMessageKeys)).
(** Assignment to senderSigningKey, protobuf/LocalStorageProtocol.proto:88-108. *)
Definition st_set_senderSigningKey (v : option ssk_s) (m : st_s) : st_s := StS (m.(st_senderKeyId)) (m.(st_senderChainKey)) v (m.(st_senderMessageKeys)).
(** Assignment to senderMessageKeys, protobuf/LocalStorageProtocol.proto:88-108. *)
Definition st_set_senderMessageKeys (v : list smk_s) (m : st_s) : st_s := StS (m.(st_senderKeyId)) (m.(st_senderChainKey)) (m.(st_senderSigningKey)) v.
(** SerializeToString: message SenderKeyStateStructure, protobuf/LocalStorageProtocol.proto:88-108 *)
Definition st_fields (m : st_s) : list wfield :=
  optV 1 m.(st_senderKeyId) ++
  optM sck_enc 2 m.(st_senderChainKey) ++
  optM ssk_enc 3 m.(st_senderSigningKey) ++
  repM smk_enc 4 m.(st_senderMessageKeys).
(** SerializeToString, protobuf/LocalStorageProtocol.proto:88-108. *)
Definition st_enc (m : st_s) : bytes := enc_fields (st_fields m).
(** ParseFromString: message SenderKeyStateStructure, protobuf/LocalStorageProtocol.proto:88-108 *)
Definition st_step (m : st_s) (f : wfield) : res st_s :=
  match f with
  | (1%N, WVar v) => Ok (st_set_senderKeyId (Some (u32 v)) m)
  | (2%N, WLen b) => c ← sck_merge (default sck_empty m.(st_senderChainKey)) b; Ok (st_set_senderChainKey (Some c) m)
  | (3%N, WLen b) => c ← ssk_merge (default ssk_empty m.(st_senderSigningKey)) b; Ok (st_set_senderSigningKey (Some c) m)
  | (4%N, WLen b) => c ← smk_merge smk_empty b; Ok (st_set_senderMessageKeys (m.(st_senderMessageKeys) ++ [c]) m)
  | _ => Ok m
  end.
(** MergeFromString, protobuf/LocalStorageProtocol.proto:88-108. *)
Definition st_merge (m : st_s) (bs : bytes) : res st_s :=
  fs ← parse_raw bs; fold_fields st_step m fs.
(** ParseFromString, protobuf/LocalStorageProtocol.proto:88-108. *)
Definition st_parse (bs : bytes) : res st_s := st_merge st_empty bs.
(** Values the setters can have produced, protobuf/LocalStorageProtocol.proto:88-108. *)
Definition st_wf (m : st_s) : Prop :=
  wfV m.(st_senderKeyId) /\ wfM sck_wf m.(st_senderChainKey) /\ wfM ssk_wf m.(st_senderSigningKey) /\ Forall smk_wf m.(st_senderMessageKeys).

Lemma st_fields_wf m : st_wf m -> Forall wf_field (st_fields m).
Proof.
  intros Hwf. unfold st_wf in Hwf. unfold st_fields. destruct_and? Hwf.
  repeat (apply Forall_app; split);
  first [apply wf_optB|apply wf_optV|apply wf_optI|apply wf_optT|apply wf_optF|apply wf_optM|apply wf_repM]; (done || lia).
Qed.
Lemma st_roundtrip m : st_wf m -> st_parse (st_enc m) = Ok m.
Proof.
  intros Hwf. unfold st_parse, st_merge, st_enc.
  rewrite parse_raw_enc by (by apply st_fields_wf). rewrite bind_ok.
  destruct m as [v0 v1 v2 v3]. unfold st_wf in Hwf. cbn in Hwf. destruct_and? Hwf.
  unfold st_fields, st_empty. cbn [st_senderKeyId st_senderChainKey st_senderSigningKey st_senderMessageKeys].
  assert (S0 : fold_fields st_step (StS None None None []) (optV 1 v0) = Ok (StS v0 None None [])).
  { destruct v0; [|done]. cbn. by rewrite u32_small. }
  rewrite fold_fields_app, S0, bind_ok. clear S0.
  assert (S1 : fold_fields st_step (StS v0 None None []) (optM sck_enc 2 v1) = Ok (StS v0 v1 None [])).
  { destruct v1 as [x|]; [|done]. cbn -[sck_merge sck_enc].
    change (sck_merge sck_empty (sck_enc x)) with (sck_parse (sck_enc x)). by rewrite sck_roundtrip. }
  rewrite fold_fields_app, S1, bind_ok. clear S1.
  assert (S2 : fold_fields st_step (StS v0 v1 None []) (optM ssk_enc 3 v2) = Ok (StS v0 v1 v2 [])).
  { destruct v2 as [x|]; [|done]. cbn -[ssk_merge ssk_enc].
    change (ssk_merge ssk_empty (ssk_enc x)) with (ssk_parse (ssk_enc x)). by rewrite ssk_roundtrip. }
  rewrite fold_fields_app, S2, bind_ok. clear S2.
  assert (S3 : fold_fields st_step (StS v0 v1 v2 []) (repM smk_enc 4 v3) = Ok (StS v0 v1 v2 v3)).
  { cut (forall acc, fold_fields st_step (StS v0 v1 v2 (acc)) (repM smk_enc 4 v3) = Ok (StS v0 v1 v2 (acc ++ v3))).
    { intros Hacc. apply (Hacc []). }
    match goal with H : Forall smk_wf v3 |- _ => induction H as [|x l Hx Hl IH] end; intros acc;
    [by rewrite app_nil_r|]. cbn [repM map fold_fields]. cbn -[smk_merge smk_enc fold_fields].
    change (smk_merge smk_empty (smk_enc x)) with (smk_parse (smk_enc x)).
    rewrite smk_roundtrip by done. rewrite bind_ok. etransitivity; [exact (IH (acc ++ [x]))|]. by rewrite <- app_assoc. }
  exact S3.
Qed.

(** message SenderKeyRecordStructure, protobuf/LocalStorageProtocol.proto:110-112 *)
Record sr_s := SrS {
  sr_senderKeyStates : list st_s }.
(** The message with no field set, protobuf/LocalStorageProtocol.proto:110-112. *)
Definition sr_empty : sr_s := SrS [].
(** Assignment to senderKeyStates, protobuf/LocalStorageProtocol.proto:110-112. *)
Definition sr_set_senderKeyStates (v : list st_s) (m : sr_s) : sr_s := SrS v.
(** SerializeToString: message SenderKeyRecordStructure, protobuf/LocalStorageProtocol.proto:110-112 *)
Definition sr_fields (m : sr_s) : list wfield :=
  repM st_enc 1 m.(sr_senderKeyStates).
(** SerializeToString, protobuf/LocalStorageProtocol.proto:110-112. *)
Definition sr_enc (m : sr_s) : bytes := enc_fields (sr_fields m).
(** ParseFromString: message SenderKeyRecordStructure, protobuf/LocalStorageProtocol.proto:110-112 *)
Definition sr_step (m : sr_s) (f : wfield) : res sr_s :=
  match f with
  | (1%N, WLen b) => c ← st_merge st_empty b; Ok (sr_set_senderKeyStates (m.(sr_senderKeyStates) ++ [c]) m)
  | _ => Ok m
  end.
(** MergeFromString, protobuf/LocalStorageProtocol.proto:110-112. *)
Definition sr_merge (m : sr_s) (bs : bytes) : res sr_s :=
  fs ← parse_raw bs; fold_fields sr_step m fs.
(** ParseFromString, protobuf/LocalStorageProtocol.proto:110-112. *)
Definition sr_parse (bs : bytes) : res sr_s := sr_merge sr_empty bs.
(** Values the setters can have produced, protobuf/LocalStorageProtocol.proto:110-112. *)
Definition sr_wf (m : sr_s) : Prop :=
  Forall st_wf m.(sr_senderKeyStates).

Lemma sr_fields_wf m : sr_wf m -> Forall wf_field (sr_fields m).
Proof.
  intros Hwf. unfold sr_wf in Hwf. unfold sr_fields. destruct_and? Hwf.
  repeat (apply Forall_app; split);
  first [apply wf_optB|apply wf_optV|apply wf_optI|apply wf_optT|apply wf_optF|apply wf_optM|apply wf_repM]; (done || lia).
Qed.
Lemma sr_roundtrip m : sr_wf m -> sr_parse (sr_enc m) = Ok m.
Proof.
  intros Hwf. unfold sr_parse, sr_merge, sr_enc.
  rewrite parse_raw_enc by (by apply sr_fields_wf). rewrite bind_ok.
  destruct m as [v0]. unfold sr_wf in Hwf. cbn in Hwf. destruct_and? Hwf.
  unfold sr_fields, sr_empty. cbn [sr_senderKeyStates].
  assert (S0 : fold_fields sr_step (SrS []) (repM st_enc 1 v0) = Ok (SrS v0)).
  { cut (forall acc, fold_fields sr_step (SrS (acc)) (repM st_enc 1 v0) = Ok (SrS (acc ++ v0))).
    { intros Hacc. apply (Hacc []). }
    match goal with H : Forall st_wf v0 |- _ => induction H as [|x l Hx Hl IH] end; intros acc;
    [by rewrite app_nil_r|]. cbn [repM map fold_fields]. cbn -[st_merge st_enc fold_fields].
    change (st_merge st_empty (st_enc x)) with (st_parse (st_enc x)).
    rewrite st_roundtrip by done. rewrite bind_ok. etransitivity; [exact (IH (acc ++ [x]))|]. by rewrite <- app_assoc. }
  exact S0.
Qed.

