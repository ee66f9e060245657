(** C93: stored records are read and written exactly as their schema says. *)
From Verif Require Import PyBase Wire Protos Ecc State StateFacts Prog SpecRead SpecStored StoredProofs.

(** Which byte strings are read as a session record, and which record that is: the fields
    of protobuf/LocalStorageProtocol.proto, each with the value of its last occurrence, an
    optional message with the fields of all its occurrences together, a repeated one with
    one element for each occurrence, and everything else ignored. *)
Theorem C93_session : forall bs r, bs <> [] ->
  sr_deserialize bs = Ok r <->
  exists fs p, wire bs fs /\ says_record fs p /\ sr_fresh r = false /\
    sr_state r = default ss_empty (rs_currentSession p) /\ sr_previous r = rs_previousSessions p.
Proof. exact session_reads. Qed.
Theorem C93_session_unambiguous : forall fs p p', says_record fs p -> says_record fs p' -> p = p'.
Proof. exact session_unambiguous. Qed.
Theorem C93_sender : forall bs l, skr_deserialize bs = Ok l <-> exists fs, wire bs fs /\ says_sender_record fs l.
Proof. exact sender_reads. Qed.
Theorem C93_prekey : forall bs r, bs <> [] -> prekeyrecord_parse bs = Ok r <-> exists fs, wire bs fs /\ says_prekey fs r.
Proof. exact prekey_record_reads. Qed.
Theorem C93_signed : forall bs r, bs <> [] -> signedprekeyrecord_parse bs = Ok r <-> exists fs, wire bs fs /\ says_signed_prekey fs r.
Proof. exact signed_record_reads. Qed.
Theorem C93_identity : forall bs k,
  identitykeypair_parse bs = Ok k <->
  exists fs pub, wire bs fs /\ the_bytes 1 fs = Some pub /\ key_in pub (kp_pub k) /\ kp_priv k = default [] (the_bytes 2 fs).
Proof. exact identity_reads. Qed.

(** Everything else is refused, with one error. *)
Theorem C93_session_refused : forall bs e, sr_deserialize bs = Err e -> e = EDecodeError.
Proof. exact session_refused. Qed.
Theorem C93_sender_refused : forall bs e, skr_deserialize bs = Err e -> e = EDecodeError.
Proof. exact sender_refused. Qed.
Theorem C93_prekey_refused : forall bs e, prekeyrecord_parse bs = Err e -> e = if decide (bs = []) then ETypeError else EDecodeError.
Proof. exact prekey_record_refused. Qed.
Theorem C93_signed_refused : forall bs e, signedprekeyrecord_parse bs = Err e -> e = if decide (bs = []) then ETypeError else EDecodeError.
Proof. exact signed_record_refused. Qed.

(** What is written says, by the same schema, what was meant. *)
Theorem C93_session_written : forall r, rec_wf r ->
  exists fs, wire (sr_serialize r) fs /\ says_record fs (RsS (Some (sr_state r)) (sr_previous r)).
Proof. exact session_written. Qed.
Theorem C93_sender_written : forall l, Forall st_wf l -> exists fs, wire (skr_serialize l) fs /\ says_sender_record fs l.
Proof. exact sender_written. Qed.
Theorem C93_prekey_written : forall id kp r, length (kp_pub kp) <= 32 -> prekeyrecord_create id kp = Ok r ->
  exists fs, wire (pr_enc r) fs /\ the_number 1 fs = Some id /\ the_bytes 2 fs = Some (x05 :: kp_pub kp) /\ the_bytes 3 fs = Some (kp_priv kp).
Proof. exact prekey_record_written. Qed.
Theorem C93_signed_written : forall id ts kp sig r, length (kp_pub kp) <= 32 -> signedprekeyrecord_create id ts kp sig = Ok r ->
  exists fs, wire (spr_enc r) fs /\ the_number 1 fs = Some id /\ the_bytes 2 fs = Some (x05 :: kp_pub kp) /\
    the_bytes 3 fs = Some (kp_priv kp) /\ the_bytes 4 fs = Some sig /\ the_fixed 5 fs = Some ts.
Proof. exact signed_record_written. Qed.
Theorem C93_identity_written : forall kp, exists fs, wire (identitykeypair_serialize kp) fs /\
  the_bytes 1 fs = Some (x05 :: kp_pub kp) /\ the_bytes 2 fs = Some (kp_priv kp).
Proof. exact identity_written. Qed.

Print Assumptions C93_session.
Print Assumptions C93_session_unambiguous.
Print Assumptions C93_sender.
Print Assumptions C93_prekey.
Print Assumptions C93_signed.
Print Assumptions C93_identity.
Print Assumptions C93_session_refused.
Print Assumptions C93_sender_refused.
Print Assumptions C93_prekey_refused.
Print Assumptions C93_signed_refused.
Print Assumptions C93_session_written.
Print Assumptions C93_sender_written.
Print Assumptions C93_prekey_written.
Print Assumptions C93_signed_written.
Print Assumptions C93_identity_written.

(** A session record in an order nobody writes: an archived session, then the current one
    in two pieces (the version and half a sending chain, then a chain key and a pending
    prekey message with the signed prekey number -1), an unknown field, and another
    archived session. *)
Definition odd_record : bytes :=
  [x12; x02; x08; x02] ++
  [x0a; x08; x08; x03; x32; x04; x0a; x02; x05; x07] ++
  [x0a; x1b; x32; x06; x1a; x04; x08; x09; x12; x00; x4a; x0d; x18; xff; xff; xff; xff; xff; xff; xff; xff; xff; x01; x08; x04; x60; x02; x08; x01] ++
  [x50; x63] ++ [x12; x00].
Definition odd_state : ss_s :=
  ss_set_version (Some 1%N) (ss_set_needsRefresh (Some true)
    (ss_set_senderChain (Some (ChS (Some [x05; x07]) None (Some (CkS (Some 9%N) (Some []))) []))
    (ss_set_pendingPreKey (Some (pp_set_preKeyId (Some 4%N) (pp_set_signedPreKeyId (Some (-1)%Z) pp_empty))) ss_empty))).
Example C93_odd : sr_deserialize odd_record = Ok (SessionRecord false odd_state [ss_set_version (Some 2%N) ss_empty; ss_empty]).
Proof. reflexivity. Qed.
Example C93_odd_says : exists fs p, wire odd_record fs /\ says_record fs p /\ rs_currentSession p = Some odd_state /\ length fs = 5.
Proof.
  destruct (proj1 (C93_session odd_record _ ltac:(done)) C93_odd) as (fs & p & Hw & Hs & _ & H1 & _).
  exists fs, p. split_and!; [done|done| |].
  - cbn in H1. destruct (rs_currentSession p); [by rewrite H1|]. done.
  - apply ReadProofs.parse_wire in Hw. by injection Hw as <-.
Qed.
(** Broken within: a current session whose sending chain ends early. *)
Example C93_broken : sr_deserialize [x0a; x03; x32; x01; x0a] = Err EDecodeError.
Proof. reflexivity. Qed.
(** A group record with two states, the chain key of the second in two pieces. *)
Example C93_groups :
  skr_deserialize ([x0a; x02; x08; x07] ++ [x0a; x0a; x12; x02; x08; x05; x12; x04; x12; x02; xaa; xbb]) =
  Ok [StS (Some 7%N) None None []; StS None (Some (SckS (Some 5%N) (Some [xaa; xbb]))) None []].
Proof. reflexivity. Qed.
(** A signed prekey whose time is not eight bytes long has no time. *)
Example C93_no_time : signedprekeyrecord_parse [x08; x01; x28; x05] = Ok (SprS (Some 1%N) None None None None).
Proof. reflexivity. Qed.
