(** Witnesses and combined statements for PropWire.v. *)
From Verif Require Import PyBase Wire Protos ProtoFacts Crypto Ecc Kdf Messages State Prog StateFacts MsgFacts HelperFacts SpecMsg Toy.

Lemma replicate_le (b : Byte.byte) : length (replicate 32 b) <= 32.
Proof. by rewrite replicate_length. Qed.

(** A prekey message without a one-time prekey id. *)
Definition ex_whisper : res whisperMessage :=
  whisper_create toy 3 (replicate 32 x01) (replicate 32 x07) 0 0 [x0a] (replicate 32 x02) (replicate 32 x03).
Definition ex_prekey (pid : option N) : res preKeyWhisperMessage :=
  w ← ex_whisper; prekey_create 3 7 pid 9 (replicate 32 x04) (replicate 32 x02) w.

Lemma prekey_absent_refuted : exists rid spid base ident w m m',
  length base = 32 /\ length ident = 32 /\ whisper_parse (wSerialized w) = Ok w /\
  prekey_create 3 rid None spid base ident w = Ok m /\
  prekey_parse (pSerialized m) = Ok m' /\ pPreKeyId m = None /\ pPreKeyId m' = Some 0%N.
Proof.
  destruct ex_whisper as [w|] eqn:Ew; [|by vm_compute in Ew].
  assert (whisper_parse (wSerialized w) = Ok w) as Hw.
  { eapply (whisper_roundtrip toy toy_ok); [| | |exact Ew]; [by right|apply replicate_le|done]. }
  pose (base := replicate 32 x04). pose (ident := replicate 32 x02).
  pose proof (prekey_create_ok 3 7 None 9 base ident w) as H.
  specialize (H ltac:(done) ltac:(done) I).
  exists 7%N, 9%N, base, ident, w. eexists. eexists. split_and!; [done..|exact H| |done|].
  - eapply prekey_reparse; [apply replicate_le|apply replicate_le|exact Hw|exact H].
  - done.
Qed.

Lemma whisper_empty_refuted : exists m,
  whisper_create toy 3 (replicate 32 x01) (replicate 32 x07) 0 0 [] (replicate 32 x02) (replicate 32 x03) = Ok m /\
  whisper_parse (wSerialized m) = Err EInvalidMessage.
Proof.
  assert (match whisper_create toy 3 (replicate 32 x01) (replicate 32 x07) 0 0 [] (replicate 32 x02) (replicate 32 x03) with
          | Ok m => match whisper_parse (wSerialized m) with Err EInvalidMessage => true | _ => false end | Err _ => false end = true) as H
    by (vm_compute; reflexivity).
  destruct (whisper_create _ _ _ _ _ _ _ _ _) as [m|]; [|done].
  exists m. split; [done|]. by repeat case_match.
Qed.

Lemma whisper_decode_error_refuted : exists bs, bs <> [] /\ whisper_parse bs = Err EDecodeError.
Proof. exists (x33 :: xff :: replicate 8 x00). by vm_compute. Qed.

Lemma kx_decode_error_refuted : exists bs, bs <> [] /\ kx_msg_parse bs = Err EDecodeError.
Proof. exists [x33; xff]. by vm_compute. Qed.

Lemma kx_index_error_refuted : exists bs, bs <> [] /\ kx_msg_parse bs = Err EIndexError.
Proof.
  exists (x33 :: kx_enc (KxS (Some 0%N) (Some []) (Some [x05]) (Some [x05]) (Some []))). by vm_compute.
Qed.

Lemma prekey_parse_lib b bs e : prekey_parse (b :: bs) = Err e -> parser_exn e.
Proof. intros [-> | ->]%prekey_parse_errs; unfold parser_exn; auto. Qed.
Lemma sk_parse_lib b bs e : sk_msg_parse (b :: bs) = Err e -> parser_exn e.
Proof. intros ->%sk_parse_errs. unfold parser_exn; auto. Qed.
Lemma skd_parse_lib b bs e : skd_msg_parse (b :: bs) = Err e -> parser_exn e.
Proof. intros ->%skd_parse_errs. unfold parser_exn; auto. Qed.
Lemma whisper_parse_lib b bs e : whisper_parse (b :: bs) = Err e -> parser_exn e \/ e = EDecodeError.
Proof. intros [->|[->| ->]]%whisper_parse_errs; unfold parser_exn; auto. Qed.
Lemma kx_parse_lib b bs e :
  kx_msg_parse (b :: bs) = Err e -> parser_exn e \/ e = EDecodeError \/ e = EIndexError.
Proof. intros [->|[->|[->|[->| ->]]]]%kx_parse_errs; unfold parser_exn; auto. Qed.

(** Versions, per parser. *)
Lemma whisper_versions b bs :
  ((claimed_version b < 2)%N -> whisper_parse (b :: bs) = Err ELegacyMessage) /\
  ((3 < claimed_version b)%N -> whisper_parse (b :: bs) = Err EInvalidMessage) /\
  (forall m, whisper_parse (b :: bs) = Ok m -> wVersion m = claimed_version b /\ (claimed_version b = 2 \/ claimed_version b = 3)%N).
Proof.
  unfold claimed_version. split_and!.
  - intros H. apply whisper_parse_version. lia.
  - intros H. apply whisper_parse_version_new. lia.
  - intros m Hm. pose proof (whisper_parse_version_ok _ _ _ Hm) as Hv.
    apply whisper_parse_inv in Hm as (_ & _ & Hr & _). rewrite Hv in Hr. split; [done|]. lia.
Qed.

Lemma prekey_versions b bs :
  ((claimed_version b < 3)%N -> prekey_parse (b :: bs) = Err EInvalidMessage) /\
  ((3 < claimed_version b)%N -> prekey_parse (b :: bs) = Err EInvalidVersion) /\
  (forall m, prekey_parse (b :: bs) = Ok m -> pVersion m = 3%N /\ claimed_version b = 3%N).
Proof.
  unfold claimed_version. split_and!.
  - intros H. apply prekey_parse_version_old. lia.
  - intros H. apply prekey_parse_version_new. lia.
  - intros m Hm. split; [by apply prekey_parse_inv in Hm as (_ & ? & _)|].
    destruct (N.le_gt_cases (b2n b / 16) 2) as [Hl|Hl]; [by rewrite prekey_parse_version_old in Hm|].
    destruct (N.le_gt_cases 4 (b2n b / 16)) as [Hg|Hg]; [by rewrite prekey_parse_version_new in Hm|]. lia.
Qed.

Lemma kx_versions b bs :
  ((claimed_version b < 3)%N -> kx_msg_parse (b :: bs) = Err ELegacyMessage) /\
  ((3 < claimed_version b)%N -> kx_msg_parse (b :: bs) = Err EInvalidVersion) /\
  (forall m, kx_msg_parse (b :: bs) = Ok m -> xVersion m = 3%N /\ claimed_version b = 3%N).
Proof.
  unfold claimed_version. split_and!.
  - intros H. apply kx_parse_version_old. lia.
  - intros H. apply kx_parse_version_new. lia.
  - intros m Hm%kx_parse_version_ok. destruct Hm as (? & b' & r & [= <- <-] & ?). done.
Qed.

Lemma sk_versions b bs :
  (claimed_version b <> 3%N -> sk_msg_parse (b :: bs) = Err EInvalidMessage) /\
  (forall m, sk_msg_parse (b :: bs) = Ok m -> gVersion m = 3%N /\ claimed_version b = 3%N).
Proof.
  split; [apply sk_parse_version|]. intros m Hm. split; [by apply sk_parse_inv in Hm as (_ & ? & _)|].
  destruct (N.eq_dec (claimed_version b) 3); [done|]. by rewrite sk_parse_version in Hm.
Qed.

Lemma skd_versions b bs :
  (claimed_version b <> 3%N -> skd_msg_parse (b :: bs) = Err EInvalidMessage) /\
  (forall m, skd_msg_parse (b :: bs) = Ok m -> claimed_version b = 3%N).
Proof.
  split; [apply skd_parse_version|]. intros m Hm.
  destruct (N.eq_dec (claimed_version b) 3); [done|]. by rewrite skd_parse_version in Hm.
Qed.

Lemma legacy_refuted : exists bs, bs <> [] /\ (exists b r, bs = b :: r /\ (claimed_version b < 3)%N) /\
  prekey_parse bs <> Err ELegacyMessage /\ sk_msg_parse bs <> Err ELegacyMessage /\ skd_msg_parse bs <> Err ELegacyMessage.
Proof. exists [x22; x00]. split_and!; [done|by exists x22, [x00]|by vm_compute..]. Qed.

(** A record with non-trivial content, for the examples. *)
Definition ex_state : ss_s :=
  SsS (Some 3%N) (Some (x05 :: replicate 32 x01)) (Some (x05 :: replicate 32 x02)) (Some (replicate 32 x09)) (Some 4%N)
    (Some (ChS (Some (x05 :: replicate 32 x03)) (Some (replicate 32 x04)) (Some (CkS (Some 6%N) (Some (replicate 32 x08)))) []))
    [ChS (Some (x05 :: replicate 32 x05)) None (Some (CkS (Some 2%N) (Some (replicate 32 x0b))))
       [MkS (Some 0%N) (Some (replicate 32 x0c)) (Some (replicate 32 x0d)) (Some (replicate 16 x0e))]]
    (Some (PxS (Some 77%N) (Some [x05]) (Some [x01]) (Some [x05]) (Some [x02]) (Some [x05]) (Some [x03])))
    (Some (PpS (Some 5%N) (Some (x05 :: replicate 32 x06)) (Some 9%Z)))
    (Some 11%N) (Some 7%N) None (Some (x05 :: replicate 32 x06)).
Definition ex_record : sessionRecord := SessionRecord true ex_state [ex_state; ss_empty].
Lemma ex_record_roundtrip :
  rec_wf ex_record /\ sr_deserialize (sr_serialize ex_record) = Ok (SessionRecord false ex_state [ex_state; ss_empty]).
Proof.
  assert (rec_wf ex_record) as H.
  { split; cbn [ex_record sr_state sr_previous]; [|repeat apply Forall_cons_2; [| |by constructor]].
    all: unfold ss_wf; split_and!; cbn; try done; repeat constructor; cbn; try done; lia. }
  split; [exact H|]. exact (sr_roundtrip _ H).
Qed.
