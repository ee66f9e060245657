(** Properties C23, C24, C25, C26: messages and records on the wire and in the stores. *)
From Verif Require Import PyBase Wire Protos Crypto Ecc Kdf Messages State Prog.
From Verif Require Import SpecMsg StateFacts MsgFacts WireProofs Toy.

(** ** C23: wire messages survive serialise/parse *)

(** The body is never empty in messages the library creates: CBC with padding yields at
    least one block (C39). *)
Theorem C23_whisper : forall C, crypto_ok C ->
  forall version mac key counter prev ct a b m,
  (version = 2 \/ version = 3)%N -> length key <= 32 -> ct <> [] ->
  whisper_create C version mac key counter prev ct a b = Ok m ->
  whisper_parse (wSerialized m) = Ok m.
Proof. exact whisper_roundtrip. Qed.
Print Assumptions C23_whisper.

Theorem C23_whisper_empty_body_refuted : exists m,
  whisper_create toy 3 (replicate 32 x01) (replicate 32 x07) 0 0 [] (replicate 32 x02) (replicate 32 x03) = Ok m /\
  whisper_parse (wSerialized m) = Err EInvalidMessage.
Proof. exact whisper_empty_refuted. Qed.
Print Assumptions C23_whisper_empty_body_refuted.

Theorem C23_prekey_with_id : forall rid pid spid base ident w m,
  length base <= 32 -> length ident <= 32 -> whisper_parse (wSerialized w) = Ok w ->
  prekey_create 3 rid (Some pid) spid base ident w = Ok m ->
  prekey_parse (pSerialized m) = Ok m.
Proof. exact prekey_roundtrip. Qed.
Print Assumptions C23_prekey_with_id.

(** Every field but an absent prekey id comes back. *)
Theorem C23_prekey_partial : forall rid pid spid base ident w m,
  length base <= 32 -> length ident <= 32 -> whisper_parse (wSerialized w) = Ok w ->
  prekey_create 3 rid pid spid base ident w = Ok m ->
  prekey_parse (pSerialized m) =
    Ok (PreKeyWhisperMessage 3 rid (Some (default 0%N pid)) spid base ident w (pSerialized m)).
Proof. exact prekey_reparse. Qed.
Print Assumptions C23_prekey_partial.

(** An absent prekey id is parsed as the id 0. *)
Theorem C23_prekey_absent_id_refuted : exists rid spid base ident w m m',
  length base = 32 /\ length ident = 32 /\ whisper_parse (wSerialized w) = Ok w /\
  prekey_create 3 rid None spid base ident w = Ok m /\
  prekey_parse (pSerialized m) = Ok m' /\ pPreKeyId m = None /\ pPreKeyId m' = Some 0%N.
Proof. exact prekey_absent_refuted. Qed.
Print Assumptions C23_prekey_absent_id_refuted.

Theorem C23_key_exchange : forall sequence flags base sig ratchet ident m,
  length base <= 32 -> length ratchet <= 32 -> length ident <= 32 -> (flags < 32)%N ->
  kx_create 3 sequence flags base sig ratchet ident = Ok m ->
  kx_msg_parse (xSerialized m) = Ok m.
Proof. exact kx_roundtrip_msg. Qed.
Print Assumptions C23_key_exchange.

Theorem C23_sender_key : forall C, crypto_ok C -> forall id it ct priv rand m,
  sk_create C id it ct priv rand = Ok m -> sk_msg_parse (gSerialized m) = Ok m.
Proof. exact sk_roundtrip_msg. Qed.
Print Assumptions C23_sender_key.

Theorem C23_sender_key_distribution : forall id it ck sk m,
  length sk <= 32 -> skd_create id it ck sk = Ok m -> skd_msg_parse (dSerialized m) = Ok m.
Proof. exact skd_roundtrip_msg. Qed.
Print Assumptions C23_sender_key_distribution.

Example C23_example :
  (m ← whisper_create toy 2 [x01] (replicate 32 x07) 4294967295 17 [x0a; x0b] [] []; whisper_parse (wSerialized m))
  = whisper_create toy 2 [x01] (replicate 32 x07) 4294967295 17 [x0a; x0b] [] [] /\
  (m ← kx_create 3 65535 6 (replicate 32 x01) [x0a] (replicate 32 x02) (replicate 32 x03); kx_msg_parse (xSerialized m))
  = kx_create 3 65535 6 (replicate 32 x01) [x0a] (replicate 32 x02) (replicate 32 x03) /\
  is_ok (whisper_create toy 2 [x01] (replicate 32 x07) 4294967295 17 [x0a; x0b] [] []) /\
  is_ok (kx_create 3 65535 6 (replicate 32 x01) [x0a] (replicate 32 x02) (replicate 32 x03)) /\
  is_ok (m ← ex_prekey (Some 5%N); prekey_parse (pSerialized m)).
Proof. vm_compute. auto. Qed.

(** ** C24: stored records survive serialise/parse *)

(** [rec_wf]: integer fields are in the range of their protobuf type, which the setters
    enforce.  Everything loaded from a store satisfies it (second theorem).  Only the
    "fresh" flag, which is not stored, is reset. *)
Theorem C24_session_record : forall r, rec_wf r ->
  sr_deserialize (sr_serialize r) = Ok (SessionRecord false (sr_state r) (sr_previous r)).
Proof. exact sr_roundtrip. Qed.
Print Assumptions C24_session_record.

Theorem C24_loaded_session_record_wf : forall bs r, sr_deserialize bs = Ok r -> rec_wf r.
Proof. exact sr_deserialize_wf. Qed.
Print Assumptions C24_loaded_session_record_wf.

Theorem C24_prekey_record : forall id kp r,
  length (kp_pub kp) <= 32 -> prekeyrecord_create id kp = Ok r ->
  prekeyrecord_parse (pr_enc r) = Ok r /\ prekeyrecord_getId r = id /\ prekeyrecord_getKeyPair r = Ok kp.
Proof. exact prekeyrecord_roundtrip. Qed.
Print Assumptions C24_prekey_record.

Theorem C24_signed_prekey_record : forall id ts kp sig r,
  length (kp_pub kp) <= 32 -> signedprekeyrecord_create id ts kp sig = Ok r ->
  signedprekeyrecord_parse (spr_enc r) = Ok r /\ signedprekeyrecord_getId r = id /\
  signedprekeyrecord_getTimestamp r = ts /\ signedprekeyrecord_getSignature r = sig /\
  signedprekeyrecord_getKeyPair r = Ok kp.
Proof. exact signedprekeyrecord_roundtrip. Qed.
Print Assumptions C24_signed_prekey_record.

Theorem C24_identity_key_pair : forall kp, length (kp_pub kp) <= 32 ->
  identitykeypair_parse (identitykeypair_serialize kp) = Ok kp.
Proof. exact identitykeypair_roundtrip. Qed.
Print Assumptions C24_identity_key_pair.

Theorem C24_sender_key_record : forall l, Forall st_wf l -> skr_deserialize (skr_serialize l) = Ok l.
Proof. exact skr_roundtrip. Qed.
Print Assumptions C24_sender_key_record.

Theorem C24_loaded_sender_key_record_wf : forall bs l, skr_deserialize bs = Ok l -> Forall st_wf l.
Proof. exact skr_deserialize_wf. Qed.
Print Assumptions C24_loaded_sender_key_record_wf.

Example C24_example :
  rec_wf ex_record /\ sr_deserialize (sr_serialize ex_record) = Ok (SessionRecord false ex_state [ex_state; ss_empty]).
Proof. exact ex_record_roundtrip. Qed.

(** ** C25: unsupported versions are refused *)

Theorem C25_whisper : forall b bs,
  ((claimed_version b < 2)%N -> whisper_parse (b :: bs) = Err ELegacyMessage) /\
  ((3 < claimed_version b)%N -> whisper_parse (b :: bs) = Err EInvalidMessage) /\
  (forall m, whisper_parse (b :: bs) = Ok m ->
     wVersion m = claimed_version b /\ (claimed_version b = 2 \/ claimed_version b = 3)%N).
Proof. exact whisper_versions. Qed.
Print Assumptions C25_whisper.

(** LegacyMessageException raised inside this parser is converted by its except clause. *)
Theorem C25_prekey : forall b bs,
  ((claimed_version b < 3)%N -> prekey_parse (b :: bs) = Err EInvalidMessage) /\
  ((3 < claimed_version b)%N -> prekey_parse (b :: bs) = Err EInvalidVersion) /\
  (forall m, prekey_parse (b :: bs) = Ok m -> pVersion m = 3%N /\ claimed_version b = 3%N).
Proof. exact prekey_versions. Qed.
Print Assumptions C25_prekey.

Theorem C25_key_exchange : forall b bs,
  ((claimed_version b < 3)%N -> kx_msg_parse (b :: bs) = Err ELegacyMessage) /\
  ((3 < claimed_version b)%N -> kx_msg_parse (b :: bs) = Err EInvalidVersion) /\
  (forall m, kx_msg_parse (b :: bs) = Ok m -> xVersion m = 3%N /\ claimed_version b = 3%N).
Proof. exact kx_versions. Qed.
Print Assumptions C25_key_exchange.

(** Both parsers of group messages convert every exception to InvalidMessageException. *)
Theorem C25_sender_key : forall b bs,
  (claimed_version b <> 3%N -> sk_msg_parse (b :: bs) = Err EInvalidMessage) /\
  (forall m, sk_msg_parse (b :: bs) = Ok m -> gVersion m = 3%N /\ claimed_version b = 3%N).
Proof. exact sk_versions. Qed.
Print Assumptions C25_sender_key.

Theorem C25_sender_key_distribution : forall b bs,
  (claimed_version b <> 3%N -> skd_msg_parse (b :: bs) = Err EInvalidMessage) /\
  (forall m, skd_msg_parse (b :: bs) = Ok m -> claimed_version b = 3%N).
Proof. exact skd_versions. Qed.
Print Assumptions C25_sender_key_distribution.

(** Read as "the LegacyMessageException class", the claim fails for three parsers. *)
Theorem C25_legacy_class_refuted : exists bs,
  bs <> [] /\ (exists b r, bs = b :: r /\ (claimed_version b < 3)%N) /\
  prekey_parse bs <> Err ELegacyMessage /\ sk_msg_parse bs <> Err ELegacyMessage /\
  skd_msg_parse bs <> Err ELegacyMessage.
Proof. exact legacy_refuted. Qed.
Print Assumptions C25_legacy_class_refuted.

Example C25_example :
  whisper_parse [x13] = Err ELegacyMessage /\ whisper_parse [x43; x00] = Err EInvalidMessage /\
  prekey_parse [x43] = Err EInvalidVersion /\ kx_msg_parse [x23] = Err ELegacyMessage.
Proof. by vm_compute. Qed.

(** ** C26: parsers fail only with the library's own exceptions *)

Theorem C26_prekey : forall b bs e, prekey_parse (b :: bs) = Err e -> parser_exn e.
Proof. exact prekey_parse_lib. Qed.
Print Assumptions C26_prekey.

Theorem C26_sender_key : forall b bs e, sk_msg_parse (b :: bs) = Err e -> parser_exn e.
Proof. exact sk_parse_lib. Qed.
Print Assumptions C26_sender_key.

Theorem C26_sender_key_distribution : forall b bs e, skd_msg_parse (b :: bs) = Err e -> parser_exn e.
Proof. exact skd_parse_lib. Qed.
Print Assumptions C26_sender_key_distribution.

(** Full claim for the other two: [parser_exn e].  It fails, see below. *)
Theorem C26_whisper_partial : forall b bs e,
  whisper_parse (b :: bs) = Err e -> parser_exn e \/ e = EDecodeError.
Proof. exact whisper_parse_lib. Qed.
Print Assumptions C26_whisper_partial.

Theorem C26_key_exchange_partial : forall b bs e,
  kx_msg_parse (b :: bs) = Err e -> parser_exn e \/ e = EDecodeError \/ e = EIndexError.
Proof. exact kx_parse_lib. Qed.
Print Assumptions C26_key_exchange_partial.

Theorem C26_whisper_decode_error_refuted : exists bs, bs <> [] /\ whisper_parse bs = Err EDecodeError.
Proof. exact whisper_decode_error_refuted. Qed.
Print Assumptions C26_whisper_decode_error_refuted.

Theorem C26_key_exchange_decode_error_refuted : exists bs, bs <> [] /\ kx_msg_parse bs = Err EDecodeError.
Proof. exact kx_decode_error_refuted. Qed.
Print Assumptions C26_key_exchange_decode_error_refuted.

Theorem C26_key_exchange_index_error_refuted : exists bs, bs <> [] /\ kx_msg_parse bs = Err EIndexError.
Proof. exact kx_index_error_refuted. Qed.
Print Assumptions C26_key_exchange_index_error_refuted.

Example C26_example :
  prekey_parse [x33; xff] = Err EInvalidMessage /\ sk_msg_parse (x33 :: xff :: replicate 64 x00) = Err EInvalidMessage /\
  skd_msg_parse [x33; xff] = Err EInvalidMessage.
Proof. by vm_compute. Qed.
