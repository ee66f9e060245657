(** C90: received messages are read exactly as their encoding says. *)
From Verif Require Import PyBase Wire Protos Crypto Ecc Messages SpecMsg SpecRead ReadProofs.

(** The fields found in a byte string are those it is an encoding of; without any, the
    parser raises DecodeError. *)
Theorem C90_fields : forall bs fs, parse_raw bs = Ok fs <-> wire bs fs.
Proof. exact parse_wire. Qed.
Theorem C90_no_fields : forall bs, (exists fs, wire bs fs) \/ parse_raw bs = Err EDecodeError.
Proof. exact parse_not. Qed.
Theorem C90_unambiguous : forall bs fs fs', wire bs fs -> wire bs fs' -> fs = fs'.
Proof. exact wire_unique. Qed.

(** Which byte strings are accepted as messages, and what they say. *)
Theorem C90_whisper : forall bs m, whisper_parse bs = Ok m <-> reads_whisper bs m.
Proof. exact whisper_reads. Qed.
Theorem C90_prekey : forall bs m, prekey_parse bs = Ok m <-> reads_prekey bs m.
Proof. exact prekey_reads. Qed.
Theorem C90_exchange : forall bs m, kx_msg_parse bs = Ok m <-> reads_exchange bs m.
Proof. exact exchange_reads. Qed.
Theorem C90_distribution : forall bs m, skd_msg_parse bs = Ok m <-> reads_distribution bs m.
Proof. exact distribution_reads. Qed.

(** Sender key messages: the same, if the byte string has room for the version byte and the
    signature.  The full statement, without the condition, is false: *)
Theorem C90_sender_key_partial : forall bs m, 65 <= length bs -> sk_msg_parse bs = Ok m <-> reads_sender_key bs m.
Proof. exact sender_key_reads. Qed.
(** ... up to 32 bytes of anything, after a good version byte, are accepted as the message
    with number 0 of the key with number 0. *)
Theorem C90_sender_key_refuted : forall v r, length r <= 31 -> claimed_version v = 3%N ->
  exists m, sk_msg_parse (v :: r) = Ok m /\ gKeyId m = 0%N /\ gIteration m = 0%N /\ gCiphertext m = [] /\ ~ reads_sender_key (v :: r) m.
Proof. exact short_accepted. Qed.

Print Assumptions C90_fields.
Print Assumptions C90_no_fields.
Print Assumptions C90_unambiguous.
Print Assumptions C90_whisper.
Print Assumptions C90_prekey.
Print Assumptions C90_exchange.
Print Assumptions C90_distribution.
Print Assumptions C90_sender_key_partial.
Print Assumptions C90_sender_key_refuted.

(** A message nobody would write like this: the counter twice, the second time with a
    needless group of zeros, an unknown group with something in it, and the key last. *)
Definition odd_body : bytes :=
  [x10; x05; x10; x87; x80; x00; x3b; x08; x01; x3c; x22; x01; xaa; x0a; x22; x05] ++ replicate 32 x11 ++ [x99].
Example C90_odd : wire odd_body [(2, WVar 5); (2, WVar 7); (7, WGroup); (4, WLen [xaa]); (1, WLen (x05 :: replicate 32 x11 ++ [x99]))]%N.
Proof. apply C90_fields. reflexivity. Qed.
Example C90_odd_message : let bs := x33 :: odd_body ++ replicate 8 x00 in
  reads_whisper bs (WhisperMessage (replicate 32 x11) 3 7 0 [xaa] bs).
Proof. apply C90_whisper. reflexivity. Qed.
(** Not encodings of anything: a length that is too large, an end without a beginning, the
    field number 0, an unfinished number. *)
Example C90_broken : Forall (fun bs => parse_raw bs = Err EDecodeError) [[x22; x05; xaa]; [x3c]; [x00; x01]; [x10; x80]; [x3b; x34]; [x3b]].
Proof. by repeat constructor. Qed.
