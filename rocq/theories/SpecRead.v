(** The protobuf wire format as a relation, and what the fields of a message say: an
    independent description used by C90. *)
From Verif Require Import PyBase Wire Messages SpecMsg.

(** A number in groups of seven bits, the lowest first; all groups but the last are marked. *)
Inductive varint : bytes -> N -> Prop :=
| varint_last b : (b2n b < 128)%N -> varint [b] (b2n b)
| varint_more b bs n : (128 <= b2n b)%N -> varint bs n -> varint (b :: bs) (b2n b - 128 + 128 * n).

(** The field number and the wire type. *)
Definition tag (t : bytes) (num kind : N) : Prop :=
  varint t (num * 8 + kind) /\ (kind < 8)%N /\ (0 < num < 2 ^ 29)%N /\ length t <= 5.
Fixpoint little (bs : bytes) : N := match bs with [] => 0 | b :: bs => b2n b + 256 * little bs end.

(** The bytes are these fields, one after the other. *)
Inductive wire : bytes -> list wfield -> Prop :=
| wire_nil : wire [] []
| wire_var t num v n bs fs : tag t num 0 -> varint v n -> length v <= 10 -> wire bs fs ->
    wire (t ++ v ++ bs) ((num, WVar (n mod 2 ^ 64)) :: fs)
| wire_64 t num b bs fs : tag t num 1 -> length b = 8 -> wire bs fs -> wire (t ++ b ++ bs) ((num, W64 (little b)) :: fs)
| wire_len t num l b bs fs : tag t num 2 -> varint l (N.of_nat (length b)) -> (length l <= 10 \/ last l <> Some x00) -> wire bs fs ->
    wire (t ++ l ++ b ++ bs) ((num, WLen b) :: fs)
| wire_group t num b gs t' bs fs : tag t num 3 -> wire b gs -> tag t' num 4 -> wire bs fs ->
    wire (t ++ b ++ t' ++ bs) ((num, WGroup) :: fs)
| wire_32 t num b bs fs : tag t num 5 -> length b = 4 -> wire bs fs -> wire (t ++ b ++ bs) ((num, W32 (little b)) :: fs).

(** The value of a field of a message is that of its last occurrence with the right type;
    other fields do not matter. *)
Definition the_bytes (num : N) (fs : list wfield) : option bytes :=
  last (omap (fun f => match f.2 with WLen b => if decide (f.1 = num) then Some b else None | _ => None end) fs).
Definition the_number (num : N) (fs : list wfield) : option N :=
  last (omap (fun f => match f.2 with WVar n => if decide (f.1 = num) then Some (n mod 2 ^ 32)%N else None | _ => None end) fs).

(** [b] begins with the encoding of the key [k]: the type byte and 32 bytes, or less if [b]
    ends before. *)
Definition key_in (b k : bytes) : Prop :=
  exists rest, b = x05 :: k ++ rest /\ (length k = 32 \/ (length k < 32 /\ rest = [])).

(** What is written for the messages. *)
Definition reads_whisper (bs : bytes) (m : whisperMessage) : Prop :=
  exists v body mac fs key,
    bs = v :: body ++ mac /\ length mac = 8 /\ (claimed_version v = 2 \/ claimed_version v = 3)%N /\ wire body fs /\
    the_bytes 1 fs = Some key /\ key_in key (wRatchetKey m) /\
    the_bytes 4 fs = Some (wBody m) /\ wBody m <> [] /\
    wCounter m = default 0%N (the_number 2 fs) /\ wPreviousCounter m = default 0%N (the_number 3 fs) /\
    wVersion m = claimed_version v /\ wSerialized m = bs.
Definition reads_prekey (bs : bytes) (m : preKeyWhisperMessage) : Prop :=
  exists v body fs base identity inner,
    bs = v :: body /\ claimed_version v = 3%N /\ wire body fs /\
    the_bytes 2 fs = Some base /\ key_in base (pBaseKey m) /\ the_bytes 3 fs = Some identity /\ key_in identity (pIdentityKey m) /\
    the_bytes 4 fs = Some inner /\ reads_whisper inner (pMessage m) /\
    pRegistrationId m = default 0%N (the_number 5 fs) /\ pPreKeyId m = Some (default 0%N (the_number 1 fs)) /\
    pSignedPreKeyId m = default 0%N (the_number 6 fs) /\ pVersion m = 3%N /\ pSerialized m = bs.
Definition reads_exchange (bs : bytes) (m : keyExchangeMessage) : Prop :=
  exists v body fs id base ratchet identity,
    bs = v :: body /\ claimed_version v = 3%N /\ wire body fs /\
    the_number 1 fs = Some id /\ xSequence m = (id / 32)%N /\ xFlags m = (id mod 32)%N /\
    the_bytes 2 fs = Some base /\ key_in base (xBaseKey m) /\ the_bytes 3 fs = Some ratchet /\ key_in ratchet (xRatchetKey m) /\
    the_bytes 4 fs = Some identity /\ key_in identity (xIdentityKey m) /\ the_bytes 5 fs = Some (xBaseKeySignature m) /\
    xVersion m = 3%N /\ xSupportedVersion m = (b2n v mod 16)%N /\ xSerialized m = bs.
Definition reads_sender_key (bs : bytes) (m : senderKeyMessage) : Prop :=
  exists v body sig fs,
    bs = v :: body ++ sig /\ length sig = 64 /\ claimed_version v = 3%N /\ wire body fs /\
    gKeyId m = default 0%N (the_number 1 fs) /\ gIteration m = default 0%N (the_number 2 fs) /\
    gCiphertext m = default [] (the_bytes 3 fs) /\ gVersion m = 3%N /\ gSerialized m = bs.
Definition reads_distribution (bs : bytes) (m : senderKeyDistributionMessage) : Prop :=
  exists v body fs key,
    bs = v :: body /\ claimed_version v = 3%N /\ wire body fs /\
    the_bytes 4 fs = Some key /\ key_in key (dSignatureKey m) /\
    dId m = default 0%N (the_number 1 fs) /\ dIteration m = default 0%N (the_number 2 fs) /\
    dChainKey m = default [] (the_bytes 3 fs) /\ dSerialized m = bs.
