(** Properties C19, C27, C28, C34, C35, C37, C38, C39: keys, derivation, ids, bytes. *)
From Verif Require Import PyBase Wire Protos Crypto Ecc Kdf Messages State Prog Ratchet Builder Helper.
From Verif Require Import SpecUtil UtilFacts HelperFacts UtilProofs Toy.

(** ** C19: exactly one party takes the Alice role *)

(** The order used to assign roles is the lexicographic order of the eight signed
    big-endian integers of the keys. *)
Theorem C19_order_is_lexicographic : forall a b, length a = 32 -> length b = 32 ->
  exists t, isAlice a b = Ok t /\ (t = true <-> lex_lt (key_ints a) (key_ints b)).
Proof. exact pub_lt_spec. Qed.
Print Assumptions C19_order_is_lexicographic.

Theorem C19_exactly_one_alice : forall a b, length a = 32 -> length b = 32 -> a <> b ->
  (isAlice a b = Ok true /\ isAlice b a = Ok false) \/ (isAlice a b = Ok false /\ isAlice b a = Ok true).
Proof. exact pub_lt_total. Qed.
Print Assumptions C19_exactly_one_alice.

Theorem C19_irreflexive : forall a, length a = 32 -> isAlice a a = Ok false.
Proof. exact pub_lt_irrefl. Qed.
Print Assumptions C19_irreflexive.

Theorem C19_transitive : forall a b c, isAlice a b = Ok true -> isAlice b c = Ok true -> isAlice a c = Ok true.
Proof. exact pub_lt_trans. Qed.
Print Assumptions C19_transitive.

Theorem C19_other_lengths_raise : forall a b, length a <> 32 \/ length b <> 32 -> isAlice a b = Err EStructError.
Proof. exact pub_lt_err. Qed.
Print Assumptions C19_other_lengths_raise.

(** The order is signed: a key starting with 0x80 is below one starting with 0x00. *)
Example C19_example :
  isAlice (x80 :: replicate 31 xff) (replicate 32 x00) = Ok true /\
  isAlice (replicate 32 x00) (x80 :: replicate 31 xff) = Ok false /\
  isAlice (replicate 31 x00) (replicate 32 x00) = Err EStructError.
Proof. by vm_compute. Qed.

(** ** C27: HKDF is RFC 5869 *)

(** Full claim: for every output length.  It holds up to 127 blocks of 32 bytes, the
    library never asks for more than 80 bytes; beyond it is refuted below. *)
Theorem C27_hkdf_v3_is_rfc5869_partial : forall C, crypto_ok C -> forall ikm info L salt,
  ((L + 31) / 32 <= 127)%nat ->
  hkdf_deriveSecrets C hkdf_v3 ikm info L salt
  = rfc_hkdf (hmac256 C) 1 (match salt with [] => None | _ => Some salt end) ikm info L.
Proof. exact derive_rfc_v3. Qed.
Print Assumptions C27_hkdf_v3_is_rfc5869_partial.

(** Version 2 differs only in counting blocks from 0. *)
Theorem C27_hkdf_v2_counts_from_zero : forall C, crypto_ok C -> forall ikm info L salt,
  ((L + 31) / 32 <= 128)%nat ->
  hkdf_deriveSecrets C hkdf_v2 ikm info L salt
  = rfc_hkdf (hmac256 C) 0 (match salt with [] => None | _ => Some salt end) ikm info L.
Proof. exact derive_rfc_v2. Qed.
Print Assumptions C27_hkdf_v2_counts_from_zero.

Theorem C27_output_length : forall C, crypto_ok C -> forall off ikm info L salt,
  length (hkdf_deriveSecrets C off ikm info L salt) = L.
Proof. exact derive_length. Qed.
Print Assumptions C27_output_length.

Theorem C27_shorter_is_prefix : forall C, crypto_ok C -> forall off ikm info L1 L2 salt, (L1 <= L2)%nat ->
  hkdf_deriveSecrets C off ikm info L1 salt = take L1 (hkdf_deriveSecrets C off ikm info L2 salt).
Proof. exact derive_prefix. Qed.
Print Assumptions C27_shorter_is_prefix.

(** With 128 blocks the code appends the UTF-8 encoding of U+0080, two bytes, where the
    RFC appends one byte. *)
Theorem C27_hkdf_beyond_127_blocks_refuted : exists C, crypto_ok C /\ exists ikm info L salt,
  (L <= 255 * 32)%nat /\
  hkdf_deriveSecrets C hkdf_v3 ikm info L salt
  <> rfc_hkdf (hmac256 C) 1 (match salt with [] => None | _ => Some salt end) ikm info L.
Proof. exact derive_rfc_refuted. Qed.
Print Assumptions C27_hkdf_beyond_127_blocks_refuted.

Example C27_example :
  crypto_ok toy /\ hkdf_deriveSecrets toy hkdf_v3 [x01] (str "info") 70 []
    = rfc_hkdf toy_hmac 1 None [x01] (str "info") 70 /\
  hkdf_deriveSecrets toy hkdf_v3 [x01] (str "info") 70 [] <> hkdf_deriveSecrets toy hkdf_v2 [x01] (str "info") 70 [].
Proof. split; [exact toy_ok|]. split; [by vm_compute|]. by vm_compute. Qed.

(** ** C28: the symmetric ratchet *)

(** After [n] steps the chain key is HMAC with 0x02 iterated [n] times, the index went up
    by [n], and the message keys are the 80 bytes HKDF(HMAC(key, 0x01)) cut into 32, 32
    and 16 bytes, with the index as counter. *)
Theorem C28_nth_message_keys : forall C, crypto_ok C -> forall c n,
  let key_n := Nat.iter n (fun k => hmac256 C k [x02]) (cKey c) in
  let c_n := Nat.iter n (ck_next C) c in
  let mk := ck_messageKeys C c_n in
  cKey c_n = key_n /\ cIndex c_n = (cIndex c + N.of_nat n)%N /\
  mCipher mk ++ mMac mk ++ mIv mk
    = hkdf_deriveSecrets C (cKdf c) (hmac256 C key_n [x01]) (str "WhisperMessageKeys") 80 [] /\
  length (mCipher mk) = 32 /\ length (mMac mk) = 32 /\ length (mIv mk) = 16 /\
  mCounter mk = (cIndex c + N.of_nat n)%N.
Proof. exact nth_message_keys. Qed.
Print Assumptions C28_nth_message_keys.

(** The same for sender keys in groups. *)
Theorem C28_nth_sender_key : forall C, crypto_ok C -> forall c n,
  let key_n := Nat.iter n (fun k => hmac256 C k [x02]) (scKey c) in
  let c_n := Nat.iter n (sck_next C) c in
  let mk := sck_messageKey C c_n in
  scKey c_n = key_n /\ scIteration c_n = (scIteration c + N.of_nat n)%N /\
  smSeed mk = hmac256 C key_n [x01] /\
  smIv mk ++ smCipher mk = hkdf_deriveSecrets C hkdf_v3 (smSeed mk) (str "WhisperGroup") 48 [] /\
  length (smIv mk) = 16 /\ length (smCipher mk) = 32 /\
  smIteration mk = (scIteration c + N.of_nat n)%N.
Proof. exact nth_sender_key. Qed.
Print Assumptions C28_nth_sender_key.

Example C28_example :
  mCounter (ck_messageKeys toy (Nat.iter 3 (ck_next toy) (ChainKey hkdf_v3 [x07] 4))) = 7%N /\
  ck_messageKeys toy (Nat.iter 3 (ck_next toy) (ChainKey hkdf_v3 [x07] 4))
  <> ck_messageKeys toy (Nat.iter 2 (ck_next toy) (ChainKey hkdf_v3 [x07] 5)).
Proof. by vm_compute. Qed.

(** ** C34: prekey ids *)

Theorem C34_prekey_ids : forall C, crypto_ok C -> forall start count w,
  exists l w', run (generatePreKeys C start count) w = (Ok l, w') /\ length l = count /\
    let ids := map (fun r => Z.of_N (prekeyrecord_getId r)) l in
    Forall (fun i => 1 <= i <= max_prekey_id)%Z ids /\
    consecutive ids /\
    ((1 <= start <= max_prekey_id)%Z -> (0 < count)%nat -> head ids = Some start) /\
    ((Z.of_nat count <= max_prekey_id)%Z -> NoDup ids).
Proof. exact prekey_ids. Qed.
Print Assumptions C34_prekey_ids.

(** Every generated record holds a usable key pair: its public key is that of its
    private key. *)
Theorem C34_prekey_pairs : forall C, crypto_ok C -> forall start count w l w',
  run (generatePreKeys C start count) w = (Ok l, w') ->
  Forall (fun r => exists k, length k = 32 /\ prekeyrecord_getKeyPair r = Ok (KeyPair (genPub C k) k)) l.
Proof. exact prekey_pairs. Qed.
Print Assumptions C34_prekey_pairs.

Example C34_example : exists l w',
  run (generatePreKeys toy 16777213 4) (World ∅ ∅ ∅ ∅ (KeyPair [] []) 1 ∅ (fun n => [n2b (N.of_nat n)]) 0) = (Ok l, w') /\
  map (fun r => Z.of_N (prekeyrecord_getId r)) l = [16777213; 16777214; 1; 2]%Z.
Proof. eexists _, _. split; [by vm_compute|]. by vm_compute. Qed.

(** ** C35: registration and sender key ids *)

Theorem C35_registration_id : forall ext w, exists v w',
  run (generateRegistrationId ext) w = (Ok v, w') /\ (1 <= v <= (if ext then 2147483646 else 16380))%N.
Proof. exact registration_id. Qed.
Print Assumptions C35_registration_id.

Theorem C35_sender_key_id : forall w, exists v w',
  run generateSenderKeyId w = (Ok v, w') /\ (v <= 2147483646)%N.
Proof. exact sender_key_id. Qed.
Print Assumptions C35_sender_key_id.

(** The ranges are exact: every value in them comes from some outcome. *)
Theorem C35_registration_id_onto : forall ext v, (1 <= v <= (if ext : bool then 2147483646 else 16380))%N ->
  forall w, exists tape, forall n w', w' = World (w_sessions w) (w_prekeys w) (w_signed w) (w_trusted w)
     (w_identity w) (w_regid w) (w_senderkeys w) tape n -> (run (generateRegistrationId ext) w').1 = Ok v.
Proof. exact registration_id_onto. Qed.
Print Assumptions C35_registration_id_onto.

(** ** C37: names and addresses *)

Theorem C37_address_equality : forall a b, address_eqb a b = true <-> aName a = aName b /\ aDevice a = aDevice b.
Proof. exact address_eq_parts. Qed.
Print Assumptions C37_address_equality.

Theorem C37_name_equality : forall a b, skname_eqb a b = true <->
  nGroup a = nGroup b /\ aName (nSender a) = aName (nSender b) /\ aDevice (nSender a) = aDevice (nSender b).
Proof. exact skname_eq_parts. Qed.
Print Assumptions C37_name_equality.

Theorem C37_equal_hash_alike : forall h, (forall a b, address_eqb a b = true -> address_hash h a = address_hash h b) /\
  (forall a b, skname_eqb a b = true -> skname_hash h a = skname_hash h b).
Proof. exact equal_hash_alike. Qed.
Print Assumptions C37_equal_hash_alike.

(** The claim that distinct names have distinct serialised forms is false. *)
Theorem C37_serialized_injective_refuted : exists a b, skname_eqb a b = false /\ skname_serialize a = skname_serialize b.
Proof. exact skname_serialize_refuted. Qed.
Print Assumptions C37_serialized_injective_refuted.

(** It holds for names whose sender does not contain a colon. *)
Theorem C37_serialized_injective_partial : forall a b,
  no_colon (aName (nSender a)) -> no_colon (aName (nSender b)) ->
  skname_serialize a = skname_serialize b -> a = b.
Proof. exact skname_serialize_inj. Qed.
Print Assumptions C37_serialized_injective_partial.

Example C37_example :
  skname_serialize (SenderKeyNameObj "group::x" (AxolotlAddress "+1415" (-12))) = "group::x::+1415::-12"%string /\
  no_colon "+1415".
Proof. split; [by vm_compute|]. repeat constructor; by vm_compute. Qed.

(** ** C38: byte utilities *)

Theorem C38_split_of_combination : forall a b c rest,
  bu_combine [BSeq a; BSeq b; BSeq c; BSeq rest] = Ok (a ++ b ++ c ++ rest) /\
  bu_split3 (a ++ b ++ c ++ rest) (zlen a) (zlen b) (zlen c) = (a, b, c) /\
  bu_split2 (a ++ b ++ rest) (zlen a) (zlen b) = (a, b) /\
  bu_trim (a ++ rest) (zlen a) = a.
Proof. exact split_of_combination. Qed.
Print Assumptions C38_split_of_combination.

Theorem C38_slices_concatenate : forall l (f s t : nat), (f + s + t = length l)%nat ->
  let '(a, b, c) := bu_split3 l (Z.of_nat f) (Z.of_nat s) (Z.of_nat t) in
  a ++ b ++ c = l /\ length a = f /\ length b = s /\ length c = t.
Proof. exact split3_concat. Qed.
Print Assumptions C38_slices_concatenate.

Theorem C38_nibbles : forall h l, (h < 16)%N -> (l < 16)%N ->
  (bu_intsToByteHighAndLow h l < 256)%N /\
  bu_highBitsToInt (bu_intsToByteHighAndLow h l) = h /\ bu_lowBitsToInt (bu_intsToByteHighAndLow h l) = l.
Proof. exact nibbles. Qed.
Print Assumptions C38_nibbles.

Theorem C38_nibbles_of_byte : forall v, (v < 256)%N ->
  bu_intsToByteHighAndLow (bu_highBitsToInt v) (bu_lowBitsToInt v) = v.
Proof. exact highlow_split. Qed.
Print Assumptions C38_nibbles_of_byte.

(** Inside the array: exactly the four bytes at the offset change, to the big-endian value
    mod 2^32; outside: IndexError. *)
Theorem C38_int_to_byte_array : forall l (o : nat) v,
  ((o + 4 <= length l)%nat -> exists l', bu_intToByteArray l (Z.of_nat o) v = Ok l' /\ length l' = length l /\
     be_val (take 4 (drop o l')) = (v mod 2 ^ 32)%N /\ take o l' = take o l /\ drop (o + 4) l' = drop (o + 4) l) /\
  ((length l < o + 4)%nat -> bu_intToByteArray l (Z.of_nat o) v = Err EIndexError).
Proof. exact int_to_byte_array. Qed.
Print Assumptions C38_int_to_byte_array.

Example C38_example :
  bu_intToByteArray [x00; x11; x22; x33; x44; x55] 1 305419896 = Ok [x00; x12; x34; x56; x78; x55] /\
  bu_split3 [x01; x02; x03; x04] 1 2 1 = ([x01], [x02; x03], [x04]).
Proof. by vm_compute. Qed.

(** ** C39: padding and CBC *)

Theorem C39_roundtrip : forall C, crypto_ok C -> forall key iv m, length key = 32 -> length iv = 16 ->
  exists c, aes_encrypt C key iv m = Ok c /\ aes_decrypt C key iv c = Ok m /\
    exists k, length c = (16 * k)%nat /\ (length m < 16 * k <= length m + 16)%nat.
Proof. exact aes_roundtrip. Qed.
Print Assumptions C39_roundtrip.

(** Conversely a body is accepted only if it is a positive whole number of blocks whose
    CBC decryption ends in k bytes of value k. *)
Theorem C39_accepted_bodies : forall C key iv body p, aes_decrypt C key iv body = Ok p ->
  (exists n, length body = (16 * S n)%nat) /\
  exists k : nat, (1 <= k <= 16)%nat /\
    concat (cbc_dec C key iv (blocks (length body) body)) = p ++ replicate k (n2b (N.of_nat k)).
Proof. exact aes_accepted. Qed.
Print Assumptions C39_accepted_bodies.

Theorem C39_other_bodies_raise : forall C key iv body,
  (length body mod 16 <> 0)%nat \/ body = [] -> aes_decrypt C key iv body = Err EValueError.
Proof. exact aes_decrypt_not_blocks. Qed.
Print Assumptions C39_other_bodies_raise.

Example C39_example : exists c,
  aes_encrypt toy (replicate 32 x01) (replicate 16 x02) (replicate 16 x41) = Ok c /\ length c = 32 /\
  aes_decrypt toy (replicate 32 x01) (replicate 16 x02) c = Ok (replicate 16 x41) /\
  aes_decrypt toy (replicate 32 x01) (replicate 16 x02) (take 31 c) = Err EValueError.
Proof. eexists. split; [by vm_compute|]. by vm_compute. Qed.
