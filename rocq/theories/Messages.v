(** protocol/*.py: the five message classes. *)
From Verif Require Import PyBase Wire Protos Crypto Ecc Kdf.

(** CiphertextMessage.UNSUPPORTED_VERSION, protocol/ciphertextmessage.py:9. *)
Definition UNSUPPORTED_VERSION : N := 1.
(** CiphertextMessage.CURRENT_VERSION, protocol/ciphertextmessage.py:10. *)
Definition CURRENT_VERSION : N := 3.
(** WhisperMessage.MAC_LENGTH, protocol/whispermessage.py:16. *)
Definition MAC_LENGTH : Z := 8.
(** SenderKeyMessage.SIGNATURE_LENGTH, protocol/senderkeymessage.py:13. *)
Definition SIGNATURE_LENGTH : Z := 64.

(** [try: r  except (E1, ...): raise e']: exceptions selected by [p] become [e']. *)
Definition res_rethrow {A} (p : exn -> bool) (e' : exn) (r : res A) : res A :=
  match r with
  | Ok a => Ok a
  | Err e => if p e then Err e' else Err e
  end.

(** [isinstance(e, InvalidKeyException)]. *)
Definition isInvalidKey (e : exn) : bool := bool_decide (e = EInvalidKey).

(** Python truth value of a bytes field that may be absent: [not m.field]. *)
Definition bytes_falsy (o : option bytes) : bool :=
  match o with None | Some [] => true | Some _ => false end.

(** ** WhisperMessage *)

(** Fields of a WhisperMessage object, protocol/whispermessage.py:43-48, 61-66. *)
Record whisperMessage := WhisperMessage {
  wRatchetKey : bytes; wVersion : N; wCounter : N; wPreviousCounter : N;
  wBody : bytes; wSerialized : bytes }.

(** KeyExchangeMessage object, protocol/keyexchangemessage.py:34-54, 59-78. *)
Record keyExchangeMessage := KeyExchangeMessage {
  xVersion : N; xSupportedVersion : N; xSequence : N; xFlags : N; xBaseKey : bytes;
  xBaseKeySignature : bytes; xRatchetKey : bytes; xIdentityKey : bytes; xSerialized : bytes }.

(** PreKeyWhisperMessage object, protocol/prekeywhispermessage.py:39-50, 55-61;
    the preKeyId attribute may be None. *)
Record preKeyWhisperMessage := PreKeyWhisperMessage {
  pVersion : N; pRegistrationId : N; pPreKeyId : option N; pSignedPreKeyId : N;
  pBaseKey : bytes; pIdentityKey : bytes; pMessage : whisperMessage; pSerialized : bytes }.

(** SenderKeyMessage object, protocol/senderkeymessage.py:41-46, 60-64. *)
Record senderKeyMessage := SenderKeyMessage {
  gVersion : N; gKeyId : N; gIteration : N; gCiphertext : bytes; gSerialized : bytes }.

(** SenderKeyDistributionMessage object, protocol/senderkeydistributionmessage.py:45-50,
    56-66. *)
Record senderKeyDistributionMessage := SenderKeyDistributionMessage {
  dId : N; dIteration : N; dChainKey : bytes; dSignatureKey : bytes; dSerialized : bytes }.

Section messages.
Context (C : crypto).

(** WhisperMessage.getMac, protocol/whispermessage.py:90-98. *)
Definition wm_getMac (version : N) (senderIdentity receiverIdentity macKey serialized : bytes) : bytes :=
  bu_trim (hmac256 C macKey
    ((if (3 <=? version)%N then pub_serialize senderIdentity ++ pub_serialize receiverIdentity else [])
     ++ serialized)) MAC_LENGTH.

(** WhisperMessage(...) from fields, protocol/whispermessage.py:52-66. *)
Definition whisper_create (version : N) (macKey ratchetKey : bytes) (counter previousCounter : N)
    (ciphertext senderIdentity receiverIdentity : bytes) : res whisperMessage :=
  let v := bu_intsToByteHighAndLow version CURRENT_VERSION in
  c ← set_u32 counter;
  pc ← set_u32 previousCounter;
  let message := wm_enc (WmS (Some (pub_serialize ratchetKey)) (Some c) (Some pc) (Some ciphertext)) in
  vm ← bu_combine [BInt v; BSeq message];
  let mac := wm_getMac version senderIdentity receiverIdentity macKey vm in
  s ← bu_combine [BInt v; BSeq message; BSeq mac];
  Ok (WhisperMessage ratchetKey version counter previousCounter ciphertext s).

(** The body of the try block of WhisperMessage(serialized=...),
    protocol/whispermessage.py:24-48. *)
Definition whisper_parse_body (serialized : bytes) : res whisperMessage :=
  let '(p0, message, _) := bu_split3 serialized 1 (zlen serialized - 1 - MAC_LENGTH) MAC_LENGTH in
  match p0 with
  | [] => Err EIndexError
  | vb :: _ =>
      let version := b2n vb in
      if (bu_highBitsToInt version <=? UNSUPPORTED_VERSION)%N then Err ELegacyMessage
      else if (CURRENT_VERSION <? bu_highBitsToInt version)%N then Err EInvalidMessage
      else
        m ← wm_parse message;
        if bytes_falsy (wm_ciphertext m) || bytes_falsy (wm_ratchetKey m) then Err EInvalidMessage
        else
          key ← decodePoint (default [] (wm_ratchetKey m)) 0;
          Ok (WhisperMessage key (bu_highBitsToInt version) (default 0%N (wm_counter m))
                (default 0%N (wm_previousCounter m)) (default [] (wm_ciphertext m)) serialized)
  end.

(** WhisperMessage(serialized=...), protocol/whispermessage.py:18-52.  Empty input falls
    into the other branch and raises TypeError at line 52 ([None << 4]). *)
Definition whisper_parse (serialized : bytes) : res whisperMessage :=
  match serialized with
  | [] => Err ETypeError
  | _ => res_rethrow isInvalidKey EInvalidMessage (whisper_parse_body serialized)
  end.

(** WhisperMessage.verifyMac, protocol/whispermessage.py:80-88. *)
Definition whisper_verifyMac (m : whisperMessage) (version : N)
    (senderIdentity receiverIdentity macKey : bytes) : res unit :=
  let '(p0, theirMac) := bu_split2 (wSerialized m) (zlen (wSerialized m) - MAC_LENGTH) MAC_LENGTH in
  let ourMac := wm_getMac version senderIdentity receiverIdentity macKey p0 in
  if bool_decide (ourMac = theirMac) then Ok tt else Err EInvalidMessage.

(** ** PreKeyWhisperMessage *)

(** PreKeyWhisperMessage(...) from fields, protocol/prekeywhispermessage.py:55-75. *)
Definition prekey_create (version registrationId : N) (preKeyId : option N) (signedPreKeyId : N)
    (baseKey identityKey : bytes) (m : whisperMessage) : res preKeyWhisperMessage :=
  spid ← set_u32 signedPreKeyId;
  rid ← set_u32 registrationId;
  pid ← match preKeyId with None => Ok None | Some i => j ← set_u32 i; Ok (Some j) end;
  let v := bu_intsToByteHighAndLow version CURRENT_VERSION in
  let message := pk_enc (PkS pid (Some (pub_serialize baseKey)) (Some (pub_serialize identityKey))
                           (Some (wSerialized m)) (Some rid) (Some spid)) in
  s ← bu_combine [BInt v; BSeq message];
  Ok (PreKeyWhisperMessage version registrationId preKeyId signedPreKeyId baseKey identityKey m s).

(** The exceptions caught at protocol/prekeywhispermessage.py:51. *)
Definition prekey_caught (e : exn) : bool :=
  bool_decide (e = EInvalidKey) || bool_decide (e = ELegacyMessage) || bool_decide (e = EDecodeError).

(** The body of the try block of PreKeyWhisperMessage(serialized=...),
    protocol/prekeywhispermessage.py:23-50.  Reading an absent uint32 field yields 0, so
    the [is None] tests at lines 33 and 42 never hold and preKeyId is never None. *)
Definition prekey_parse_body (serialized : bytes) : res preKeyWhisperMessage :=
  match serialized with
  | [] => Err EIndexError
  | vb :: rest =>
      let version := bu_highBitsToInt (b2n vb) in
      if (CURRENT_VERSION <? version)%N then Err EInvalidVersion
      else if (version <? CURRENT_VERSION)%N then Err ELegacyMessage
      else
        m ← pk_parse rest;
        if bytes_falsy (pk_baseKey m) || bytes_falsy (pk_identityKey m) || bytes_falsy (pk_message m)
        then Err EInvalidMessage
        else
          baseKey ← decodePoint (default [] (pk_baseKey m)) 0;
          identityKey ← decodePoint (default [] (pk_identityKey m)) 0;
          w ← whisper_parse (default [] (pk_message m));
          Ok (PreKeyWhisperMessage version (default 0%N (pk_registrationId m))
                (Some (default 0%N (pk_preKeyId m))) (default 0%N (pk_signedPreKeyId m))
                baseKey identityKey w serialized)
  end.

(** PreKeyWhisperMessage(serialized=...), protocol/prekeywhispermessage.py:18-64.  Empty
    input raises TypeError at line 64 (assigning None to a uint32 field). *)
Definition prekey_parse (serialized : bytes) : res preKeyWhisperMessage :=
  match serialized with
  | [] => Err ETypeError
  | _ => res_rethrow prekey_caught EInvalidMessage (prekey_parse_body serialized)
  end.

(** ** KeyExchangeMessage *)

(** KeyExchangeMessage.INITIATE_FLAG, protocol/keyexchangemessage.py:15. *)
Definition INITIATE_FLAG : N := 1.
(** KeyExchangeMessage.RESPONSE_FLAG, protocol/keyexchangemessage.py:16. *)
Definition RESPONSE_FLAG : N := 2.
(** KeyExchangeMessage.SIMULTAENOUS_INITIATE_FLAG, protocol/keyexchangemessage.py:17. *)
Definition SIMULTAENOUS_INITIATE_FLAG : N := 4.

(** KeyExchangeMessage(...) from fields, protocol/keyexchangemessage.py:59-78. *)
Definition kx_create (version sequence flags : N) (baseKey baseKeySignature ratchetKey identityKey : bytes)
    : res keyExchangeMessage :=
  let v := bu_intsToByteHighAndLow version CURRENT_VERSION in
  id ← set_u32 (N.lor (N.shiftl sequence 5) flags);
  let message := kx_enc (KxS (Some id) (Some (pub_serialize baseKey)) (Some (pub_serialize ratchetKey))
                           (Some (pub_serialize identityKey))
                           (if (3 <=? version)%N then Some baseKeySignature else None)) in
  s ← bu_combine [BInt v; BSeq message];
  Ok (KeyExchangeMessage version CURRENT_VERSION sequence flags baseKey baseKeySignature ratchetKey identityKey s).

(** The body of the try block of KeyExchangeMessage(serialized=...),
    protocol/keyexchangemessage.py:33-54. *)
Definition kx_parse_body (serialized : bytes) : res keyExchangeMessage :=
  let '(p0, p1) := bu_split2 serialized 1 (zlen serialized - 1) in
  match p0 with
  | [] => Err EIndexError
  | vb :: _ =>
      let version := bu_highBitsToInt (b2n vb) in
      let supported := bu_lowBitsToInt (b2n vb) in
      if (version <? CURRENT_VERSION)%N then Err ELegacyMessage
      else if (CURRENT_VERSION <? version)%N then Err EInvalidVersion
      else
        m ← kx_parse p1;
        match kx_id m, kx_baseKey m, kx_ratchetKey m, kx_identityKey m, kx_baseKeySignature m with
        | Some id, Some bk, Some rk, Some ik, Some sg =>
            baseKey ← decodePoint bk 0;
            ratchetKey ← decodePoint rk 0;
            identityKey ← decodePoint ik 0;
            Ok (KeyExchangeMessage version supported (N.shiftr id 5) (N.land id 31)
                  baseKey sg ratchetKey identityKey serialized)
        | _, _, _, _, _ => Err EInvalidMessage
        end
  end.

(** KeyExchangeMessage(serialized=...), protocol/keyexchangemessage.py:19-68.  Empty input
    raises TypeError at line 68 ([None << 4]). *)
Definition kx_msg_parse (serialized : bytes) : res keyExchangeMessage :=
  match serialized with
  | [] => Err ETypeError
  | _ => res_rethrow isInvalidKey EInvalidMessage (kx_parse_body serialized)
  end.

(** KeyExchangeMessage.isInitiate, protocol/keyexchangemessage.py:104-105. *)
Definition kx_isInitiate (m : keyExchangeMessage) : bool :=
  negb (N.land (xFlags m) INITIATE_FLAG =? 0)%N.

(** KeyExchangeMessage.isResponse, protocol/keyexchangemessage.py:101-102. *)
Definition kx_isResponse (m : keyExchangeMessage) : bool :=
  negb (N.land (xFlags m) RESPONSE_FLAG =? 0)%N.

(** KeyExchangeMessage.isResponseForSimultaneousInitiate,
    protocol/keyexchangemessage.py:107-108. *)
Definition kx_isResponseForSimultaneousInitiate (m : keyExchangeMessage) : bool :=
  negb (N.land (xFlags m) SIMULTAENOUS_INITIATE_FLAG =? 0)%N.

(** ** SenderKeyMessage *)

(** The bytes that get signed, protocol/senderkeymessage.py:50-58. *)
Definition sk_tosign (keyId iteration : N) (ciphertext : bytes) : res bytes :=
  id ← set_u32 keyId;
  it ← set_u32 iteration;
  bu_combine [BSeq [n2b (bu_intsToByteHighAndLow CURRENT_VERSION CURRENT_VERSION)];
              BSeq (sk_enc (SkS (Some id) (Some it) (Some ciphertext)))].

(** SenderKeyMessage(...) from fields, protocol/senderkeymessage.py:50-64 and
    getSignature, 90-98, given the 64 bytes drawn while signing. *)
Definition sk_create (keyId iteration : N) (ciphertext signatureKey rand : bytes) : res senderKeyMessage :=
  b ← sk_tosign keyId iteration ciphertext;
  sig ← calculateSignature_with C rand signatureKey b;
  Ok (SenderKeyMessage CURRENT_VERSION keyId iteration ciphertext (b ++ sig)).

(** The body of the try block of SenderKeyMessage(serialized=...),
    protocol/senderkeymessage.py:21-46; absent fields read as 0 or empty, so the test at
    line 37 never holds. *)
Definition sk_parse_body (serialized : bytes) : res senderKeyMessage :=
  let '(p0, message, _) := bu_split3 serialized 1 (zlen serialized - 1 - SIGNATURE_LENGTH) SIGNATURE_LENGTH in
  match p0 with
  | [] => Err EIndexError
  | vb :: _ =>
      let version := bu_highBitsToInt (b2n vb) in
      if (version <? 3)%N then Err ELegacyMessage
      else if (CURRENT_VERSION <? version)%N then Err EInvalidMessage
      else
        m ← sk_parse message;
        Ok (SenderKeyMessage version (default 0%N (sk_id m)) (default 0%N (sk_iteration m))
              (default [] (sk_ciphertext m)) serialized)
  end.

(** SenderKeyMessage(serialized=...), protocol/senderkeymessage.py:15-48: the assertion
    at line 16 fails on empty input; every exception becomes InvalidMessageException. *)
Definition sk_msg_parse (serialized : bytes) : res senderKeyMessage :=
  match serialized with
  | [] => Err EAssertionError
  | _ => res_rethrow (fun _ => true) EInvalidMessage (sk_parse_body serialized)
  end.

(** SenderKeyMessage.verifySignature, protocol/senderkeymessage.py:76-88. *)
Definition sk_verifySignature (m : senderKeyMessage) (signatureKey : bytes) : res unit :=
  let '(p0, p1) := bu_split2 (gSerialized m) (zlen (gSerialized m) - SIGNATURE_LENGTH) SIGNATURE_LENGTH in
  res_rethrow isInvalidKey EInvalidMessage
    (ok ← verifySignature C signatureKey p0 p1;
     if (ok : bool) then Ok tt else Err EInvalidMessage).

(** ** SenderKeyDistributionMessage *)

(** SenderKeyDistributionMessage(...) from fields,
    protocol/senderkeydistributionmessage.py:55-66. *)
Definition skd_create (id iteration : N) (chainKey signatureKey : bytes) : res senderKeyDistributionMessage :=
  i ← set_u32 id;
  it ← set_u32 iteration;
  s ← bu_combine [BSeq [n2b (bu_intsToByteHighAndLow CURRENT_VERSION CURRENT_VERSION)];
                  BSeq (skd_enc (SkdS (Some i) (Some it) (Some chainKey) (Some (pub_serialize signatureKey))))];
  Ok (SenderKeyDistributionMessage id iteration chainKey signatureKey s).

(** The body of the try block of SenderKeyDistributionMessage(serialized=...),
    protocol/senderkeydistributionmessage.py:26-50. *)
Definition skd_parse_body (serialized : bytes) : res senderKeyDistributionMessage :=
  let '(p0, p1) := bu_split2 serialized 1 (zlen serialized - 1) in
  match p0 with
  | [] => Err EIndexError
  | vb :: _ =>
      let version := bu_highBitsToInt (b2n vb) in
      if (version <? 3)%N then Err ELegacyMessage
      else if (CURRENT_VERSION <? version)%N then Err EInvalidMessage
      else
        m ← skd_parse p1;
        key ← decodePoint (default [] (skd_signingKey m)) 0;
        Ok (SenderKeyDistributionMessage (default 0%N (skd_id m)) (default 0%N (skd_iteration m))
              (default [] (skd_chainKey m)) key serialized)
  end.

(** SenderKeyDistributionMessage(serialized=...),
    protocol/senderkeydistributionmessage.py:11-53. *)
Definition skd_msg_parse (serialized : bytes) : res senderKeyDistributionMessage :=
  match serialized with
  | [] => Err EAssertionError
  | _ => res_rethrow (fun _ => true) EInvalidMessage (skd_parse_body serialized)
  end.
End messages.
