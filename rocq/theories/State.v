(** state/sessionstate.py, state/sessionrecord.py, state/prekeyrecord.py,
    state/signedprekeyrecord.py, state/prekeybundle.py.

    A SessionState object is its protobuf structure [ss_s] (sessionstate.py:13-24).
    Python mutates it in place; here every mutator returns the new structure. *)
From Verif Require Import PyBase Wire Protos Crypto Ecc Kdf.

(** SessionState(), sessionstate.py:14-16. *)
Definition st_new : ss_s := ss_empty.

(** getAliceBaseKey, sessionstate.py:26-27 (absent reads as empty). *)
Definition st_getAliceBaseKey (s : ss_s) : bytes := default [] (ss_aliceBaseKey s).

(** setAliceBaseKey, sessionstate.py:29-30. *)
Definition st_setAliceBaseKey (k : bytes) (s : ss_s) : ss_s := ss_set_aliceBaseKey (Some k) s.

(** setSessionVersion, sessionstate.py:32-33 (only ever called with 3). *)
Definition st_setSessionVersion (v : N) (s : ss_s) : ss_s := ss_set_version (Some v) s.

(** getSessionVersion, sessionstate.py:35-37. *)
Definition st_getSessionVersion (s : ss_s) : N :=
  let v := default 0%N (ss_version s) in if (v =? 0)%N then 2%N else v.

(** setRemoteIdentityKey, sessionstate.py:39-40. *)
Definition st_setRemoteIdentityKey (k : bytes) (s : ss_s) : ss_s := ss_set_remoteIdentity (Some (pub_serialize k)) s.

(** setLocalIdentityKey, sessionstate.py:42-43. *)
Definition st_setLocalIdentityKey (k : bytes) (s : ss_s) : ss_s := ss_set_localIdentity (Some (pub_serialize k)) s.

(** getRemoteIdentityKey, sessionstate.py:45-48 (a bytes field is never None). *)
Definition st_getRemoteIdentityKey (s : ss_s) : res bytes := decodePoint (default [] (ss_remoteIdentity s)) 0.

(** getLocalIdentityKey, sessionstate.py:50-51. *)
Definition st_getLocalIdentityKey (s : ss_s) : res bytes := decodePoint (default [] (ss_localIdentity s)) 0.

(** getPreviousCounter, sessionstate.py:53-54. *)
Definition st_getPreviousCounter (s : ss_s) : N := default 0%N (ss_previousCounter s).

(** setPreviousCounter, sessionstate.py:56-57. *)
Definition st_setPreviousCounter (n : N) (s : ss_s) : res ss_s := v ← set_u32 n; Ok (ss_set_previousCounter (Some v) s).

(** getRootKey, sessionstate.py:59-60. *)
Definition st_getRootKey (s : ss_s) : res rootKey :=
  k ← hkdf_createFor (st_getSessionVersion s); Ok (RootKey k (default [] (ss_rootKey s))).

(** setRootKey, sessionstate.py:62-63. *)
Definition st_setRootKey (r : rootKey) (s : ss_s) : ss_s := ss_set_rootKey (Some (rKey r)) s.

(** Reading the senderChain sub-message (absent reads as empty). *)
Definition st_senderChain (s : ss_s) : ch_s := default ch_empty (ss_senderChain s).

(** getSenderRatchetKey, sessionstate.py:65-66. *)
Definition st_getSenderRatchetKey (s : ss_s) : res bytes := decodePoint (default [] (ch_ratchetKey (st_senderChain s))) 0.

(** getSenderRatchetKeyPair, sessionstate.py:68-72. *)
Definition st_getSenderRatchetKeyPair (s : ss_s) : res keypair :=
  pub ← st_getSenderRatchetKey s;
  Ok (KeyPair pub (default [] (ch_ratchetKeyPrivate (st_senderChain s)))).

(** hasSenderChain, sessionstate.py:77-78. *)
Definition st_hasSenderChain (s : ss_s) : bool := match ss_senderChain s with Some _ => true | None => false end.

(** The loop of getReceiverChain, sessionstate.py:82-88, from index [i] on. *)
Fixpoint find_chain (key : bytes) (l : list ch_s) (i : nat) : res (option (ch_s * nat)) :=
  match l with
  | [] => Ok None
  | c :: r =>
      k ← decodePoint (default [] (ch_ratchetKey c)) 0;
      if pub_eqb k key then Ok (Some (c, i)) else find_chain key r (S i)
  end.

(** getReceiverChain, sessionstate.py:80-88. *)
Definition st_getReceiverChain (key : bytes) (s : ss_s) : res (option (ch_s * nat)) :=
  find_chain key (ss_receiverChains s) 0.

(** hasReceiverChain, sessionstate.py:74-75. *)
Definition st_hasReceiverChain (key : bytes) (s : ss_s) : res bool :=
  o ← st_getReceiverChain key s; Ok (match o with Some _ => true | None => false end).

(** [x = self.getReceiverChain(k); x[0]]: subscripting None raises TypeError, e.g.
    sessionstate.py:91-92. *)
Definition st_theReceiverChain (key : bytes) (s : ss_s) : res (ch_s * nat) :=
  o ← st_getReceiverChain key s; match o with Some x => Ok x | None => Err ETypeError end.

(** The chain key of a chain structure (absent reads as empty key and index 0),
    sessionstate.py:96-98, 125-127. *)
Definition ch_getChainKey (kdf : N) (c : ch_s) : chainKey :=
  let k := default ck_empty (ch_chainKey c) in
  ChainKey kdf (default [] (ck_key k)) (default 0%N (ck_index k)).

(** getReceiverChainKey, sessionstate.py:90-98. *)
Definition st_getReceiverChainKey (key : bytes) (s : ss_s) : res chainKey :=
  x ← st_theReceiverChain key s;
  kdf ← hkdf_createFor (st_getSessionVersion s);
  Ok (ch_getChainKey kdf x.1).

(** [chain.chainKey.key = k; chain.chainKey.index = i] on a chain structure,
    sessionstate.py:105-106, 132-133, 188-189. *)
Definition ch_putChainKey (c : chainKey) (x : ch_s) : res ch_s :=
  i ← set_u32 (cIndex c);
  Ok (ch_set_chainKey (Some (CkS (Some i) (Some (cKey c)))) x).

(** addReceiverChain, sessionstate.py:100-111: append, then drop the oldest of six. *)
Definition st_addReceiverChain (key : bytes) (c : chainKey) (s : ss_s) : res ss_s :=
  x ← ch_putChainKey c (ch_set_ratchetKey (Some (pub_serialize key)) ch_empty);
  let l := ss_receiverChains s ++ [x] in
  Ok (ss_set_receiverChains (if (5 <? length l)%nat then drop 1 l else l) s).

(** setSenderChain, sessionstate.py:113-122 (existing other fields of senderChain stay). *)
Definition st_setSenderChain (kp : keypair) (c : chainKey) (s : ss_s) : res ss_s :=
  let x := ch_set_ratchetKeyPrivate (Some (kp_priv kp))
             (ch_set_ratchetKey (Some (pub_serialize (kp_pub kp))) (st_senderChain s)) in
  x ← ch_putChainKey c x;
  Ok (ss_set_senderChain (Some x) s).

(** getSenderChainKey, sessionstate.py:124-127. *)
Definition st_getSenderChainKey (s : ss_s) : res chainKey :=
  kdf ← hkdf_createFor (st_getSessionVersion s);
  Ok (ch_getChainKey kdf (st_senderChain s)).

(** setSenderChainKey, sessionstate.py:129-133. *)
Definition st_setSenderChainKey (c : chainKey) (s : ss_s) : res ss_s :=
  x ← ch_putChainKey c (st_senderChain s);
  Ok (ss_set_senderChain (Some x) s).

(** Does a stored message key have this index (absent index reads as 0)?
    sessionstate.py:144, 161. *)
Definition mk_hasIndex (counter : N) (m : mk_s) : bool := (default 0 (mk_index m) =? counter)%N.

(** hasMessageKeys, sessionstate.py:135-147. *)
Definition st_hasMessageKeys (key : bytes) (counter : N) (s : ss_s) : res bool :=
  x ← st_theReceiverChain key s;
  Ok (existsb (mk_hasIndex counter) (ch_messageKeys x.1)).

(** Find and delete the first stored message key with the index,
    sessionstate.py:157-164. *)
Fixpoint take_messageKey (counter : N) (l : list mk_s) : option (mk_s * list mk_s) :=
  match l with
  | [] => None
  | m :: r => if mk_hasIndex counter m then Some (m, r)
              else match take_messageKey counter r with
                   | Some (x, r') => Some (x, m :: r')
                   | None => None
                   end
  end.

(** MessageKeys(...) from a stored structure, sessionstate.py:162. *)
Definition mk_toMessageKeys (m : mk_s) : messageKeys :=
  MessageKeys (default [] (mk_cipherKey m)) (default [] (mk_macKey m)) (default [] (mk_iv m))
              (default 0%N (mk_index m)).

(** Replacing receiver chain [i], the effect of mutating the structure in place
    (CopyFrom(self) at sessionstate.py:166, 182, 192 does nothing more). *)
Definition st_putReceiverChain (i : nat) (c : ch_s) (s : ss_s) : ss_s :=
  ss_set_receiverChains (<[i := c]> (ss_receiverChains s)) s.

(** removeMessageKeys, sessionstate.py:149-168; None when there is no such key. *)
Definition st_removeMessageKeys (key : bytes) (counter : N) (s : ss_s) : res (option messageKeys * ss_s) :=
  x ← st_theReceiverChain key s;
  match take_messageKey counter (ch_messageKeys x.1) with
  | Some (m, r) => Ok (Some (mk_toMessageKeys m), st_putReceiverChain x.2 (ch_set_messageKeys r x.1) s)
  | None => Ok (None, s)
  end.

(** setMessageKeys, sessionstate.py:170-182. *)
Definition st_setMessageKeys (key : bytes) (m : messageKeys) (s : ss_s) : res ss_s :=
  x ← st_theReceiverChain key s;
  i ← set_u32 (mCounter m);
  let mk := MkS (Some i) (Some (mCipher m)) (Some (mMac m)) (Some (mIv m)) in
  Ok (st_putReceiverChain x.2 (ch_set_messageKeys (ch_messageKeys x.1 ++ [mk]) x.1) s).

(** setReceiverChainKey, sessionstate.py:184-192. *)
Definition st_setReceiverChainKey (key : bytes) (c : chainKey) (s : ss_s) : res ss_s :=
  x ← st_theReceiverChain key s;
  y ← ch_putChainKey c x.1;
  Ok (st_putReceiverChain x.2 y s).

(** setPendingKeyExchange, sessionstate.py:194-210 (MergeFrom overwrites every field). *)
Definition st_setPendingKeyExchange (sequence : N) (base ratchet identity : keypair) (s : ss_s) : res ss_s :=
  q ← set_u32 sequence;
  Ok (ss_set_pendingKeyExchange
        (Some (PxS (Some q) (Some (pub_serialize (kp_pub base))) (Some (kp_priv base))
                 (Some (pub_serialize (kp_pub ratchet))) (Some (kp_priv ratchet))
                 (Some (pub_serialize (kp_pub identity))) (Some (kp_priv identity)))) s).

(** Reading the pendingKeyExchange sub-message (absent reads as empty). *)
Definition st_pendingKeyExchange (s : ss_s) : px_s := default px_empty (ss_pendingKeyExchange s).

(** getPendingKeyExchangeSequence, sessionstate.py:212-213. *)
Definition st_getPendingKeyExchangeSequence (s : ss_s) : N := default 0%N (px_sequence (st_pendingKeyExchange s)).

(** A stored key pair: decodePoint of the public and decodePrivatePoint of the private
    part, e.g. sessionstate.py:216-218. *)
Definition stored_keypair (pub priv : option bytes) : res keypair :=
  p ← decodePoint (default [] pub) 0; Ok (KeyPair p (default [] priv)).

(** getPendingKeyExchangeBaseKey, sessionstate.py:215-218. *)
Definition st_getPendingKeyExchangeBaseKey (s : ss_s) : res keypair :=
  let p := st_pendingKeyExchange s in stored_keypair (px_baseKey p) (px_baseKeyPrivate p).

(** getPendingKeyExchangeRatchetKey, sessionstate.py:220-223. *)
Definition st_getPendingKeyExchangeRatchetKey (s : ss_s) : res keypair :=
  let p := st_pendingKeyExchange s in stored_keypair (px_ratchetKey p) (px_ratchetKeyPrivate p).

(** getPendingKeyExchangeIdentityKey, sessionstate.py:225-229. *)
Definition st_getPendingKeyExchangeIdentityKey (s : ss_s) : res keypair :=
  let p := st_pendingKeyExchange s in stored_keypair (px_identityKey p) (px_identityKeyPrivate p).

(** hasPendingKeyExchange, sessionstate.py:231-232. *)
Definition st_hasPendingKeyExchange (s : ss_s) : bool :=
  match ss_pendingKeyExchange s with Some _ => true | None => false end.

(** setUnacknowledgedPreKeyMessage, sessionstate.py:234-244.  The field signedPreKeyId is
    an int32. *)
Definition st_setUnacknowledgedPreKeyMessage (preKeyId : option N) (signedPreKeyId : N) (baseKey : bytes)
    (s : ss_s) : res ss_s :=
  let p := default pp_empty (ss_pendingPreKey s) in
  z ← set_i32 signedPreKeyId;
  let p := pp_set_baseKey (Some (pub_serialize baseKey)) (pp_set_signedPreKeyId (Some z) p) in
  p ← match preKeyId with
      | Some i => j ← set_u32 i; Ok (pp_set_preKeyId (Some j) p)
      | None => Ok p
      end;
  Ok (ss_set_pendingPreKey (Some p) s).

(** hasUnacknowledgedPreKeyMessage, sessionstate.py:246-247. *)
Definition st_hasUnacknowledgedPreKeyMessage (s : ss_s) : bool :=
  match ss_pendingPreKey s with Some _ => true | None => false end.

(** getUnacknowledgedPreKeyMessageItems, sessionstate.py:249-256: prekey id if present,
    signed prekey id (possibly negative int32), base key. *)
Definition st_getUnacknowledgedPreKeyMessageItems (s : ss_s) : res (option N * Z * bytes) :=
  let p := default pp_empty (ss_pendingPreKey s) in
  k ← decodePoint (default [] (pp_baseKey p)) 0;
  Ok (pp_preKeyId p, default 0%Z (pp_signedPreKeyId p), k).

(** clearUnacknowledgedPreKeyMessage, sessionstate.py:258-259. *)
Definition st_clearUnacknowledgedPreKeyMessage (s : ss_s) : ss_s := ss_set_pendingPreKey None s.

(** setRemoteRegistrationId, sessionstate.py:261-262. *)
Definition st_setRemoteRegistrationId (n : N) (s : ss_s) : res ss_s := v ← set_u32 n; Ok (ss_set_remoteRegId (Some v) s).

(** setLocalRegistrationId, sessionstate.py:267-268. *)
Definition st_setLocalRegistrationId (n : N) (s : ss_s) : res ss_s := v ← set_u32 n; Ok (ss_set_localRegId (Some v) s).

(** getLocalRegistrationId, sessionstate.py:270-271. *)
Definition st_getLocalRegistrationId (s : ss_s) : N := default 0%N (ss_localRegId s).

(** ** SessionRecord *)

(** SessionRecord object, sessionrecord.py:15-29. *)
Record sessionRecord := SessionRecord { sr_fresh : bool; sr_state : ss_s; sr_previous : list ss_s }.

(** ARCHIVED_STATES_MAX_LENGTH, sessionrecord.py:8. *)
Definition ARCHIVED_STATES_MAX_LENGTH : nat := 40.

(** SessionRecord(), sessionrecord.py:27-29. *)
Definition sr_new : sessionRecord := SessionRecord true st_new [].

(** SessionRecord(serialized=...), sessionrecord.py:19-29 (empty input is fresh). *)
Definition sr_deserialize (bs : bytes) : res sessionRecord :=
  match bs with
  | [] => Ok sr_new
  | _ => r ← rs_parse bs;
         Ok (SessionRecord false (default ss_empty (rs_currentSession r)) (rs_previousSessions r))
  end.

(** SessionRecord.serialize, sessionrecord.py:62-68 (MergeFrom marks currentSession as
    present). *)
Definition sr_serialize (r : sessionRecord) : bytes :=
  rs_enc (RsS (Some (sr_state r)) (sr_previous r)).

(** The test in hasSessionState, sessionrecord.py:32, 36. *)
Definition st_matches (version : N) (aliceBaseKey : bytes) (s : ss_s) : bool :=
  (st_getSessionVersion s =? version)%N && bool_decide (aliceBaseKey = st_getAliceBaseKey s).

(** hasSessionState, sessionrecord.py:31-39. *)
Definition sr_hasSessionState (version : N) (aliceBaseKey : bytes) (r : sessionRecord) : bool :=
  st_matches version aliceBaseKey (sr_state r) || existsb (st_matches version aliceBaseKey) (sr_previous r).

(** promoteState, sessionrecord.py:53-57: insert at the front, pop the last of 41. *)
Definition sr_promoteState (promoted : ss_s) (r : sessionRecord) : sessionRecord :=
  let l := sr_state r :: sr_previous r in
  SessionRecord (sr_fresh r) promoted
    (if (ARCHIVED_STATES_MAX_LENGTH <? length l)%nat then take (length l - 1) l else l).

(** archiveCurrentState, sessionrecord.py:50-51. *)
Definition sr_archiveCurrentState (r : sessionRecord) : sessionRecord := sr_promoteState st_new r.

(** setState, sessionrecord.py:59-60. *)
Definition sr_setState (s : ss_s) (r : sessionRecord) : sessionRecord :=
  SessionRecord (sr_fresh r) s (sr_previous r).

(** ** PreKeyRecord, SignedPreKeyRecord, PreKeyBundle *)

(** PreKeyRecord(_id, ecKeyPair), prekeyrecord.py:9-16. *)
Definition prekeyrecord_create (id : N) (kp : keypair) : res pr_s :=
  i ← set_u32 id; Ok (PrS (Some i) (Some (pub_serialize (kp_pub kp))) (Some (kp_priv kp))).

(** PreKeyRecord.getKeyPair, prekeyrecord.py:21-24. *)
Definition prekeyrecord_getKeyPair (r : pr_s) : res keypair := stored_keypair (pr_publicKey r) (pr_privateKey r).

(** PreKeyRecord.getId, prekeyrecord.py:18-19. *)
Definition prekeyrecord_getId (r : pr_s) : N := default 0%N (pr_id r).

(** SignedPreKeyRecord(_id, timestamp, ecKeyPair, signature), signedprekeyrecord.py:9-18. *)
Definition signedprekeyrecord_create (id timestamp : N) (kp : keypair) (signature : bytes) : res spr_s :=
  i ← set_u32 id; t ← set_u64 timestamp;
  Ok (SprS (Some i) (Some (pub_serialize (kp_pub kp))) (Some (kp_priv kp)) (Some signature) (Some t)).

(** SignedPreKeyRecord.getKeyPair, signedprekeyrecord.py:26-30. *)
Definition signedprekeyrecord_getKeyPair (r : spr_s) : res keypair := stored_keypair (spr_publicKey r) (spr_privateKey r).

(** SignedPreKeyRecord.getId, signedprekeyrecord.py:20-21. *)
Definition signedprekeyrecord_getId (r : spr_s) : N := default 0%N (spr_id r).

(** SignedPreKeyRecord.getSignature, signedprekeyrecord.py:32-33. *)
Definition signedprekeyrecord_getSignature (r : spr_s) : bytes := default [] (spr_signature r).

(** SignedPreKeyRecord.getTimestamp, signedprekeyrecord.py:23-24. *)
Definition signedprekeyrecord_getTimestamp (r : spr_s) : N := default 0%N (spr_timestamp r).

(** PreKeyBundle, prekeybundle.py:4-39; prekey and signed prekey may be None. *)
Record preKeyBundle := PreKeyBundle {
  bu_registrationId : N; bu_deviceId : Z; bu_preKeyId : option N; bu_preKey : option bytes;
  bu_signedPreKeyId : N; bu_signedPreKey : option bytes; bu_signedPreKeySignature : bytes;
  bu_identityKey : bytes }.
