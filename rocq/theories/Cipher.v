(** sessioncipher.py.  A SessionCipher is its (recipientId, deviceId), [r] and [d]. *)
From Verif Require Import PyBase Protos Crypto Ecc Kdf Messages State Prog Ratchet Builder.

(** What encrypt returns: CiphertextMessage subclasses, with getType
    protocol/whispermessage.py:103-104 and protocol/prekeywhispermessage.py:97-98. *)
Inductive ciphertextMessage := CTWhisper (m : whisperMessage) | CTPreKey (m : preKeyWhisperMessage).

(** serialize, protocol/whispermessage.py:100-101, protocol/prekeywhispermessage.py:94-95. *)
Definition ct_serialize (c : ciphertextMessage) : bytes :=
  match c with CTWhisper m => wSerialized m | CTPreKey m => pSerialized m end.

(** Setting a uint32 field from a Python int that may be negative (ValueError). *)
Definition z_to_u32 (z : Z) : res N := if (z <? 0)%Z then Err EValueError else Ok (Z.to_N z).

Section cipher.
Context (C : crypto).

(** The part of encrypt between loading and storing, sessioncipher.py:36-58: the message
    and the updated session state.  The signed prekey id was stored as an int32, a
    negative one raises ValueError at protocol/prekeywhispermessage.py:64. *)
Definition encryptWithState (s : ss_s) (paddedMessage : bytes) : res (ciphertextMessage * ss_s) :=
  chainKey ← st_getSenderChainKey s;
  let messageKeys := ck_messageKeys C chainKey in
  senderEphemeral ← st_getSenderRatchetKey s;
  let previousCounter := st_getPreviousCounter s in
  let sessionVersion := st_getSessionVersion s in
  body ← aes_encrypt C (mCipher messageKeys) (mIv messageKeys) paddedMessage;
  localId ← st_getLocalIdentityKey s;
  remoteId ← st_getRemoteIdentityKey s;
  w ← whisper_create C sessionVersion (mMac messageKeys) senderEphemeral (cIndex chainKey)
        previousCounter body localId remoteId;
  ct ← (if st_hasUnacknowledgedPreKeyMessage s then
          items ← st_getUnacknowledgedPreKeyMessageItems s;
          let '(preKeyId, signedPreKeyId, baseKey) := items in
          localId ← st_getLocalIdentityKey s;
          spid ← z_to_u32 signedPreKeyId;
          p ← prekey_create sessionVersion (st_getLocalRegistrationId s) preKeyId spid baseKey localId w;
          Ok (CTPreKey p)
        else Ok (CTWhisper w));
  s ← st_setSenderChainKey (ck_next C chainKey) s;
  Ok (ct, s).

(** encrypt, sessioncipher.py:31-61. *)
Definition encrypt (r d : Z) (paddedMessage : bytes) : prog ciphertextMessage :=
  rec ← do (CLoadSession r d);
  x ← lift (encryptWithState (sr_state rec) paddedMessage);
  _ ← do (CStoreSession r d (sr_setState x.2 rec));
  Ret x.1.

(** getOrCreateChainKey, sessioncipher.py:149-164. *)
Definition getOrCreateChainKey (s : ss_s) (theirEphemeral : bytes) : prog (chainKey * ss_s) :=
  has ← lift (st_hasReceiverChain theirEphemeral s);
  if (has : bool) then
    ck ← lift (st_getReceiverChainKey theirEphemeral s); Ret (ck, s)
  else
    x ← lift (rootKey ← st_getRootKey s;
              ourEphemeral ← st_getSenderRatchetKeyPair s;
              rk_createChain C rootKey theirEphemeral ourEphemeral);
    ourNewEphemeral ← generateKeyPair C;
    lift (senderChain ← rk_createChain C x.1 theirEphemeral ourNewEphemeral;
          let s := st_setRootKey senderChain.1 s in
          s ← st_addReceiverChain theirEphemeral x.2 s;
          old ← st_getSenderChainKey s;
          s ← st_setPreviousCounter (cIndex old - 1) s; (* N subtraction is max(_, 0) *)
          s ← st_setSenderChain ourNewEphemeral senderChain.2 s;
          Ok (x.2, s)).

(** The loop of getOrCreateMessageKeys, sessioncipher.py:178-181, [n] steps. *)
Fixpoint skipMessageKeys (n : nat) (theirEphemeral : bytes) (ck : chainKey) (s : ss_s) : res (chainKey * ss_s) :=
  match n with
  | O => Ok (ck, s)
  | S n => s ← st_setMessageKeys theirEphemeral (ck_messageKeys C ck) s;
           skipMessageKeys n theirEphemeral (ck_next C ck) s
  end.

(** getOrCreateMessageKeys, sessioncipher.py:166-184. *)
Definition getOrCreateMessageKeys (s : ss_s) (theirEphemeral : bytes) (ck : chainKey) (counter : N)
    : res (messageKeys * ss_s) :=
  if (counter <? cIndex ck)%N then
    has ← st_hasMessageKeys theirEphemeral counter s;
    if (has : bool) then
      x ← st_removeMessageKeys theirEphemeral counter s;
      match x.1 with Some mk => Ok (mk, x.2) | None => Err ETypeError end
    else Err EDuplicateMessage
  else if (2000 <? counter - cIndex ck)%N then Err EInvalidMessage
  else
    x ← skipMessageKeys (N.to_nat (counter - cIndex ck)) theirEphemeral ck s;
    s ← st_setReceiverChainKey theirEphemeral (ck_next C x.1) x.2;
    Ok (ck_messageKeys C x.1, s).

(** decryptWithSessionState, sessioncipher.py:125-147: plaintext and updated copy. *)
Definition decryptWithSessionState (s : ss_s) (m : whisperMessage) : prog (bytes * ss_s) :=
  if negb (st_hasSenderChain s) then Raise EInvalidMessage
  else if negb (wVersion m =? st_getSessionVersion s)%N then Raise EInvalidMessage
  else
    x ← getOrCreateChainKey s (wRatchetKey m);
    lift (y ← getOrCreateMessageKeys x.2 (wRatchetKey m) x.1 (wCounter m);
          let mk := y.1 in let s := y.2 in
          remoteId ← st_getRemoteIdentityKey s;
          localId ← st_getLocalIdentityKey s;
          _ ← whisper_verifyMac C m (wVersion m) remoteId localId (mMac mk);
          plaintext ← aes_decrypt C (mCipher mk) (mIv mk) (wBody m);
          Ok (plaintext, st_clearUnacknowledgedPreKeyMessage s)).

(** The loop over archived states, sessioncipher.py:112-123: [i] states were tried, [l]
    remain; on success the state is removed from its place and promoted. *)
Fixpoint decryptWithPrevious (rec : sessionRecord) (m : whisperMessage) (i : nat) (l : list ss_s)
    : prog (bytes * sessionRecord) :=
  match l with
  | [] => Raise EInvalidMessage
  | s :: l =>
      catch (x ← decryptWithSessionState s m;
             Ret (x.1, sr_promoteState x.2
                         (SessionRecord (sr_fresh rec) (sr_state rec) (delete i (sr_previous rec)))))
        (fun e => if bool_decide (e = EInvalidMessage) then decryptWithPrevious rec m (S i) l else Raise e)
  end.

(** decryptWithSessionRecord, sessioncipher.py:96-123. *)
Definition decryptWithSessionRecord (rec : sessionRecord) (m : whisperMessage) : prog (bytes * sessionRecord) :=
  catch (x ← decryptWithSessionState (sr_state rec) m; Ret (x.1, sr_setState x.2 rec))
    (fun e => if bool_decide (e = EInvalidMessage) then decryptWithPrevious rec m 0 (sr_previous rec) else Raise e).

(** decryptMsg, sessioncipher.py:63-78. *)
Definition decryptMsg (r d : Z) (m : whisperMessage) : prog bytes :=
  has ← do (CContainsSession r d);
  if (has : bool) then
    rec ← do (CLoadSession r d);
    x ← decryptWithSessionRecord rec m;
    _ ← do (CStoreSession r d x.2);
    Ret x.1
  else Raise ENoSession.

(** decryptPkmsg, sessioncipher.py:80-94. *)
Definition decryptPkmsg (r d : Z) (m : preKeyWhisperMessage) : prog bytes :=
  rec ← do (CLoadSession r d);
  x ← builder_process C r rec m;
  y ← decryptWithSessionRecord x.1 (pMessage m);
  _ ← do (CStoreSession r d y.2);
  match x.2 with
  | Some i => _ ← do (CRemovePreKey i); Ret y.1
  | None => Ret y.1
  end.
End cipher.
