(** groups/state/senderkeystate.py, groups/state/senderkeyrecord.py,
    groups/groupsessionbuilder.py, groups/groupcipher.py.

    A SenderKeyState is its structure [st_s]; a SenderKeyRecord is the list of them. *)
From Verif Require Import PyBase Protos Crypto Ecc Kdf Messages State Prog.

(** SenderKeyState(id, iteration, chainKey, public, private), senderkeystate.py:10-47. *)
Definition sks_create (id iteration : N) (chainKey pub : bytes) (priv : option bytes) : res st_s :=
  it ← set_u32 iteration;
  i ← set_u32 id;
  Ok (StS (Some i) (Some (SckS (Some it) (Some chainKey)))
        (Some (SskS (Some (pub_serialize pub)) priv)) []).

(** getKeyId, senderkeystate.py:49-50. *)
Definition sks_getKeyId (s : st_s) : N := default 0%N (st_senderKeyId s).

(** getSenderChainKey, senderkeystate.py:52-54. *)
Definition sks_getSenderChainKey (s : st_s) : senderChainKey :=
  let c := default sck_empty (st_senderChainKey s) in
  SenderChainKey (default 0%N (sck_iteration c)) (default [] (sck_seed c)).

(** setSenderChainKey, senderkeystate.py:56-58. *)
Definition sks_setSenderChainKey (c : senderChainKey) (s : st_s) : res st_s :=
  it ← set_u32 (scIteration c);
  Ok (st_set_senderChainKey (Some (SckS (Some it) (Some (scKey c)))) s).

(** getSigningKeyPublic, senderkeystate.py:60-61. *)
Definition sks_getSigningKeyPublic (s : st_s) : res bytes :=
  decodePoint (default [] (ssk_public (default ssk_empty (st_senderSigningKey s)))) 0.

(** getSigningKeyPrivate, senderkeystate.py:63-64. *)
Definition sks_getSigningKeyPrivate (s : st_s) : bytes :=
  default [] (ssk_private (default ssk_empty (st_senderSigningKey s))).

(** Does a stored sender message key have this iteration?  senderkeystate.py:68, 85. *)
Definition smk_hasIteration (iteration : N) (m : smk_s) : bool := (default 0 (smk_iteration m) =? iteration)%N.

(** hasSenderMessageKey, senderkeystate.py:66-71. *)
Definition sks_hasSenderMessageKey (iteration : N) (s : st_s) : bool :=
  existsb (smk_hasIteration iteration) (st_senderMessageKeys s).

(** addSenderMessageKey, senderkeystate.py:73-77. *)
Definition sks_addSenderMessageKey (m : senderMessageKey) (s : st_s) : res st_s :=
  it ← set_u32 (smIteration m);
  Ok (st_set_senderMessageKeys (st_senderMessageKeys s ++ [SmkS (Some it) (Some (smSeed m))]) s).

(** Find and delete the first key with the iteration, senderkeystate.py:83-88. *)
Fixpoint take_senderMessageKey (iteration : N) (l : list smk_s) : option (smk_s * list smk_s) :=
  match l with
  | [] => None
  | m :: r => if smk_hasIteration iteration m then Some (m, r)
              else match take_senderMessageKey iteration r with
                   | Some (x, r') => Some (x, m :: r')
                   | None => None
                   end
  end.

(** getSenderKeyState(keyId), senderkeyrecord.py:29-33: position and state. *)
Fixpoint find_state (keyId : N) (l : list st_s) (i : nat) : res (nat * st_s) :=
  match l with
  | [] => Err EInvalidKeyId
  | s :: r => if (sks_getKeyId s =? keyId)%N then Ok (i, s) else find_state keyId r (S i)
  end.

(** getSenderKeyState(), senderkeyrecord.py:24-28. *)
Definition first_state (l : list st_s) : res st_s :=
  match l with [] => Err EInvalidKeyId | s :: _ => Ok s end.

(** Mutating the state object at position [i] of the record. *)
Definition put_state (i : nat) (s : st_s) (l : list st_s) : list st_s := <[i := s]> l.

(** The exceptions caught at groupcipher.py:63 and groupsessionbuilder.py:43. *)
Definition isKeyException (e : exn) : bool := bool_decide (e = EInvalidKey) || bool_decide (e = EInvalidKeyId).

Section groups.
Context (C : crypto).

(** removeSenderMessageKey, senderkeystate.py:79-93. *)
Definition sks_removeSenderMessageKey (iteration : N) (s : st_s) : option senderMessageKey * st_s :=
  match take_senderMessageKey iteration (st_senderMessageKeys s) with
  | Some (m, r) => (Some (mk_senderMessageKey C (default 0%N (smk_iteration m)) (default [] (smk_seed m))),
                    st_set_senderMessageKeys r s)
  | None => (None, s)
  end.

(** GroupSessionBuilder.process, groupsessionbuilder.py:10-20, with addSenderKeyState,
    senderkeyrecord.py:35-42. *)
Definition group_process (name : senderKeyName) (m : senderKeyDistributionMessage) : prog unit :=
  rec ← do (CLoadSenderKey name);
  s ← lift (sks_create (dId m) (dIteration m) (dChainKey m) (dSignatureKey m) None);
  do (CStoreSenderKey name (rec ++ [s])).

(** GroupSessionBuilder.create, groupsessionbuilder.py:23-44, with setSenderKeyState,
    senderkeyrecord.py:44-52, and KeyHelper.generateSenderKeyId, generateSenderKey,
    generateSenderSigningKey, util/keyhelper.py:88-98. *)
Definition group_create (name : senderKeyName) : prog senderKeyDistributionMessage :=
  rethrow isKeyException EAssertionError (
    rec ← do (CLoadSenderKey name);
    rec ← match rec with
          | [] =>
              id ← getRandomSequence 2147483647;
              chainKey ← do (CUrandom 32);
              kp ← generateKeyPair C;
              s ← lift (sks_create id 0 chainKey (kp_pub kp) (Some (kp_priv kp)));
              _ ← do (CStoreSenderKey name [s]);
              Ret [s]
          | _ => Ret rec
          end;
    lift (s ← first_state rec;
          pub ← sks_getSigningKeyPublic s;
          skd_create (sks_getKeyId s) (scIteration (sks_getSenderChainKey s)) (scKey (sks_getSenderChainKey s)) pub)).

(** GroupCipher.encrypt, groupcipher.py:21-41, getCipherText, groupcipher.py:99-106. *)
Definition group_encrypt (name : senderKeyName) (paddedPlaintext : bytes) : prog bytes :=
  rethrow (fun e => bool_decide (e = EInvalidKeyId)) ENoSession (
    rec ← do (CLoadSenderKey name);
    s ← lift (first_state rec);
    let senderKey := sck_messageKey C (sks_getSenderChainKey s) in
    ciphertext ← lift (aes_encrypt C (smCipher senderKey) (smIv senderKey) paddedPlaintext);
    b ← lift (sk_tosign (sks_getKeyId s) (smIteration senderKey) ciphertext);
    sig ← calculateSignature C (sks_getSigningKeyPrivate s) b;
    s ← lift (sks_setSenderChainKey (sck_next C (sks_getSenderChainKey s)) s);
    _ ← do (CStoreSenderKey name (put_state 0 s rec));
    Ret (b ++ sig)).

(** The loop of getSenderKey, groupcipher.py:79-81, [n] steps. *)
Fixpoint skipSenderKeys (n : nat) (c : senderChainKey) (s : st_s) : res (senderChainKey * st_s) :=
  match n with
  | O => Ok (c, s)
  | S n => s ← sks_addSenderMessageKey (sck_messageKey C c) s; skipSenderKeys n (sck_next C c) s
  end.

(** GroupCipher.getSenderKey, groupcipher.py:66-84.  The test at line 76 compares the
    integer [chain iteration - iteration], which is not positive there, with 2000. *)
Definition getSenderKey (s : st_s) (iteration : N) : res (senderMessageKey * st_s) :=
  let c := sks_getSenderChainKey s in
  if (iteration <? scIteration c)%N then
    if sks_hasSenderMessageKey iteration s then
      match sks_removeSenderMessageKey iteration s with
      | (Some k, s) => Ok (k, s)
      | (None, s) => Err ETypeError
      end
    else Err EDuplicateMessage
  else if (2000 <? Z.of_N (scIteration c) - Z.of_N iteration)%Z then Err EInvalidMessage
  else
    x ← skipSenderKeys (N.to_nat (iteration - scIteration c)) c s;
    s ← sks_setSenderChainKey (sck_next C x.1) x.2;
    Ok (sck_messageKey C x.1, s).

(** GroupCipher.decrypt, groupcipher.py:43-64, getPlainText, groupcipher.py:86-97. *)
Definition group_decrypt (name : senderKeyName) (senderKeyMessageBytes : bytes) : prog bytes :=
  rethrow isKeyException EInvalidMessage (
    rec ← do (CLoadSenderKey name);
    match rec with
    | [] => Raise ENoSession
    | _ =>
        x ← lift (m ← sk_msg_parse senderKeyMessageBytes;
                  is ← find_state (gKeyId m) rec 0;
                  pub ← sks_getSigningKeyPublic is.2;
                  _ ← sk_verifySignature C m pub;
                  ks ← getSenderKey is.2 (gIteration m);
                  plaintext ← res_rethrow (fun _ => true) EInvalidMessage
                                (aes_decrypt C (smCipher ks.1) (smIv ks.1) (gCiphertext m));
                  Ok (plaintext, put_state is.1 ks.2 rec));
        _ ← do (CStoreSenderKey name x.2);
        Ret x.1
    end).
End groups.
