(** The double ratchet of one session state: an independent description of what a decryption
    and an encryption leave behind, used by C72 and C73. *)
From Verif Require Import PyBase Protos Crypto Ecc Messages State Prog Builder Cipher SpecUtil SpecApi SpecKeys SpecEncrypt.

Section ratchet.
Context (C : crypto).

(** The new root key of a DH ratchet step; [dh_chain] is the chain key that comes with it. *)
Definition dh_root (version : N) (root private remote : bytes) : bytes :=
  take 32 (rfc_hkdf (hmac256 C) (first_block version) (match root with [] => None | _ => Some root end)
             (agree C private remote) (ascii "WhisperRatchet") 64).

(** A message key as it is stored. *)
Definition stored_key (version n : N) (chainKey : bytes) : mk_s :=
  let k := keys_of C version chainKey in MkS (Some n) (Some (k_cipher k)) (Some (k_mac k)) (Some (k_iv k)).

(** Reading message number [n] of a receiving chain: a stored key is removed, or the chain
    key moves past the message and the keys in between are stored. *)
Inductive chain_read (version : N) (c : ch_s) (n : N) : ch_s -> Prop :=
| read_stored l1 e l2 : (n < next_index c)%N -> ch_messageKeys c = l1 ++ e :: l2 -> default 0%N (mk_index e) = n ->
    Forall (fun x => default 0%N (mk_index x) <> n) l1 ->
    chain_read version c n (ChS (ch_ratchetKey c) (ch_ratchetKeyPrivate c) (ch_chainKey c) (l1 ++ l2))
| read_ahead : (next_index c <= n <= next_index c + 2000)%N ->
    chain_read version c n
      (ChS (ch_ratchetKey c) (ch_ratchetKeyPrivate c)
         (Some (CkS (Some (n + 1)%N) (Some (stepped C (next_key c) (N.to_nat (n + 1 - next_index c))))))
         (ch_messageKeys c ++
          map (fun i => stored_key version (next_index c + N.of_nat i) (stepped C (next_key c) i))
              (seq 0 (N.to_nat (n - next_index c))))).

(** The sending chain of a state; none is an empty one. *)
Definition sending (s : ss_s) : ch_s := default ch_empty (ss_senderChain s).

(** The state after it decrypted a message: if the chain of the ratchet key is there, it is
    read.  If not, the state makes a DH ratchet step: a receiving chain from the root key
    and our ratchet key is added at the end, of which five are kept, and read; then a root
    key and sending chain come from the fresh key pair [kp]; the number of the last message
    sent in the former chain is noted.  Nothing else changes, except that the handshake is
    no longer repeated. *)
Inductive decrypted_to (version : N) (s : ss_s) (m : whisperMessage) (kp : keypair) : ss_s -> Prop :=
| to_known l1 c l2 c' :
    ss_receiverChains s = l1 ++ c :: l2 -> chain_of c (wRatchetKey m) ->
    Forall (fun x => exists k, chain_of x k /\ k <> wRatchetKey m) l1 ->
    chain_read version c (wCounter m) c' ->
    decrypted_to version s m kp
      (SsS (ss_version s) (ss_localIdentity s) (ss_remoteIdentity s) (ss_rootKey s) (ss_previousCounter s)
           (ss_senderChain s) (l1 ++ c' :: l2) (ss_pendingKeyExchange s) None
           (ss_remoteRegId s) (ss_localRegId s) (ss_needsRefresh s) (ss_aliceBaseKey s))
| to_stepped c' :
    let remote := wRatchetKey m in
    let root := default [] (ss_rootKey s) in
    let root1 := dh_root version root (our_private s) remote in
    no_receiving s remote -> length remote = 32 ->
    chain_read version
      (ChS (Some (x05 :: remote)) None (Some (CkS (Some 0%N) (Some (dh_chain C version root (our_private s) remote)))) [])
      (wCounter m) c' ->
    decrypted_to version s m kp
      (SsS (ss_version s) (ss_localIdentity s) (ss_remoteIdentity s)
           (Some (dh_root version root1 (kp_priv kp) remote))
           (Some (next_index (sending s) - 1)%N)
           (Some (ChS (Some (x05 :: kp_pub kp)) (Some (kp_priv kp))
                      (Some (CkS (Some 0%N) (Some (dh_chain C version root1 (kp_priv kp) remote))))
                      (ch_messageKeys (sending s))))
           (drop (length (ss_receiverChains s) - 4) (ss_receiverChains s) ++ [c'])
           (ss_pendingKeyExchange s) None
           (ss_remoteRegId s) (ss_localRegId s) (ss_needsRefresh s) (ss_aliceBaseKey s)).

(** The record after state number [i] of the list [l] decrypted the message to [pt] and
    became the current one; the states before it do not know the message. *)
Definition record_read (l : list ss_s) (m : whisperMessage) (pt : bytes) (kp : keypair) (i : nat) (s : ss_s) (rec' : sessionRecord) : Prop :=
  l !! i = Some s /\ answers C s m (Ok pt) /\
  (forall k s', k < i -> l !! k = Some s' -> answers C s' m (Err EInvalidMessage)) /\
  exists s', decrypted_to (wVersion m) s m kp s' /\ version_of s (wVersion m) /\
    states rec' = s' :: take i l ++ drop (S i) l.

(** X3DH: the first root key and chain key from the shared secrets. *)
Definition x3dh (secrets : list bytes) : bytes :=
  rfc_hkdf (hmac256 C) 1 None (replicate 32 xff ++ concat secrets) (ascii "WhisperText") 64.

(** A session without receiving chains, whose sending chain has our ratchet key. *)
Definition responder_session (local remote : bytes) (ratchetPub ratchetPriv : bytes) (okm : bytes)
    (remoteReg localReg : option N) (baseKey : option bytes) : ss_s :=
  SsS (Some 3%N) (Some (x05 :: local)) (Some (x05 :: remote)) (Some (take 32 okm)) None
      (Some (ChS (Some (x05 :: ratchetPub)) (Some ratchetPriv) (Some (CkS (Some 0%N) (Some (drop 32 okm)))) []))
      [] None None remoteReg localReg None baseKey.

(** The state that a prekey message sets up at its receiver. *)
Definition answering (w : world) (m : preKeyWhisperMessage) (s : ss_s) : Prop :=
  exists sbs spr pub one,
    w_signed w !! pSignedPreKeyId m = Some sbs /\ spr_parse sbs = Ok spr /\ identity_of (spr_publicKey spr) pub /\
    match pPreKeyId m with
    | Some i => exists bs pr, w_prekeys w !! i = Some bs /\ pr_parse bs = Ok pr /\ one = [default [] (pr_privateKey pr)]
    | None => one = []
    end /\
    let signed := default [] (spr_privateKey spr) in
    let okm := x3dh ([agree C signed (pIdentityKey m); agree C (kp_priv (w_identity w)) (pBaseKey m);
                      agree C signed (pBaseKey m)] ++ ((fun k => agree C k (pBaseKey m)) <$> one)) in
    s = responder_session (kp_pub (w_identity w)) (pIdentityKey m) pub signed okm
          (Some (pRegistrationId m)) (Some (w_regid w)) (Some (x05 :: pBaseKey m)).

(** The WhisperMessage that a state sends: number, ratchet key and previous counter of its
    sending chain, body and MAC under the keys of the chain key. *)
Definition sends (s : ss_s) (version : N) (plaintext : bytes) (m : whisperMessage) : Prop :=
  exists local remote,
    let c := sending s in let k := keys_of C version (next_key c) in
    wVersion m = version /\ chain_of c (wRatchetKey m) /\
    wCounter m = next_index c /\ wPreviousCounter m = default 0%N (ss_previousCounter s) /\
    identity_of (ss_localIdentity s) local /\ identity_of (ss_remoteIdentity s) remote /\
    sealed C local remote k m plaintext /\
    whisper_parse (wSerialized m) = Ok m.

(** The state after an encryption: the sending chain is one step further. *)
Definition encrypted_to (s : ss_s) : ss_s :=
  let c := sending s in
  SsS (ss_version s) (ss_localIdentity s) (ss_remoteIdentity s) (ss_rootKey s) (ss_previousCounter s)
      (Some (ChS (ch_ratchetKey c) (ch_ratchetKeyPrivate c)
                 (Some (CkS (Some (next_index c + 1)%N) (Some (stepped C (next_key c) 1)))) (ch_messageKeys c)))
      (ss_receiverChains s) (ss_pendingKeyExchange s) (ss_pendingPreKey s)
      (ss_remoteRegId s) (ss_localRegId s) (ss_needsRefresh s) (ss_aliceBaseKey s).
End ratchet.
