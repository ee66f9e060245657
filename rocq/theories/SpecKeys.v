(** Which keys open a message: an independent description of the symmetric and the DH
    ratchet at the receiver, of the MAC and of CBC. *)
From Verif Require Import PyBase Protos Crypto Ecc Messages State Prog SpecUtil.

Section keys.
Context (C : crypto).

(** Number of the first HKDF block: 0 in protocol version 2, 1 in version 3. *)
Definition first_block (version : N) : nat := if (version =? 2)%N then 0 else 1.

(** The chain key [n] steps later. *)
Definition stepped (key : bytes) (n : nat) : bytes := Nat.iter n (fun k => hmac256 C k [x02]) key.

(** The three keys of a message. *)
Record keys := Keys { k_cipher : bytes; k_mac : bytes; k_iv : bytes }.

(** ASCII. *)
Definition ascii (s : string) : bytes := String.list_byte_of_string s.

(** The keys that belong to a chain key. *)
Definition keys_of (version : N) (chainKey : bytes) : keys :=
  let okm := rfc_hkdf (hmac256 C) (first_block version) None (hmac256 C chainKey [x01]) (ascii "WhisperMessageKeys") 80 in
  Keys (take 32 okm) (take 32 (drop 32 okm)) (drop 64 okm).

(** The first chain key of a new receiving chain: DH ratchet. *)
Definition dh_chain (version : N) (root private remote : bytes) : bytes :=
  drop 32 (rfc_hkdf (hmac256 C) (first_block version) (match root with [] => None | _ => Some root end)
             (agree C private remote) (ascii "WhisperRatchet") 64).

(** The public key of a chain. *)
Definition chain_of (c : ch_s) (remote : bytes) : Prop :=
  exists t, ch_ratchetKey c = Some (x05 :: t) /\ remote = take 32 t.

(** Index of the next message of a chain and its key. *)
Definition next_index (c : ch_s) : N := match ch_chainKey c with Some k => default 0%N (ck_index k) | None => 0%N end.
Definition next_key (c : ch_s) : bytes := match ch_chainKey c with Some k => default [] (ck_key k) | None => [] end.

(** The chain of a ratchet key: the first one with it. *)
Definition receiving (s : ss_s) (remote : bytes) (c : ch_s) : Prop :=
  exists l1 l2, ss_receiverChains s = l1 ++ c :: l2 /\ chain_of c remote /\
    Forall (fun x => exists k, chain_of x k /\ k <> remote) l1.
Definition no_receiving (s : ss_s) (remote : bytes) : Prop :=
  Forall (fun x => exists k, chain_of x k /\ k <> remote) (ss_receiverChains s).

(** Our private ratchet key. *)
Definition our_private (s : ss_s) : bytes :=
  match ss_senderChain s with Some c => default [] (ch_ratchetKeyPrivate c) | None => [] end.
(** Our public ratchet key is readable. *)
Definition our_public_ok (s : ss_s) : Prop :=
  exists c t, ss_senderChain s = Some c /\ ch_ratchetKey c = Some (x05 :: t).

(** The keys of message number [n] in the chain of the ratchet key, for this state. *)
Inductive message_key (s : ss_s) (version : N) (remote : bytes) (n : N) : keys -> Prop :=
| key_stored c l1 e l2 : receiving s remote c -> (n < next_index c)%N ->
    ch_messageKeys c = l1 ++ e :: l2 -> default 0%N (mk_index e) = n ->
    Forall (fun x => default 0%N (mk_index x) <> n) l1 ->
    message_key s version remote n (Keys (default [] (mk_cipherKey e)) (default [] (mk_macKey e)) (default [] (mk_iv e)))
| key_stepped c : receiving s remote c -> (next_index c <= n <= next_index c + 2000)%N ->
    message_key s version remote n (keys_of version (stepped (next_key c) (N.to_nat (n - next_index c))))
| key_new_chain : no_receiving s remote -> (n <= 2000)%N ->
    length remote = 32 -> length (our_private s) = 32 -> our_public_ok s ->
    message_key s version remote n
      (keys_of version (stepped (dh_chain version (default [] (ss_rootKey s)) (our_private s) remote) (N.to_nat n))).

(** The MAC of a message: eight bytes at its end. *)
Definition authentic (version : N) (sender receiver macKey : bytes) (bs : bytes) : Prop :=
  exists rest mac, bs = rest ++ mac /\ length mac = 8 /\
    mac = take 8 (hmac256 C macKey ((if (3 <=? version)%N then (x05 :: sender) ++ (x05 :: receiver) else []) ++ rest)).

(** CBC: each block deciphered and xored with the one before; PKCS7 padding removed. *)
Definition xor (a b : bytes) : bytes := zip_with (fun x y => n2b (N.lxor (b2n x) (b2n y))) a b.
Definition cbc_plain (key iv body plaintext : bytes) : Prop :=
  exists cs k, body = concat cs /\ Forall (fun c => length c = 16) cs /\ 1 <= k <= 16 /\
    plaintext ++ replicate k (n2b (N.of_nat k)) = concat (zip_with xor (aesD C key <$> cs) (iv :: cs)) /\
    (length key = 16 \/ length key = 24 \/ length key = 32) /\ length iv = 16.

(** An identity key as it is stored. *)
Definition identity_of (o : option bytes) (k : bytes) : Prop := exists t, o = Some (x05 :: t) /\ k = take 32 t.

(** The protocol version of a state: 2 if none or 0 is stored. *)
Definition version_of (s : ss_s) (version : N) : Prop :=
  match ss_version s with
  | None | Some 0%N => version = 2%N
  | Some v => version = v
  end.

(** The state opens the message to this plaintext. *)
Definition opens (s : ss_s) (m : whisperMessage) (plaintext : bytes) : Prop :=
  exists version k local remote,
    version_of s version /\ wVersion m = version /\ (version = 2%N \/ version = 3%N) /\
    is_Some (ss_senderChain s) /\
    message_key s version (wRatchetKey m) (wCounter m) k /\
    identity_of (ss_remoteIdentity s) remote /\ identity_of (ss_localIdentity s) local /\
    authentic version remote local (k_mac k) (wSerialized m) /\
    cbc_plain (k_cipher k) (k_iv k) (wBody m) plaintext.

(** The state that a first prekey message sets up: X3DH with the stored signed prekey and
    the one-time prekey that the message names, if any. *)
Definition new_session (w : world) (m : preKeyWhisperMessage) (s : ss_s) : Prop :=
  exists sbs spr otpk,
    w_signed w !! pSignedPreKeyId m = Some sbs /\ spr_parse sbs = Ok spr /\
    match pPreKeyId m with
    | Some i => exists bs pr, w_prekeys w !! i = Some bs /\ pr_parse bs = Ok pr /\ otpk = Some (default [] (pr_privateKey pr))
    | None => otpk = None
    end /\
    let signed := default [] (spr_privateKey spr) in
    let secret := replicate 32 xff ++ agree C signed (pIdentityKey m) ++ agree C (kp_priv (w_identity w)) (pBaseKey m) ++
      agree C signed (pBaseKey m) ++ match otpk with Some k => agree C k (pBaseKey m) | None => [] end in
    ss_version s = Some 3%N /\ ss_remoteIdentity s = Some (x05 :: pIdentityKey m) /\
    ss_localIdentity s = Some (x05 :: kp_pub (w_identity w)) /\ ss_receiverChains s = [] /\
    our_private s = signed /\
    ss_rootKey s = Some (take 32 (rfc_hkdf (hmac256 C) 1 None secret (ascii "WhisperText") 64)).
End keys.

(** Number of message keys stored in a state and in a record. *)
Definition keys_stored (s : ss_s) : nat := sum_list ((fun c => length (ch_messageKeys c)) <$> ss_receiverChains s).
Definition keys_stored_all (l : list ss_s) : nat := sum_list (keys_stored <$> l).
