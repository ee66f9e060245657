(** kdf/*.py, ratchet/chainkey.py, ratchet/rootkey.py,
    groups/ratchet/{senderchainkey,sendermessagekey}.py. *)
From Verif Require Import PyBase Crypto Ecc.

(** str.encode() of an ASCII literal. *)
Definition str (s : string) : bytes := String.list_byte_of_string s.

(** [chr(i % 256).encode()], kdf/hkdf.py:92-93: UTF-8, hence two bytes from 128 on. *)
Definition chr_utf8 (i : N) : bytes :=
  let c := (i mod 256)%N in
  if (c <? 128)%N then [n2b c] else [n2b (192 + c / 64); n2b (128 + c mod 64)].

(** An HKDF object is represented by its getIterationStartOffset:
    HKDFv2 (kdf/hkdfv2.py:6-8) is 0, HKDFv3 (kdf/hkdfv3.py:6-8) is 1. *)
Definition hkdf_v2 : N := 0%N.
(** HKDFv3, kdf/hkdfv3.py:6-8. *)
Definition hkdf_v3 : N := 1%N.

(** HKDF.createFor, kdf/hkdf.py:13-23. *)
Definition hkdf_createFor (version : N) : res N :=
  if (version =? 2)%N then Ok hkdf_v2
  else if (version =? 3)%N then Ok hkdf_v3 else Err EAssertionError.

(** MessageKeys, kdf/messagekeys.py:4-21. *)
Record messageKeys := MessageKeys { mCipher : bytes; mMac : bytes; mIv : bytes; mCounter : N }.

(** ChainKey, ratchet/chainkey.py:14-23. *)
Record chainKey := ChainKey { cKdf : N; cKey : bytes; cIndex : N }.

(** RootKey, ratchet/rootkey.py:9-14. *)
Record rootKey := RootKey { rKdf : N; rKey : bytes }.

(** SenderMessageKey, groups/ratchet/sendermessagekey.py:16-19. *)
Record senderMessageKey := SenderMessageKey { smIteration : N; smSeed : bytes; smIv : bytes; smCipher : bytes }.

(** SenderChainKey, groups/ratchet/senderchainkey.py:13-19. *)
Record senderChainKey := SenderChainKey { scIteration : N; scKey : bytes }.

Section kdf.
Context (C : crypto).

(** HKDF.extract, kdf/hkdf.py:30-33. *)
Definition hkdf_extract (salt ikm : bytes) : bytes := hmac256 C salt ikm.

(** The loop of HKDF.expand, kdf/hkdf.py:41-53: block counter [i], [n] blocks to go,
    previous block [mixin], bytes still wanted [rem]. *)
Fixpoint hkdf_expand_loop (prk info : bytes) (i : N) (n : nat) (mixin : bytes) (rem : nat) : bytes :=
  match n with
  | O => []
  | S n =>
      let stepResult := hmac256 C prk (mixin ++ info ++ chr_utf8 i) in
      let stepSize := rem `min` length stepResult in
      take stepSize stepResult ++ hkdf_expand_loop prk info (i + 1) n stepResult (rem - stepSize)
  end.

(** HKDF.expand, kdf/hkdf.py:35-55.  [info] None is the empty string;
    ceil(outputSize / 32) is exact for sizes below 2^53. *)
Definition hkdf_expand (off : N) (prk info : bytes) (outputSize : nat) : bytes :=
  hkdf_expand_loop prk info off ((outputSize + 31) / 32) [] outputSize.

(** HKDF.deriveSecrets, kdf/hkdf.py:25-28: an absent or empty salt is 32 zero bytes. *)
Definition hkdf_deriveSecrets (off : N) (ikm info : bytes) (outputLength : nat) (salt : bytes) : bytes :=
  let salt := match salt with [] => replicate 32 x00 | _ => salt end in
  hkdf_expand off (hkdf_extract salt ikm) info outputLength.

(** ChainKey.getBaseMaterial, ratchet/chainkey.py:37-40. *)
Definition ck_baseMaterial (c : chainKey) (seed : bytes) : bytes := hmac256 C (cKey c) seed.

(** ChainKey.getNextChainKey, ratchet/chainkey.py:25-27. *)
Definition ck_next (c : chainKey) : chainKey :=
  ChainKey (cKdf c) (ck_baseMaterial c [x02]) (cIndex c + 1).

(** ChainKey.getMessageKeys, ratchet/chainkey.py:29-35, with DerivedMessageSecrets,
    kdf/derivedmessagesecrets.py:7-19. *)
Definition ck_messageKeys (c : chainKey) : messageKeys :=
  let okm := hkdf_deriveSecrets (cKdf c) (ck_baseMaterial c [x01]) (str "WhisperMessageKeys") 80 [] in
  let '(ck, mk, iv) := bu_split3 okm 32 32 16 in
  MessageKeys ck mk iv (cIndex c).

(** RootKey.createChain, ratchet/rootkey.py:16-25, with DerivedRootSecrets,
    kdf/derivedrootsecrets.py:6-12. *)
Definition rk_createChain (r : rootKey) (theirRatchetKey : bytes) (ourRatchetKey : keypair)
  : res (rootKey * chainKey) :=
  shared ← calculateAgreement C theirRatchetKey (kp_priv ourRatchetKey);
  let okm := hkdf_deriveSecrets (rKdf r) shared (str "WhisperRatchet") 64 (rKey r) in
  let '(rk, ck) := bu_split2 okm 32 32 in
  Ok (RootKey (rKdf r) rk, ChainKey (rKdf r) ck 0).

(** SenderMessageKey.__init__, groups/ratchet/sendermessagekey.py:8-19. *)
Definition mk_senderMessageKey (iteration : N) (seed : bytes) : senderMessageKey :=
  let derivative := hkdf_deriveSecrets hkdf_v3 seed (str "WhisperGroup") 48 [] in
  let '(iv, ck) := bu_split2 derivative 16 32 in
  SenderMessageKey iteration seed iv ck.

(** SenderChainKey.getDerivative, groups/ratchet/senderchainkey.py:33-35. *)
Definition sck_derivative (seed key : bytes) : bytes := hmac256 C key seed.

(** SenderChainKey.getSenderMessageKey, groups/ratchet/senderchainkey.py:24-25. *)
Definition sck_messageKey (c : senderChainKey) : senderMessageKey :=
  mk_senderMessageKey (scIteration c) (sck_derivative [x01] (scKey c)).

(** SenderChainKey.getNext, groups/ratchet/senderchainkey.py:27-28. *)
Definition sck_next (c : senderChainKey) : senderChainKey :=
  SenderChainKey (scIteration c + 1) (sck_derivative [x02] (scKey c)).
End kdf.
