(** Property C61: in every history only version 3 is used. *)
From Verif Require Import PyBase Wire Protos Crypto Ecc Kdf Messages State Prog Ratchet Builder Cipher Groups Helper.
From Verif Require Import SpecSession SpecApi VersionProofs Toy Sched Ex.

(** ** C61: no session and no message of an older version *)

(** Every state of every stored session is of version 3, or was never set up. *)
Theorem C61_states : forall C w r d rec s,
  reachable C w -> session_at w r d = Ok rec -> s ∈ states rec ->
  ss_version s = Some 3%N \/ ss_version s = None /\ ss_senderChain s = None.
Proof. exact version_states. Qed.
Print Assumptions C61_states.

Theorem C61_sent : forall C w r d pt ct w',
  reachable C w -> run (encrypt C r d pt) w = (Ok ct, w') ->
  (exists rest, ct_serialize ct = x33 :: rest) /\
  match ct with CTWhisper m => wVersion m = 3%N | CTPreKey p => pVersion p = 3%N /\ wVersion (pMessage p) = 3%N end.
Proof. exact version_encrypt. Qed.
Print Assumptions C61_sent.

(** [wVersion] is an arbitrary field of the message object here. *)
Theorem C61_message : forall C w r d m pt w',
  reachable C w -> run (decryptMsg C r d m) w = (Ok pt, w') -> wVersion m = 3%N.
Proof. exact version_decryptMsg. Qed.
Print Assumptions C61_message.

Theorem C61_prekey_message : forall C w r d m pt w',
  reachable C w -> run (decryptPkmsg C r d m) w = (Ok pt, w') -> wVersion (pMessage m) = 3%N.
Proof. exact version_decryptPkmsg. Qed.
Print Assumptions C61_prekey_message.

(** In terms of received bytes. *)
Theorem C61_received : forall C w r d t bs pt w',
  reachable C w -> run (receive C r d (t, bs)) w = (Ok pt, w') ->
  exists b rest, bs = b :: rest /\ (b2n b / 16 = 3)%N.
Proof. exact version_received. Qed.
Print Assumptions C61_received.

(** Bob's reply arrives at Alice, once with its version byte changed to 2, then as it is.
    The parser itself lets version 2 pass. *)
Definition as_version2 (bs : bytes) : bytes := x23 :: tail bs.
Example C61_downgrade :
  let n := after [SendA [x01]; DeliverB 0; SendB [x02]] in
  let bs := snd (default (false, []) (n_fromB n !! 0)) in
  let a := n_A n in
  hd x00 bs = x33 /\
  wVersion (get noWm (whisper_parse (as_version2 bs))) = 2%N /\
  (run (receive toy 2 1 (false, as_version2 bs)) a).1 = Err EInvalidMessage /\
  (run (receive toy 2 1 (false, bs)) a).1 = Ok [x02].
Proof. vm_compute. done. Qed.

(** Even a sender who has the message key and the MAC key cannot go back to version 2: the
    same message with a correct MAC of version 2, and with one of version 3. *)
Definition bobSends (version : N) : res whisperMessage :=
  rec ← session_at (n_B (after [SendA [x01]; DeliverB 0])) 1 1;
  let s := sr_state rec in
  ck ← st_getSenderChainKey s; key ← st_getSenderRatchetKey s;
  let mk := ck_messageKeys toy ck in
  body ← aes_encrypt toy (mCipher mk) (mIv mk) [x02];
  remote ← st_getRemoteIdentityKey s; local ← st_getLocalIdentityKey s;
  whisper_create toy version (mMac mk) key (cIndex ck) 0 body local remote.
Example C61_authentic_downgrade :
  let a := n_A (after [SendA [x01]; DeliverB 0; SendB [x02]]) in
  let try v := m ← bobSends v; (run (receive toy 2 1 (false, wSerialized m)) a).1 in
  try 2%N = Err EInvalidMessage /\ try 3%N = Ok [x02].
Proof. vm_compute. done. Qed.
