(** Properties C05, C07: which messages are opened, and with which keys. *)
From Verif Require Import PyBase Wire Protos ProtoFacts Crypto Ecc Kdf Messages State Prog Ratchet Builder Cipher Groups Helper.
From Verif Require Import SpecUtil SpecSession SpecApi SpecKeys KeyProofs Toy Sched Ex.

(** ** C05: a plaintext is returned only for a message whose MAC checks *)

(** Some state of the stored record opens the message: see [opens]. *)
Theorem C05_message : forall C, crypto_ok C -> forall w r d bs m pt w',
  whisper_parse bs = Ok m -> run (decryptMsg C r d m) w = (Ok pt, w') ->
  exists rec s, session_at w r d = Ok rec /\ s ∈ states rec /\ opens C s m pt.
Proof. exact msg_authentic. Qed.
Print Assumptions C05_message.

(** Or the state that the message itself sets up. *)
Theorem C05_prekey_message : forall C, crypto_ok C -> forall w r d bs m pt w',
  prekey_parse bs = Ok m -> run (decryptPkmsg C r d m) w = (Ok pt, w') ->
  exists rec s, session_at w r d = Ok rec /\ (s ∈ states rec \/ new_session C w m s) /\ opens C s (pMessage m) pt.
Proof. exact pkmsg_authentic. Qed.
Print Assumptions C05_prekey_message.

(** The converse: what a state opens is accepted. *)
Theorem C05_complete : forall C, crypto_ok C -> forall w r d bs m pt rec,
  whisper_parse bs = Ok m -> is_Some (w_sessions w !! (r, d)) -> session_at w r d = Ok rec -> ss_wf (sr_state rec) ->
  (wCounter m + 1 < 2 ^ 32)%N -> opens C (sr_state rec) m pt ->
  exists w', run (decryptMsg C r d m) w = (Ok pt, w').
Proof. exact msg_accepted. Qed.
Print Assumptions C05_complete.

(** A genuine first message is opened by the new session; with its MAC altered it is not
    accepted. *)
Example C05_first :
  fst (run (decryptPkmsg toy 1 1 (pkFrom alice0 [x2a])) bob1) = Ok [x2a] /\
  fst (run (decryptPkmsg toy 1 1 (pkTampered alice0 [x2a])) bob1) = Err EInvalidMessage.
Proof. vm_compute. done. Qed.
(** So is a reply, also when only its first byte (the version) is altered. *)
Definition replyBytes : bytes :=
  match n_fromB (after [SendA [x01]; DeliverB 0; SendB [x2b]]) with b :: _ => b.2 | [] => [] end.
Definition atA (bs : bytes) : res bytes :=
  (run (decryptMsg toy 2 1 (get noWm (whisper_parse bs))) (n_A (after [SendA [x01]; DeliverB 0; SendB [x2b]]))).1.
Example C05_reply : atA replyBytes = Ok [x2b] /\ atA (flipLast replyBytes) = Err EInvalidMessage /\
  atA (x23 :: drop 1 replyBytes) = Err EInvalidMessage.
Proof. vm_compute. done. Qed.

(** ** C07: at most 2000 keys are skipped *)

(** Refused without any use of the primitives: this holds for every [C], and even the
    random tape is not touched. *)
Theorem C07_too_far : forall C s v m w c,
  version_of s v -> v = 2%N \/ v = 3%N -> receiving s (wRatchetKey m) c ->
  (next_index c + 2000 < wCounter m)%N ->
  run (decryptWithSessionState C s m) w = (Err EInvalidMessage, w).
Proof. exact too_far. Qed.
Print Assumptions C07_too_far.

(** With a new ratchet key the chain is derived first. *)
Theorem C07_too_far_new_chain : forall C, crypto_ok C -> forall s v m w,
  version_of s v -> v = 2%N \/ v = 3%N -> ss_wf s -> no_receiving s (wRatchetKey m) -> our_public_ok s ->
  length (wRatchetKey m) = 32 -> length (our_private s) = 32 -> (2000 < wCounter m)%N ->
  exists w', run (decryptWithSessionState C s m) w = (Err EInvalidMessage, w') /\ unchanged w w'.
Proof. exact too_far_new. Qed.
Print Assumptions C07_too_far_new_chain.

(** Up to and including 2000 ahead (see [message_key]) a genuine message is accepted. *)
Theorem C07_accepted : forall C, crypto_ok C -> forall s m pt bs w,
  whisper_parse bs = Ok m -> ss_wf s -> (wCounter m + 1 < 2 ^ 32)%N -> opens C s m pt ->
  exists s', (run (decryptWithSessionState C s m) w).1 = Ok (pt, s').
Proof. exact state_accepts. Qed.
Print Assumptions C07_accepted.

Theorem C07_stored : forall C s m w pt s',
  (run (decryptWithSessionState C s m) w).1 = Ok (pt, s') -> keys_stored s' <= keys_stored s + 2000.
Proof. exact state_stored. Qed.
Print Assumptions C07_stored.

Theorem C07_stored_message : forall C w r d m pt w' rec,
  reachable C w -> run (decryptMsg C r d m) w = (Ok pt, w') -> session_at w r d = Ok rec ->
  exists rec', session_at w' r d = Ok rec' /\ keys_stored_all (states rec') <= keys_stored_all (states rec) + 2000.
Proof. exact msg_stored. Qed.
Print Assumptions C07_stored_message.

Theorem C07_stored_prekey_message : forall C, crypto_ok C -> forall w r d m pt w' rec,
  reachable C w -> run (decryptPkmsg C r d m) w = (Ok pt, w') -> session_at w r d = Ok rec ->
  exists rec', session_at w' r d = Ok rec' /\ keys_stored_all (states rec') <= keys_stored_all (states rec) + 2000.
Proof. exact pkmsg_stored. Qed.
Print Assumptions C07_stored_prekey_message.

(** The boundary, with primitives that cost nothing. *)
Definition flat : crypto :=
  Crypto (fun _ _ => replicate 32 x00) (fun r => r) (fun k => k) (fun _ _ => replicate 32 x00)
    (fun _ _ _ => replicate 64 x00) (fun _ _ _ => 0%Z) (fun _ b => b) (fun _ b => b).
Definition flatState (n : N) : ss_s :=
  SsS (Some 3%N) (Some (x05 :: replicate 32 x01)) (Some (x05 :: replicate 32 x02)) (Some (replicate 32 x00)) None
    (Some (ChS (Some (x05 :: replicate 32 x03)) (Some (replicate 32 x03)) (Some (CkS (Some 0%N) (Some (replicate 32 x00)))) []))
    [ChS (Some (x05 :: replicate 32 x04)) None (Some (CkS (Some n) (Some (replicate 32 x00)))) []] None None None None None None.
Definition flatMsg (n : N) : whisperMessage :=
  WhisperMessage (replicate 32 x04) 3 n 0 (replicate 16 x10) (replicate 20 x00).
Definition flatDecrypt (n : N) : res N :=
  x ← (run (decryptWithSessionState flat (flatState 7) (flatMsg n)) alice0).1; Ok (N.of_nat (keys_stored x.2)).
Example C07_boundary :
  flatDecrypt 7 = Ok 0%N /\ flatDecrypt 2007 = Ok 2000%N /\ flatDecrypt 2008 = Err EInvalidMessage /\
  flatDecrypt 6 = Err EDuplicateMessage.
Proof. vm_compute. done. Qed.
