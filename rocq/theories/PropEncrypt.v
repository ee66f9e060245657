(** Properties C06, C15, C45: what encrypt returns over sequences of calls. *)
From Verif Require Import PyBase Wire Protos ProtoFacts Crypto Ecc Kdf Messages State Prog Ratchet Builder Cipher Groups Helper.
From Verif Require Import SpecUtil SpecSession SpecApi SpecKeys SpecEncrypt EncryptProofs EncryptRefuted Toy Sched Ex.

(** ** C06: no (ratchet key, counter) pair is used twice *)

(** Any sequence of encryptions on any stores; each may die before any of its outside
    calls.  All ciphertexts returned have the same ratchet key and increasing counters. *)
Theorem C06_counters_increase : forall C, crypto_ok C -> forall r d l w i j ci cj,
  i < j -> (history C r d (enc_ops l) w).1 !! i = Some (Some (Ok (Encrypted ci))) ->
  (history C r d (enc_ops l) w).1 !! j = Some (Some (Ok (Encrypted cj))) ->
  wRatchetKey (inner ci) = wRatchetKey (inner cj) /\ (wCounter (inner ci) < wCounter (inner cj))%N.
Proof. exact enc_increasing. Qed.
Print Assumptions C06_counters_increase.

(** Each is sealed with the key of its counter in the sending chain. *)
Theorem C06_keys : forall C, crypto_ok C -> forall r d l w j pt crash ct,
  l !! j = Some (pt, crash) -> (history C r d (enc_ops l) w).1 !! j = Some (Some (Ok (Encrypted ct))) ->
  exists rec, session_at w r d = Ok rec /\ from_sending C (sr_state rec) pt ct.
Proof. exact enc_sending. Qed.
Print Assumptions C06_keys.

(** Five calls, the second dies before it stores, the fourth afterwards. *)
Definition counters (l : list (bytes * option nat)) : list (option N) :=
  (fun x => match x with Some (Ok (Encrypted c)) => Some (wCounter (inner c)) | _ => None end)
    <$> (history toy 2 1 (enc_ops l) alice1).1.
Example C06_crashes :
  counters [([x01], None); ([x02], Some 1); ([x03], None); ([x04], Some 2); ([x05], None)]
    = [Some 0%N; None; Some 1%N; Some 2%N; Some 3%N].
Proof. vm_compute. done. Qed.

(** ** C15: prekey messages until the first answer *)

(** [receives o]: the call is decryptMsg or decryptPkmsg.  As long as these only raise, the
    ciphertexts name the bundle and one base key. *)
Theorem C15_named_until_answered : forall C, crypto_ok C -> forall r d b w w1,
  reachable C w -> length (kp_pub (w_identity w)) = 32 -> run (processPreKeyBundle C r d b) w = (Ok tt, w1) ->
  exists base, length base = 32 /\ forall l j ct,
  (forall i o crash, i < j -> l !! i = Some (o, crash) -> receives o ->
     exists e, (history C r d l w1).1 !! i = Some (Some (Err e))) ->
  (history C r d l w1).1 !! j = Some (Some (Ok (Encrypted ct))) ->
  names ct (match bu_preKey b with Some _ => bu_preKeyId b | None => None end) (bu_signedPreKeyId b) base
    (kp_pub (w_identity w)) (w_regid w).
Proof. exact bundle_named. Qed.
Print Assumptions C15_named_until_answered.

(** After a message was decrypted they are plain. *)
Theorem C15_plain_after_answer : forall C, crypto_ok C -> forall r d l w i j o crash x ct,
  reachable C w -> i < j -> l !! i = Some (o, crash) -> receives o ->
  (history C r d l w).1 !! i = Some (Some (Ok x)) -> (history C r d l w).1 !! j = Some (Some (Ok (Encrypted ct))) ->
  exists m, ct = CTWhisper m.
Proof. exact plain_after_answer. Qed.
Print Assumptions C15_plain_after_answer.

(** The property asks that the message be one of the new session.  But a message that only
    an archived session opens also ends the naming of the bundle: that session becomes the
    current one. *)
Theorem C15_old_session_refuted : exists C w w1 r d b m e rec o2 x ct,
  crypto_ok C /\ reachable C w /\ run (processPreKeyBundle C r d b) w = (Ok tt, w1) /\
  session_at w1 r d = Ok rec /\ (run (decryptWithSessionState C (sr_state rec) m) w1).1 = Err e /\
  (history C r d [(OMsg m, None); (o2, None)] w1).1 = [Some (Ok (Decrypted x)); Some (Ok (Encrypted (CTWhisper ct)))].
Proof. exact old_session_refuted. Qed.
Print Assumptions C15_old_session_refuted.

(** Two messages, Bob's answer, a third. *)
Definition answer : whisperMessage :=
  match (run (encrypt toy 1 1 [x2b]) (run (decryptPkmsg toy 1 1 (pkFrom alice0 [x2a])) bob1).2).1 with
  | Ok (CTWhisper m) => m | _ => noWm end.
Definition kinds (l : list (op * option nat)) : list (option (option N * N)) :=
  omap (fun x => match x with
    | Some (Ok (Encrypted (CTPreKey p))) => Some (Some (pPreKeyId p, pSignedPreKeyId p))
    | Some (Ok (Encrypted (CTWhisper _))) => Some None
    | _ => None end) (history toy 2 1 l alice1).1.
Example C15_run :
  kinds [(OEncrypt [x2a], None); (OEncrypt [x2c], None); (OMsg answer, None); (OEncrypt [x2d], None)]
    = [Some (Some 5%N, 9%N); Some (Some 5%N, 9%N); None].
Proof. vm_compute. done. Qed.

(** ** C45: concurrent encryptions *)

(** One loads and stores before the other loads: different counters. *)
Theorem C45_apart_partial : forall C, crypto_ok C -> forall r d p1 p2 l w c1 c2 w',
  apart l -> run_pair l (encrypt C r d p1) (encrypt C r d p2) w = (Ok c1, Ok c2, w') ->
  wCounter (inner c1) <> wCounter (inner c2).
Proof. exact encrypt_apart. Qed.
Print Assumptions C45_apart_partial.

(** In every other interleaving the pairs are equal: two messages under one message key. *)
Theorem C45_overlap : forall C, crypto_ok C -> forall r d p1 p2 l w c1 c2 w',
  ~ apart l -> run_pair l (encrypt C r d p1) (encrypt C r d p2) w = (Ok c1, Ok c2, w') ->
  wRatchetKey (inner c1) = wRatchetKey (inner c2) /\ wCounter (inner c1) = wCounter (inner c2).
Proof. exact encrypt_both. Qed.
Print Assumptions C45_overlap.

Theorem C45_refuted : exists C w r d p1 p2 l c1 c2 w',
  crypto_ok C /\ reachable C w /\ run_pair l (encrypt C r d p1) (encrypt C r d p2) w = (Ok c1, Ok c2, w') /\
  wRatchetKey (inner c1) = wRatchetKey (inner c2) /\ wCounter (inner c1) = wCounter (inner c2).
Proof. exact overlap_refuted. Qed.
Print Assumptions C45_refuted.

(** The six interleavings of two loads and two stores. *)
Definition pairCounters (l : list bool) : list (option N) :=
  let x := run_pair l (encrypt toy 2 1 [x2a]) (encrypt toy 2 1 [x2b]) alice1 in
  let f o := match o with Ok c => Some (wCounter (inner c)) | Err _ => None end in [f x.1.1; f x.1.2].
Example C45_all :
  pairCounters <$> [[true; true; false; false]; [false; false; true; true]; [true; false; true; false];
                    [true; false; false; true]; [false; true; true; false]; [false; true; false; true]]
  = [[Some 0%N; Some 1%N]; [Some 1%N; Some 0%N]; [Some 0%N; Some 0%N];
     [Some 0%N; Some 0%N]; [Some 0%N; Some 0%N]; [Some 0%N; Some 0%N]].
Proof. vm_compute. done. Qed.
