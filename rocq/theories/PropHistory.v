(** Properties C02, C08, C09, C41, C42, C43, C49, C50: what holds in every history of a
    device ([reachable], [step]: any sequence of public calls, some of which are killed
    half-way). *)
From Verif Require Import PyBase Wire Protos ProtoFacts Crypto Ecc Kdf Messages State Prog Ratchet Builder Cipher Groups Helper.
From Verif Require Import SpecSession SpecApi HistoryProofs ArchiveProofs HistoryRefuted Toy Sched Ex.

(** ** C02: the same message twice *)

Theorem C02_message : forall C, crypto_ok C -> forall w r d m pt w',
  reachable C w -> run (decryptMsg C r d m) w = (Ok pt, w') ->
  exists w2, run (decryptMsg C r d m) w' = (Err EDuplicateMessage, w2) /\ unchanged w' w2.
Proof. exact hist_duplicate_msg. Qed.
Print Assumptions C02_message.

Theorem C02_prekey_message : forall C, crypto_ok C -> forall w r d bs m pt w',
  reachable C w -> prekey_parse bs = Ok m -> run (decryptPkmsg C r d m) w = (Ok pt, w') ->
  exists w2, run (decryptPkmsg C r d m) w' = (Err EDuplicateMessage, w2) /\ unchanged w' w2.
Proof. exact hist_duplicate_pkmsg. Qed.
Print Assumptions C02_prekey_message.

(** Both kinds, the second one out of order. *)
Example C02_twice : shown <$> played [SendA [x01]; SendA [x02]; DeliverB 1; DeliverB 1; DeliverB 0; DeliverB 0;
    SendB [x03]; SendB [x04]; DeliverA 1; DeliverA 1; DeliverA 0; DeliverA 0]
  = [None; None; Some (Ok [x02]); Some (Err EDuplicateMessage); Some (Ok [x01]); Some (Err EDuplicateMessage);
     None; None; Some (Ok [x04]); Some (Err EDuplicateMessage); Some (Ok [x03]); Some (Err EDuplicateMessage)].
Proof. vm_compute. reflexivity. Qed.

(** ** C08: at most five receiving chains, the oldest goes *)

Theorem C08_at_most_five : forall C w r d rec s,
  reachable C w -> session_at w r d = Ok rec -> s ∈ states rec -> length (ss_receiverChains s) <= 5.
Proof. exact chains_at_most_5. Qed.
Print Assumptions C08_at_most_five.

(** What one decryption does to the chains of the state that is used: one of them is
    updated in place, or one is added at the end and the first goes if there were five. *)
Theorem C08_oldest_goes : forall C s m w pt s',
  length (ss_receiverChains s) <= 5 -> (run (decryptWithSessionState C s m) w).1 = Ok (pt, s') ->
  (exists j c c', ss_receiverChains s !! j = Some c /\ ch_ratchetKey c' = ch_ratchetKey c /\
     ss_receiverChains s' = <[j := c']> (ss_receiverChains s)) \/
  ((forall c, c ∈ ss_receiverChains s -> ch_ratchetKey c <> Some (x05 :: wRatchetKey m)) /\
   exists c', ch_ratchetKey c' = Some (x05 :: wRatchetKey m) /\
     ss_receiverChains s' = (if decide (length (ss_receiverChains s) = 5) then drop 1 (ss_receiverChains s)
                             else ss_receiverChains s) ++ [c']).
Proof. exact chains_after. Qed.
Print Assumptions C08_oldest_goes.

(** Seven round trips: Bob ends with five chains. *)
Definition trips (n : nat) : list action :=
  concat ((fun i => [SendA [n2b (N.of_nat i)]; DeliverB i; SendB [xff]; DeliverA i]) <$> seq 0 n).
Definition chainCount (w : world) (r d : Z) : option nat :=
  match session_at w r d with Ok rec => Some (length (ss_receiverChains (sr_state rec))) | Err _ => None end.
Example C08_seven : chainCount (n_B (after (trips 3))) 1 1 = Some 3 /\ chainCount (n_B (after (trips 7))) 1 1 = Some 5.
Proof. vm_compute. done. Qed.
(** The newest chain is kept and the oldest one goes. *)
Definition chainKeys (w : world) : list (option bytes) :=
  match session_at w 1 1 with Ok rec => ch_ratchetKey <$> ss_receiverChains (sr_state rec) | Err _ => [] end.
Example C08_which :
  let k5 := chainKeys (n_B (after (trips 5))) in
  let k7 := chainKeys (n_B (after (trips 7))) in
  length k5 = 5 /\ take 3 k7 = drop 2 k5 /\ NoDup (k5 ++ drop 3 k7).
Proof. split; [|split]; [vm_compute; done..|]. apply (bool_decide_unpack _). vm_compute. done. Qed.

(** ** C09: at most forty archived states, newest first *)

Theorem C09_at_most_forty : forall C w r d rec,
  reachable C w -> session_at w r d = Ok rec -> length (sr_previous rec) <= 40.
Proof. exact archived_at_most_40. Qed.
Print Assumptions C09_at_most_forty.

(** Whatever is called, the record changes only by updating a state in place, archiving
    the current one in front of at most thirty-nine others, or promoting one. *)
Theorem C09_evolves : forall C w w' r d rec,
  reachable C w -> step C w w' -> session_at w r d = Ok rec ->
  exists rec', session_at w' r d = Ok rec' /\ rtc evolves rec rec'.
Proof. exact step_evolves. Qed.
Print Assumptions C09_evolves.

(** The exact archive after each way to set up a session. *)
Theorem C09_bundle : forall C r d b w w' rec,
  reachable C w -> session_at w r d = Ok rec -> run (processPreKeyBundle C r d b) w = (Ok tt, w') ->
  exists rec', session_at w' r d = Ok rec' /\ sr_previous rec' = archive_of rec.
Proof. exact hist_bundle_archives. Qed.
Print Assumptions C09_bundle.

Theorem C09_initiate : forall C r d m w x w' rec,
  reachable C w -> session_at w r d = Ok rec -> kx_isInitiate m = true ->
  run (processKeyExchangeMessage C r d m) w = (Ok x, w') ->
  exists rec', session_at w' r d = Ok rec' /\ sr_previous rec' = archive_of rec.
Proof. exact hist_initiate_archives. Qed.
Print Assumptions C09_initiate.

Theorem C09_response : forall C r d m w x w' rec,
  reachable C w -> session_at w r d = Ok rec -> kx_isInitiate m = false ->
  (exists p, ss_pendingKeyExchange (sr_state rec) = Some p /\ default 0%N (px_sequence p) = xSequence m) ->
  run (processKeyExchangeMessage C r d m) w = (Ok x, w') ->
  exists rec', session_at w' r d = Ok rec' /\ sr_previous rec' = archive_of rec.
Proof. exact hist_response_archives. Qed.
Print Assumptions C09_response.

(** A prekey message that sets up a session; the bundled message may then promote an
    archived state (number [i] of the new record). *)
Theorem C09_prekey_message : forall C r d m w pt w' rec,
  reachable C w -> session_at w r d = Ok rec -> ~ belongs rec (pVersion m) (pBaseKey m) ->
  run (decryptPkmsg C r d m) w = (Ok pt, w') ->
  exists rec' s s' i, session_at w' r d = Ok rec' /\ i <= length (archive_of rec) /\
    states rec' = s' :: take i (s :: archive_of rec) ++ drop (S i) (s :: archive_of rec).
Proof. exact hist_pkmsg_archives. Qed.
Print Assumptions C09_prekey_message.

(** Three bundles: two archived states, the newest first. *)
Definition bundleTimes (n : nat) : world := Nat.iter n (fun w => (run (processPreKeyBundle toy 2 1 bundle) w).2) alice0.
Definition baseKeys (w : world) : list (option bytes) :=
  match session_at w 2 1 with Ok rec => ss_aliceBaseKey <$> states rec | Err _ => [] end.
Example C09_three :
  length (baseKeys (bundleTimes 3)) = 3 /\ drop 1 (baseKeys (bundleTimes 3)) = baseKeys (bundleTimes 2) /\
  drop 1 (baseKeys (bundleTimes 2)) = baseKeys (bundleTimes 1) /\ baseKeys (bundleTimes 1) <> drop 1 (baseKeys (bundleTimes 2)) ++ [None].
Proof. vm_compute. split_and!; try done. Qed.
Example C09_fortyfive : length (sr_previous (Nat.iter 45 sr_archiveCurrentState sr_new)) = 40.
Proof. vm_compute. done. Qed.

(** ** C41: decryptPkmsg is crash safe *)

Theorem C41_redelivery : forall C, crypto_ok C -> forall n r d bs m w pt w',
  reachable C w -> prekey_parse bs = Ok m ->
  (run (decryptPkmsg C r d m) w).1 = Ok pt -> (run_crash n (decryptPkmsg C r d m) w).2 = w' ->
  (run (decryptPkmsg C r d m) w').1 = Ok pt \/
  (exists w2, run (decryptPkmsg C r d m) w' = (Err EDuplicateMessage, w2) /\ unchanged w' w2).
Proof. exact hist_crash. Qed.
Print Assumptions C41_redelivery.

Theorem C41_prekey_kept : forall C n r d bs m w w',
  reachable C w -> prekey_parse bs = Ok m -> (run_crash n (decryptPkmsg C r d m) w).2 = w' ->
  w_prekeys w' = w_prekeys w \/
  exists rec', session_at w' r d = Ok rec' /\ belongs rec' (pVersion m) (pBaseKey m).
Proof. exact hist_crash_prekey. Qed.
Print Assumptions C41_prekey_kept.

(** Killed before each outside call: what a redelivery gives, and whether the prekey is
    there. *)
Definition crashedAt (n : nat) : world := (run_crash n (decryptPkmsg toy 1 1 (pkFrom alice0 [x01])) bob1).2.
Definition redelivered (n : nat) : res bytes * bool :=
  ((run (decryptPkmsg toy 1 1 (pkFrom alice0 [x01])) (crashedAt n)).1, bool_decide (is_Some (w_prekeys (crashedAt n) !! 5%N))).
Example C41_every_point : redelivered <$> seq 0 12 =
  replicate 9 (Ok [x01], true) ++ [(Err EDuplicateMessage, true)] ++ replicate 2 (Err EDuplicateMessage, false).
Proof. vm_compute. reflexivity. Qed.

(** ** C42: used message keys are erased *)

(** Full statement: [forall s, s ∈ states rec -> ~ holds_key s ...] without the condition.
    Missing: an archived state that shares the receiving chain with the one that was used.
    A repeated key exchange message makes such states (refuted below). *)
Theorem C42_message_partial : forall C w r d m pt w',
  reachable C w -> run (decryptMsg C r d m) w = (Ok pt, w') ->
  exists rec, session_at w' r d = Ok rec /\ ~ holds_key (sr_state rec) (wRatchetKey m) (wCounter m) /\
    ((forall s, s ∈ sr_previous rec -> forall c, c ∈ ss_receiverChains s -> ch_ratchetKey c <> Some (x05 :: wRatchetKey m)) ->
     forall s, s ∈ states rec -> ~ holds_key s (wRatchetKey m) (wCounter m)).
Proof. exact hist_erased_msg. Qed.
Print Assumptions C42_message_partial.

Theorem C42_prekey_message_partial : forall C w r d bs m pt w',
  reachable C w -> prekey_parse bs = Ok m -> run (decryptPkmsg C r d m) w = (Ok pt, w') ->
  exists rec, session_at w' r d = Ok rec /\
    ~ holds_key (sr_state rec) (wRatchetKey (pMessage m)) (wCounter (pMessage m)) /\
    ((forall s, s ∈ sr_previous rec -> forall c, c ∈ ss_receiverChains s -> ch_ratchetKey c <> Some (x05 :: wRatchetKey (pMessage m))) ->
     forall s, s ∈ states rec -> ~ holds_key s (wRatchetKey (pMessage m)) (wCounter (pMessage m))).
Proof. exact hist_erased_pkmsg. Qed.
Print Assumptions C42_prekey_message_partial.

Theorem C42_archived_refuted : exists C w r d m pt w' rec s,
  crypto_ok C /\ reachable C w /\ run (decryptMsg C r d m) w = (Ok pt, w') /\
  session_at w' r d = Ok rec /\ s ∈ states rec /\ holds_key s (wRatchetKey m) (wCounter m).
Proof. exact erased_refuted. Qed.
Print Assumptions C42_archived_refuted.

(** Bob received message 1 but not 0: he stores the key of message 0, and no longer after
    it arrived. *)
Definition storedCounters (w : world) : list (list N) :=
  match session_at w 1 1 with
  | Ok rec => (fun c => (fun k => default 0%N (mk_index k)) <$> ch_messageKeys c) <$> ss_receiverChains (sr_state rec)
  | Err _ => [] end.
Example C42_skipped :
  storedCounters (n_B (after [SendA [x01]; SendA [x02]; SendA [x03]; DeliverB 2])) = [[0; 1]%N] /\
  storedCounters (n_B (after [SendA [x01]; SendA [x02]; SendA [x03]; DeliverB 2; DeliverB 0])) = [[1]%N].
Proof. vm_compute. done. Qed.

(** ** C43: which state is used, and promotion *)

Theorem C43_first_that_does_not_refuse : forall C, crypto_ok C -> forall r d m w rec,
  reachable C w -> is_Some (w_sessions w !! (r, d)) -> session_at w r d = Ok rec ->
  let '(o, w') := run (decryptMsg C r d m) w in
  (exists i s, states rec !! i = Some s /\
     (forall k s', k < i -> states rec !! k = Some s' -> answers C s' m (Err EInvalidMessage)) /\
     answers C s m o /\ o <> Err EInvalidMessage /\
     (forall pt, o = Ok pt -> exists s' w1, (run (decryptWithSessionState C s m) w1).1 = Ok (pt, s') /\
        exists rec', session_at w' r d = Ok rec' /\
          states rec' = s' :: take i (states rec) ++ drop (S i) (states rec))) \/
  ((forall k s', states rec !! k = Some s' -> answers C s' m (Err EInvalidMessage)) /\ o = Err EInvalidMessage).
Proof. exact hist_order. Qed.
Print Assumptions C43_first_that_does_not_refuse.

(** Alice sets up three sessions and sends a message in each; when a message of the second
    one arrives after the third was used, Bob's states change places. *)
Definition threeBob : world := fold_left (fun w n =>
  (run (decryptPkmsg toy 1 1 (pkOf (run (encrypt toy 2 1 [x01]) (bundleTimes n)).1)) (w_set_prekeys (w_prekeys bob1) w)).2)
  [1; 2; 3] bob1.
Definition secondAgain : whisperMessage :=
  pMessage (pkOf (run (encrypt toy 2 1 [x05]) (run (encrypt toy 2 1 [x01]) (bundleTimes 2)).2).1).
Definition bobBaseKeys (w : world) : list (option bytes) :=
  match session_at w 1 1 with Ok rec => ss_aliceBaseKey <$> states rec | Err _ => [] end.
Example C43_promoted :
  let x := run (decryptMsg toy 1 1 secondAgain) threeBob in
  match bobBaseKeys threeBob with
  | [k3; k2; k1] => x.1 = Ok [x05] /\ bobBaseKeys x.2 = [k2; k3; k1] /\ k2 <> k3
  | _ => False
  end.
Proof. vm_compute. done. Qed.
(** An archived state that knows the message as a duplicate ends the search. *)
Definition secondFirst : whisperMessage := pMessage (pkOf (run (encrypt toy 2 1 [x01]) (bundleTimes 2)).1).
Example C43_duplicate :
  (run (decryptMsg toy 1 1 secondFirst) threeBob).1 = Err EDuplicateMessage /\
  length (bobBaseKeys threeBob) = 3.
Proof. vm_compute. done. Qed.

(** ** C49: never twice in any history *)

(** The property fails: a repeated key exchange message sets up the same session again. *)
Theorem C49_decrypted_twice_refuted : exists C w r d m pt w1 w2,
  crypto_ok C /\ reachable C w /\ run (decryptMsg C r d m) w = (Ok pt, w1) /\ rtc (step C) w1 w2 /\
  (run (decryptMsg C r d m) w2).1 = Ok pt.
Proof. exact decrypted_twice_refuted. Qed.
Print Assumptions C49_decrypted_twice_refuted.

(** ** C50: no message key for two messages in any history *)

(** The property fails for the same reason. *)
Theorem C50_key_reused_refuted : exists C w r d pt1 pt2 c1 c2 w1 w2,
  crypto_ok C /\ reachable C w /\ run (encrypt C r d pt1) w = (Ok (CTWhisper c1), w1) /\ rtc (step C) w1 w2 /\
  (run (encrypt C r d pt2) w2).1 = Ok (CTWhisper c2) /\ pt1 <> pt2 /\
  wRatchetKey c1 = wRatchetKey c2 /\ wCounter c1 = wCounter c2.
Proof. exact key_reused_refuted. Qed.
Print Assumptions C50_key_reused_refuted.
