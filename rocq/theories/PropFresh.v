(** Property C50, continued: no message key is used twice unless a key exchange is finished
    twice. *)
From Verif Require Import PyBase Wire Protos Crypto Ecc Kdf Messages State Prog Ratchet Builder Cipher Groups Helper.
From Verif Require Import SpecSession SpecApi SpecEncrypt SpecFresh FreshProofs Toy Sched HistoryRefuted Ex.

(** The full property, "no two ciphertexts for one peer device show the same ratchet key and
    counter in any history", is refuted by [C50_key_reused_refuted].  There a key exchange
    that the device had started was finished twice: an old message had brought back the
    state in which it was pending.  This is the only way.  The property holds from the first
    contact on for all histories in which this does not happen: any bundles, prekey
    messages, key exchange messages, messages (also replayed, forged or out of order), own
    initiations, calls for other peers and groups, calls that die half-way and writes of the
    application.  Randomness enters as the hypothesis that the draws made in the history
    give different keys. *)
Theorem C50_finished_once_partial : forall C, crypto_ok C -> forall r d w l P w',
  reachable C w -> w_sessions w !! (r, d) = None -> exchanges C r d w l P w' -> fresh_between C w w' ->
  NoDup ((fun c => (wRatchetKey (inner c), wCounter (inner c))) <$> l).
Proof. exact exchanges_nodup. Qed.
Print Assumptions C50_finished_once_partial.

(** In particular for all histories in which no key exchange message of this peer device is
    processed. *)
Theorem C50_no_key_exchange_partial : forall C, crypto_ok C -> forall r d w l w',
  reachable C w -> w_sessions w !! (r, d) = None -> sends C r d w l w' -> fresh_between C w w' ->
  NoDup ((fun c => (wRatchetKey (inner c), wCounter (inner c))) <$> l).
Proof. exact sends_nodup. Qed.
Print Assumptions C50_no_key_exchange_partial.

(** The ratchet keys and counters of the messages on the wire from A to B, and from B to A,
    in a run with ratchet steps, skipped and repeated messages. *)
Definition showsKey (x : wire) : bytes * N :=
  let m := if x.1 then pMessage (get noPk (prekey_parse x.2)) else get noWm (whisper_parse x.2) in
  (wRatchetKey m, wCounter m).
Definition freshRun : net := after
  [SendA [x01]; SendA [x02]; DeliverB 1; SendB [x03]; SendB [x04]; DeliverA 1; SendA [x05]; DeliverA 0; SendA [x06];
   DeliverA 1; DeliverB 0; SendB [x07]; DeliverB 3; DeliverB 3; SendB [x08]; DeliverB 2; SendB [x09]; DeliverA 3; SendA [x0a]].
Example C50_counters :
  (showsKey <$> n_fromA freshRun).*2 = [0; 1; 0; 1; 0]%N /\ (showsKey <$> n_fromB freshRun).*2 = [0; 1; 2; 0; 1]%N /\
  bool_decide (NoDup (showsKey <$> n_fromA freshRun)) = true /\ bool_decide (NoDup (showsKey <$> n_fromB freshRun)) = true.
Proof. vm_compute. split_and!; reflexivity. Qed.
(** The hypothesis on the draws holds of this run. *)
Example C50_fresh : (w_pos alice0 < w_pos (n_A freshRun)) /\
  bool_decide (NoDup (drawn toy alice0 <$> seq (w_pos alice0) (w_pos (n_A freshRun) - w_pos alice0))) = true.
Proof. vm_compute. split; [lia|reflexivity]. Qed.

(** A history with a key exchange: Bob answers a prekey message, starts an exchange, takes
    Alice's, which finishes it, refuses a copy of the own answer, and sends two more
    messages. *)
Definition exKey : bytes := default [] (pending_at rpB3 1 1).
Definition exW1 : world := (run (processKeyExchangeMessage toy 1 1 kxB) rpB4).2.
Definition exW2 : world := (run (encrypt toy 1 1 [x11]) exW1).2.
Definition exW3 : world := (run (encrypt toy 1 1 [x12]) exW2).2.
Definition ex0 : ciphertextMessage := get noCt (run (encrypt toy 1 1 [x02]) rpB1).1.
Definition ex1 : ciphertextMessage := get noCt (run (encrypt toy 1 1 [x11]) exW1).1.
Definition ex2 : ciphertextMessage := get noCt (run (encrypt toy 1 1 [x12]) exW2).1.
Lemma exKey_eq : pending_at rpB3 1 1 = Some exKey. Proof. vm_compute. reflexivity. Qed.
Lemma exPair {A} (x : res A * world) a : x.1 = Ok a -> x = (Ok a, x.2).
Proof. by destruct x; intros [= ->]. Qed.
Lemma ex0_sent : run (encrypt toy 1 1 [x02]) rpB1 = (Ok ex0, (run (encrypt toy 1 1 [x02]) rpB1).2).
Proof. apply exPair. vm_compute. reflexivity. Qed.
Lemma ex1_sent : run (encrypt toy 1 1 [x11]) exW1 = (Ok ex1, exW2).
Proof. unfold exW2. apply exPair. vm_compute. reflexivity. Qed.
Lemma ex2_sent : run (encrypt toy 1 1 [x12]) exW2 = (Ok ex2, exW3).
Proof. unfold exW3. apply exPair. vm_compute. reflexivity. Qed.
Lemma exRefused : bool_decide (w_sessions exW1 !! (1, 1)%Z = w_sessions rpB4 !! (1, 1)%Z) = true.
Proof. vm_compute. reflexivity. Qed.
Lemma exTo w c : quiet toy 1 1 w (run (api toy c) w).2 -> quiet toy 1 1 w (does c w).
Proof. exact id. Qed.
Example C50_exchange : exchanges toy 1 1 bob1 [ex2; ex1; ex0] [exKey] exW3 /\
  (wCounter (inner ex2), wCounter (inner ex1), wCounter (inner ex0)) = (1, 0, 0)%N /\
  bool_decide (wRatchetKey (inner ex0) = wRatchetKey (inner ex1)) = false /\ wRatchetKey (inner ex1) = exKey.
Proof.
  split; [|vm_compute; split_and!; reflexivity].
  assert (exchanges toy 1 1 bob1 [] [] rpB1) as H1.
  { eapply ex_other; [apply ex_nothing|]. apply exTo, quiet_ends. intros m H. discriminate H. }
  assert (exchanges toy 1 1 bob1 [ex0] [] rpB2) as H2.
  { unfold rpB2, does. cbn [api]. rewrite run_drop. exact (ex_sent _ _ _ _ _ _ _ _ _ _ H1 ex0_sent). }
  assert (exchanges toy 1 1 bob1 [ex0] [] rpB3) as H3.
  { eapply ex_other; [exact H2|]. apply exTo, quiet_ends. intros m H. discriminate H. }
  assert (exchanges toy 1 1 bob1 [ex0] [exKey] rpB4) as H4.
  { change [exKey] with (option_list (Some exKey) ++ []). rewrite <- exKey_eq.
    eapply ex_taken; [exact H3|exact (kx_ends _ _ _ _ kxA)|]. intros k _ Hk. by apply elem_of_nil in Hk. }
  assert (exchanges toy 1 1 bob1 [ex0] [exKey] exW1) as H5.
  { eapply ex_refused; [exact H4| |apply (bool_decide_eq_true_1 _ exRefused)].
    unfold exW1. rewrite <- run_drop. exact (kx_ends _ _ _ _ kxB). }
  exact (ex_sent _ _ _ _ _ _ _ _ _ _ (ex_sent _ _ _ _ _ _ _ _ _ _ H5 ex1_sent) ex2_sent).
Qed.
(** What the theorem excludes and [C50_key_reused_refuted] does: the old message makes the
    finished exchange pending again. *)
Example C50_pending_again :
  pending_at rpB4 1 1 = None /\ pending_at (does (AMsg 1 1 oldMsg) rpB4) 1 1 = Some exKey.
Proof. vm_compute. split; reflexivity. Qed.
