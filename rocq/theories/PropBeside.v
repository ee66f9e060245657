(** Properties C77 to C79: calls for one peer device or group beside concurrent calls for
    others. *)
From Verif Require Import PyBase Wire Protos Crypto Ecc Kdf Messages State Prog Ratchet Builder Cipher Groups Helper.
From Verif Require Import SpecApi SpecIso SpecEncrypt SpecFresh SpecBeside BesideProofs ServedProofs SpecGroupHist GroupServed HistoryRefuted GroupHistRefuted Toy Sched Ex.

(** ** C77: concurrent calls elsewhere do not matter *)

(** A call for ([r], [d]) while any number of calls elsewhere are in flight, begin, make
    accesses, end or die.  The result and what is left of this peer are those of the same
    call made alone.  The random outcomes are those it drew.  The prekeys are those not yet
    removed when it looked. *)
Theorem C77_peers : forall C r d A (p : prog A) ps w o ps' w',
  peerCall C r d A p -> in_flight C (elsewhere r d) ps -> beside C (elsewhere r d) p ps w o ps' w' ->
  exists t m w1, m ⊆ w_prekeys w /\ leaves p (alone t m w) o w1 /\
    w_sessions w' !! (r, d) = w_sessions w1 !! (r, d) /\ w_trusted w' !! r = w_trusted w1 !! r /\ w_prekeys w' ⊆ w_prekeys w1 /\
    outcomes_of t (w_tape w) (w_pos w) (w_pos w1 - w_pos w) (w_pos w').
Proof. exact peer_beside. Qed.
Print Assumptions C77_peers.

(** The same for a group call. *)
Theorem C77_groups : forall C n A (p : prog A) ps w o ps' w',
  groupCall C n A p -> in_flight C (elsewhere_group n) ps -> beside C (elsewhere_group n) p ps w o ps' w' ->
  exists t w1, leaves p (alone t (w_prekeys w) w) o w1 /\ w_senderkeys w' !! n = w_senderkeys w1 !! n /\
    outcomes_of t (w_tape w) (w_pos w) (w_pos w1 - w_pos w) (w_pos w').
Proof. exact group_beside. Qed.
Print Assumptions C77_groups.

(** Every schedule of two calls is such an execution. *)
Theorem C77_schedules : forall C others A sched (p : prog A) q w,
  beside C others p [q] w (Some (run_pair sched p q w).1.1) [] (run_pair sched p q w).2.
Proof. exact @pair_beside. Qed.
Print Assumptions C77_schedules.

(** Alice processes bundles of peers 2 and 3 with alternating accesses: each call draws
    every second random outcome.  The session with peer 2 is the one she gets when she
    processes its bundle alone with these outcomes, not the one she gets with the first
    two. *)
Definition turns (n : nat) : list bool := concat (replicate n [true; false]).
Definition bothBundles : world := (run_pair (turns 20) (api toy (ABundle 2 1 bundle)) (api toy (ABundle 3 1 bundle)) alice0).2.
Definition everySecond (n : nat) : bytes := w_tape alice0 (2 * n).
Definition bundleAlone : world := (run (api toy (ABundle 2 1 bundle)) (alone everySecond ∅ alice0)).2.
Example C77_alternating :
  w_pos bothBundles = 4 /\ w_pos bundleAlone = 2 /\
  bool_decide (w_sessions bothBundles !! (2%Z, 1%Z) = w_sessions bundleAlone !! (2%Z, 1%Z)) = true /\
  bool_decide (w_sessions bothBundles !! (2%Z, 1%Z) = w_sessions alice1 !! (2%Z, 1%Z)) = false /\
  bool_decide (is_Some (w_sessions bothBundles !! (3%Z, 1%Z))) = true.
Proof. vm_compute. split_and!; reflexivity. Qed.
(** For one peer device it is not so: of two encryptions with alternating accesses, one
    after the other the second gives counter 1, interleaved both give counter 0. *)
Definition counterOf (x : res ciphertextMessage) : option N := match x with Ok c => Some (wCounter (inner c)) | Err _ => None end.
Example C77_same_peer :
  let two s := (run_pair s (encrypt toy 2 1 [x01]) (encrypt toy 2 1 [x02]) alice1).1 in
  (counterOf (two []).1, counterOf (two []).2) = (Some 0%N, Some 1%N) /\
  (counterOf (two (turns 5)).1, counterOf (two (turns 5)).2) = (Some 0%N, Some 0%N).
Proof. vm_compute. split; reflexivity. Qed.

(** ** C78: one call at a time for each peer device is enough *)

(** From the first contact on, no two ciphertexts for one peer device show the same ratchet
    key and counter, if the calls for this peer device come one at a time.  Any number of
    calls elsewhere may be in flight.  Calls may die.  As in C50, it is excluded that a key
    exchange is finished twice ([C50_key_reused_refuted]), and the draws give different
    keys. *)
Theorem C78_one_at_a_time_partial : forall C, crypto_ok C -> forall r d w l P ps w',
  reachable C w -> w_sessions w !! (r, d) = None -> served C r d w l P ps w' -> fresh_between C w w' ->
  NoDup ((fun c => (wRatchetKey (inner c), wCounter (inner c))) <$> l).
Proof. exact served_nodup. Qed.
Print Assumptions C78_one_at_a_time_partial.

(** Two bundles, then two encryptions for each of the peers 2 and 3, always with
    alternating accesses. *)
Definition hist1 : world := bothBundles.
Definition send1 : res ciphertextMessage * res unit * world := run_pair (turns 5) (encrypt toy 2 1 [x01]) (api toy (AEncrypt 3 1 [x02])) hist1.
Definition send2 : res ciphertextMessage * res unit * world := run_pair (turns 5) (encrypt toy 2 1 [x03]) (api toy (AEncrypt 3 1 [x04])) send1.2.
Definition sent1 : ciphertextMessage := get noCt send1.1.1.
Definition sent2 : ciphertextMessage := get noCt send2.1.1.
Lemma send1_ok : Some send1.1.1 = Some (Ok sent1). Proof. vm_compute. reflexivity. Qed.
Lemma send2_ok : Some send2.1.1 = Some (Ok sent2). Proof. vm_compute. reflexivity. Qed.
Example C78_history : served toy 2 1 alice0 [sent2; sent1] [] [] send2.2 /\
  (wCounter (inner sent2), wCounter (inner sent1)) = (1%N, 0%N).
Proof.
  split; [|vm_compute; reflexivity].
  eapply served_sent; [eapply served_sent; [eapply (served_call _ _ _ _ [] [] [] alice0 (ABundle 2 1 bundle))|]|].
  - apply served_nothing. intros q Hq. by apply elem_of_nil in Hq.
  - intros H. by apply H.
  - intros m H. discriminate H.
  - apply (beside_begin _ _ (ABundle 3 1 bundle)); [intros H; discriminate H|]. apply pair_beside.
  - apply (beside_begin _ _ (AEncrypt 3 1 [x02])); [intros H; discriminate H|]. rewrite <- send1_ok. apply pair_beside.
  - apply (beside_begin _ _ (AEncrypt 3 1 [x04])); [intros H; discriminate H|]. rewrite <- send2_ok. apply pair_beside.
Qed.

(** With a key exchange: Bob's exchange is finished by Alice's message while a call for peer 3
    is in flight. *)
Definition exch : res unit * res unit * world :=
  run_pair (turns 6) (api toy (AKx 1 1 HistoryRefuted.kxA)) (api toy (ABundle 3 1 bundle)) HistoryRefuted.rpB3.
Definition exchSend : res ciphertextMessage * res unit * world :=
  run_pair (turns 5) (encrypt toy 1 1 [x11]) (api toy (AEncrypt 3 1 [x12])) exch.2.
Definition exchKey : bytes := default [] (pending_at HistoryRefuted.rpB3 1 1).
Lemma exchKey_eq : pending_at HistoryRefuted.rpB3 1 1 = Some exchKey. Proof. vm_compute. reflexivity. Qed.
Lemma exchSend_ok : Some exchSend.1.1 = Some (Ok (get noCt exchSend.1.1)). Proof. vm_compute. reflexivity. Qed.
Example C78_exchange : served toy 1 1 HistoryRefuted.rpB3 [get noCt exchSend.1.1] [exchKey] [] exchSend.2 /\
  wRatchetKey (inner (get noCt exchSend.1.1)) = exchKey.
Proof.
  split; [|vm_compute; reflexivity].
  eapply served_sent; [|apply (beside_begin _ _ (AEncrypt 3 1 [x12])); [intros H; discriminate H|]; rewrite <- exchSend_ok; apply pair_beside].
  change [exchKey] with (option_list (Some exchKey) ++ []). rewrite <- exchKey_eq.
  eapply served_taken; [|apply (beside_begin _ _ (ABundle 3 1 bundle)); [intros H; discriminate H|]; apply pair_beside|].
  - apply served_nothing. intros q Hq. by apply elem_of_nil in Hq.
  - intros k _ Hk. by apply elem_of_nil in Hk.
Qed.

(** ** C79: one call at a time for each sender key name is enough *)

(** Two messages of one sender key, with any turns between them. *)
Theorem C79_iterations_increase : forall C n, crypto_ok C -> forall ps w p1 b1 ps1 w1 ps2 w2 p2 b2 ps3 w3,
  in_flight C (elsewhere_group n) ps -> beside C (elsewhere_group n) (group_encrypt C n p1) ps w (Some (Ok b1)) ps1 w1 ->
  group_turns C n (w1, ps1) (w2, ps2) -> beside C (elsewhere_group n) (group_encrypt C n p2) ps2 w2 (Some (Ok b2)) ps3 w3 ->
  exists m1 m2, sk_msg_parse b1 = Ok m1 /\ sk_msg_parse b2 = Ok m2 /\ gKeyId m1 = gKeyId m2 /\ (gIteration m1 < gIteration m2)%N.
Proof. exact turns_iterations. Qed.
Print Assumptions C79_iterations_increase.

(** The same message again: if the call does not die, it raises DuplicateMessage. *)
Theorem C79_decrypted_once : forall C n ps w b pt ps1 w1 ps2 w2 o ps3 w3,
  group_reachable C w -> in_flight C (elsewhere_group n) ps -> beside C (elsewhere_group n) (group_decrypt C n b) ps w (Some (Ok pt)) ps1 w1 ->
  group_turns C n (w1, ps1) (w2, ps2) -> beside C (elsewhere_group n) (group_decrypt C n b) ps2 w2 o ps3 w3 ->
  (o = None \/ o = Some (Err EDuplicateMessage)) /\ w_senderkeys w3 !! n = w_senderkeys w2 !! n.
Proof. exact turns_once. Qed.
Print Assumptions C79_decrypted_once.

(** The member reads the first message, joins again and is sent the message again, always
    with alternating accesses of a call for another name. *)
Definition gOther : senderKeyName := ("work", "carol", 4%Z).
Definition gBeside1 : res bytes * res unit * world := run_pair (turns 3) (group_decrypt toy gname gMsg0) (api toy (AGroupProcess gOther gDist)) gM1.
Definition gBeside2 : res unit * res unit * world := run_pair (turns 3) (api toy (AGroupProcess gname gDist)) (api toy (AGroupDecrypt gOther gMsg0)) gBeside1.2.
Definition gBeside3 : res bytes * res unit * world := run_pair (turns 3) (group_decrypt toy gname gMsg0) (api toy (AGroupDecrypt gOther gMsg1)) gBeside2.2.
Example C79_results : (gBeside1.1, gBeside2.1, gBeside3.1) = ((Ok [x2a], Ok tt), (Ok tt, Ok tt), (Err EDuplicateMessage, Ok tt)).
Proof. vm_compute. reflexivity. Qed.
Example C79_history : beside toy (elsewhere_group gname) (group_decrypt toy gname gMsg0) [] gM1 (Some gBeside1.1.1) [] gBeside1.2 /\
  group_turns toy gname (gBeside1.2, []) (gBeside2.2, []) /\
  beside toy (elsewhere_group gname) (group_decrypt toy gname gMsg0) [] gBeside2.2 (Some gBeside3.1.1) [] gBeside3.2.
Proof.
  split; [|split].
  - apply (beside_begin _ _ (AGroupProcess gOther gDist)); [intros H; discriminate H|]. apply pair_beside.
  - apply rtc_once. eapply (group_turn_call _ _ _ _ (AGroupProcess gname gDist)); [intros H; by apply H|].
    apply (beside_begin _ _ (AGroupDecrypt gOther gMsg0)); [intros H; discriminate H|]. apply pair_beside.
  - apply (beside_begin _ _ (AGroupDecrypt gOther gMsg1)); [intros H; discriminate H|]. apply pair_beside.
Qed.
