(** C82: the skipped message keys that a session stores. *)
From Verif Require Import PyBase Wire Protos Crypto Ecc Messages State Prog Ratchet Builder Cipher Helper Toy Sched.
From Verif Require Import SpecUtil SpecSession SpecApi SpecKeys SpecSkip SkipProofs Ex.

(** ** C82: a session stores a bounded number of skipped message keys *)

(** There is no bound but that of the counter: in any session that has received something,
    [k] more messages that the peer can send leave [2000 * k] more keys in one chain. *)
Theorem C82_bounded_refuted : forall C, crypto_ok C -> forall w r d rec R c k,
  reachable C w -> session_at w r d = Ok rec -> is_Some (ss_senderChain (sr_state rec)) -> receiving (sr_state rec) R c ->
  (next_index c + 2001 * N.of_nat k + 1 < 2 ^ 32)%N ->
  exists w' rec' c', reads C r d k w w' /\ session_at w' r d = Ok rec' /\ receiving (sr_state rec') R c' /\
    length (ch_messageKeys c') = length (ch_messageKeys c) + k * N.to_nat 2000.
Proof. exact skipped_unbounded. Qed.
Print Assumptions C82_bounded_refuted.

(** What holds: no number is stored twice, and only numbers that the chain has passed. *)
Theorem C82_distinct_partial : forall C w r d rec s c,
  reachable C w -> session_at w r d = Ok rec -> s ∈ states rec -> c ∈ ss_receiverChains s ->
  NoDup ((fun k => default 0%N (mk_index k)) <$> ch_messageKeys c) /\
  Forall (fun k => (default 0 (mk_index k) < next_index c)%N) (ch_messageKeys c).
Proof. exact skipped_distinct. Qed.
Print Assumptions C82_distinct_partial.

(** Of seven messages Bob gets numbers 2, 4 and 6, then 1. *)
Definition skippedAt (l : list action) : list (N * list N) :=
  (fun c => (next_index c, (fun k => default 0%N (mk_index k)) <$> ch_messageKeys c)) <$>
  ss_receiverChains (sr_state (get sr_new (session_at (n_B (after l)) 1 1))).
Definition seven : list action := (fun b => SendA [b]) <$> [x00; x01; x02; x03; x04; x05; x06].
Example C82_growing :
  skippedAt (seven ++ [DeliverB 2]) = [(3, [0; 1])]%N /\
  skippedAt (seven ++ [DeliverB 2; DeliverB 4]) = [(5, [0; 1; 3])]%N /\
  skippedAt (seven ++ [DeliverB 2; DeliverB 4; DeliverB 6]) = [(7, [0; 1; 3; 5])]%N /\
  skippedAt (seven ++ [DeliverB 2; DeliverB 4; DeliverB 6; DeliverB 1]) = [(7, [0; 3; 5])]%N.
Proof. vm_compute. split_and!; reflexivity. Qed.
