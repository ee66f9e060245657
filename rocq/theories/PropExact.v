(** Properties C01 and C11 with nothing left open. *)
From Verif Require Import PyBase Wire Protos ProtoFacts Crypto Ecc Kdf Messages State Prog Ratchet Builder Cipher Groups Helper.
From Verif Require Import HelperFacts SpecUtil SpecSession SpecKeys SpecConv SpecMany SpecExact ExactProofs ConvRefuted Toy Sched Ex.

(** ** C01: messages survive any delivery order *)

(** As C01_conversation, for devices that keep no older session.  Every event is the one the
    ideal conversation determines, a message of a dropped chain being an InvalidMessage,
    unless the MAC of such a message happens to fit ([odd]: no unforgeability is assumed). *)
Theorem C01_exact : forall C, crypto_ok C -> forall rA dA rB dB wA wB recA recB ida idb ka kb c l es n',
  session_at wA rB dB = Ok recA -> session_at wB rA dA = Ok recB -> SpecConv.alone recA = true -> SpecConv.alone recB = true ->
  joined_conv C recA recB ida idb ka kb c ->
  play C rA dA rB dB l (Net wA wB [] []) = (es, n') ->
  NoDup ([kp_pub ka; kp_pub kb] ++ drawn C wA (n_A n') ++ drawn C wB (n_B n')) ->
  (N.of_nat (length l) < 2 ^ 32)%N ->
  exactly C rA dA rB dB l (Net wA wB [] []) c.
Proof. exact joined_exact. Qed.
Print Assumptions C01_exact.

(** ** C11: a prekey bundle leads to a working session *)

Theorem C11_exact : forall C, crypto_ok C -> forall rA dA rB dB b spk i otpk wA wB rec l es n' wA1,
  able C wA -> able C wB -> bundle_of C wB b spk (Some (i, otpk)) ->
  trusts wA rB (kp_pub (w_identity wB)) -> session_at wA rB dB = Ok rec ->
  trusts wB rA (kp_pub (w_identity wA)) -> w_sessions wB !! (rA, dA) = None ->
  run (processPreKeyBundle C rB dB b) wA = (Ok tt, wA1) ->
  play C rA dA rB dB l (Net wA1 wB [] []) = (es, n') ->
  NoDup ([kp_pub spk] ++ drawn C wA (n_A n') ++ drawn C wB (n_B n')) ->
  (N.of_nat (length l) < 2 ^ 32)%N ->
  exists recA, session_at wA1 rB dB = Ok recA /\
    (SpecConv.alone recA = true -> exactly C rA dA rB dB l (Net wA1 wB [] []) (Conv (Some (first_party recA)) None [] [])).
Proof. exact bundle_exact. Qed.
Print Assumptions C11_exact.

(** Six turns, then the first message again, of which the chain is gone: the ideal
    conversation leaves the last event open, here it is an InvalidMessage. *)
Definition turns : list action := [SendA [x01]; DeliverB 0] ++ six.
Fixpoint ideals (l : list action) (c : conv) : list seen :=
  match l with [] => [] | a :: l => (iact a c).1 :: ideals l (iact a c).2 end.
Definition as_shown (x : seen) : option (res bytes) :=
  match x with SReceived pt => Some (Ok pt) | SRaised e => Some (Err e) | _ => None end.
Example C01_last_open : last (ideals turns (Conv (Some (Party 1 0 [] true)) None [] [])) = Some SUnknown.
Proof. vm_compute. done. Qed.
Example C01_last_refused : shown <$> played turns =
  as_shown <$> (refusal <$> ideals turns (Conv (Some (Party 1 0 [] true)) None [] [])).
Proof. vm_compute. done. Qed.
(** The two devices keep no older session. *)
Example C01_alone : (SpecConv.alone <$> (match session_at alice1 2 1 with Ok x => Some x | Err _ => None end)) = Some true.
Proof. vm_compute. done. Qed.
