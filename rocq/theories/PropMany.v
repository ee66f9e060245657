(** Property C85: two devices talk in any number of sessions. *)
From Verif Require Import PyBase Wire Protos ProtoFacts Crypto Ecc Kdf Messages State Prog Ratchet Builder Cipher Groups Helper.
From Verif Require Import HelperFacts SpecUtil SpecSession SpecKeys SpecConv SpecMany ManyEnd ManyEx Toy Sched Ex.

(** ** C85: all sessions between two devices keep working *)

(** The devices start without sessions.  Each may start a new session with a bundle of the
    other at any time, also while messages of other sessions are still under way, and both
    may do so at once.  [Many] is the ideal: a message belongs to the session in which it
    was sent, and a session answers for its own messages only.  Every move has the outcome
    of the ideal, unless a MAC fits by accident ([mixed_up]).  41 sessions are as many as a
    record keeps: the current one and 40 previous ones. *)
Theorem C85_sessions : forall C, crypto_ok C -> forall rA dA rB dB wA wB l es n',
  able C wA -> able C wB -> trusts wA rB (kp_pub (w_identity wB)) -> trusts wB rA (kp_pub (w_identity wA)) ->
  w_sessions wA !! (rB, dB) = None -> w_sessions wB !! (rA, dA) = None ->
  offers C wB (renewalsA l) -> offers C wA (renewalsB l) ->
  domoves C rA dA rB dB l (Net wA wB [] []) = (es, n') ->
  NoDup (drawn C wA (n_A n') ++ drawn C wB (n_B n')) ->
  (forall k, signed_in (renewalsA l ++ renewalsB l) k -> k ∉ drawn C wA (n_A n') ++ drawn C wB (n_B n')) ->
  length (renewalsA l ++ renewalsB l) <= 41 -> (N.of_nat (length l) < 2 ^ 32)%N ->
  goes C rA dA rB dB l (Net wA wB [] []) (Many [] [] [] [] 0).
Proof. exact sessions. Qed.
Print Assumptions C85_sessions.

(** [busy]: both start a session at once and their first messages cross; Alice starts
    another one while messages of the first two are under way; late messages and a message
    that comes again.  The premises hold. *)
Example C85_premises : able toy aliceM /\ able toy bobM /\ offers toy bobM (renewalsA busy) /\ offers toy aliceM (renewalsB busy) /\
  goes toy 1 1 2 1 busy (Net aliceM bobM [] []) (Many [] [] [] [] 0).
Proof. exact (conj able_aliceM (conj able_bobM (conj bob_offers (conj alice_offers busy_goes)))). Qed.
Definition seen_many (l : list move) : list seen :=
  (fix go l y := match l with [] => [] | a :: l => let '(e, y) := imove a y in e :: go l y end) l (Many [] [] [] [] 0).
Example C85_busy : shown <$> (domoves toy 1 1 2 1 busy (Net aliceM bobM [] [])).1 =
  [None; None; None; None; Some (Ok [x01]); Some (Ok [x11]); None; None;
   None; None; Some (Ok [x03]); Some (Ok [x02]); Some (Ok [x12]);
   None; None; Some (Ok [x13]); Some (Ok [x04]); Some (Err EDuplicateMessage)].
Proof. vm_compute. done. Qed.
Example C85_ideal : seen_many busy =
  [SNothing; SSent; SNothing; SSent; SReceived [x01]; SReceived [x11]; SSent; SSent;
   SNothing; SSent; SReceived [x03]; SReceived [x02]; SReceived [x12];
   SSent; SSent; SReceived [x13]; SReceived [x04]; SRaised EDuplicateMessage].
Proof. vm_compute. done. Qed.
