(** C95: the order in which group messages are delivered leaves no trace. *)
From Verif Require Import PyBase Wire Protos Crypto Ecc Kdf Messages State Prog Builder Cipher Groups Toy.
From Verif Require Import SpecSession SpecGroup SpecApi SpecGroupHist SpecGroupStep SpecOrder OrderProofs GroupHistRefuted Ex.

(** Messages that can all be read in one order can all be read in every order, with the same
    plaintexts, and the device ends in the very same state. *)
Theorem C95_any_order : forall C, crypto_ok C -> forall w name l l' w',
  group_reachable C w -> Permutation l l' -> all_open C name l w w' -> all_open C name l' w w'.
Proof. exact order_no_trace. Qed.
Print Assumptions C95_any_order.

(** Any messages, also forged, unreadable or used ones, of which no two claim the same key id and
    iteration: each has the same fate in every order, the same plaintext or the same exception,
    and the device ends in the very same state. *)
Theorem C95_fates : forall C, crypto_ok C -> forall name ms ms', Permutation ms ms' -> forall w,
  group_reachable C w -> different ms ->
  Permutation (fates C name ms w) (fates C name ms' w) /\ (deliver C name ms w).2 = (deliver C name ms' w).2.
Proof. exact order_fates. Qed.
Print Assumptions C95_fates.

(** Three messages of one key and one of another, which the member has got second: whatever
    the order, the plaintexts are there, every message is refused the second time, and both
    states end at the same point. *)
Definition oS3 : world := (run (group_encrypt toy gname [x2b]) gS2).2.
Definition oMsg2 : bytes := get [] (run (group_encrypt toy gname [x2c]) oS3).1.
Definition oT0 : world := (run (group_create toy gname) (device 6)).2.
Definition oDist : senderKeyDistributionMessage := get noDist (run (group_create toy gname) (device 6)).1.
Definition oOther : bytes := get [] (run (group_encrypt toy gname [x07]) oT0).1.
Definition oM : world := (run (group_process gname oDist) gM1).2.
Definition oList : list (bytes * bytes) := [(gMsg0, [x2a]); (gMsg1, [x2b]); (oMsg2, [x2c]); (oOther, [x07])].
Definition oEnd (w : world) : list (N * list N) := map (fun s => (chain_at s, kept s)) (get [] (senderkey_at w gname)).
Definition oPick (is : list nat) : list (bytes * bytes) := omap (fun i => oList !! i) is.
Definition oRun (is : list nat) : list (res bytes) * list (res bytes) * list (N * list N) :=
  let x := deliver toy gname (map fst (oPick is)) oM in
  (x.1, (deliver toy gname (map fst oList) x.2).1, oEnd x.2).
Example C95_orders : dId oDist <> dId gDist /\
  Forall (fun is => oRun is = (map (fun x => Ok (snd x)) (oPick is), replicate 4 (Err EDuplicateMessage), [(3, []); (1, [])]%N))
    [[0; 1; 2; 3]; [2; 1; 0; 3]; [2; 0; 3; 1]; [1; 3; 0; 2]; [3; 2; 0; 1]; [0; 3; 2; 1]].
Proof. split; [vm_compute; discriminate|]. repeat (apply Forall_cons; split; [vm_compute; reflexivity|]). by apply Forall_nil. Qed.
(** On the way the skipped keys are stored in the order of their iterations. *)
Definition oSkip (is : list nat) : list (N * list N) := oEnd (deliver toy gname (map fst (oPick is)) oM).2.
Example C95_stored : oSkip [2] = [(3, [0; 1]); (0, [])]%N /\ oSkip [2; 0; 3] = [(3, [1]); (1, [])]%N /\ oSkip [0; 3; 2] = [(3, [1]); (1, [])]%N.
Proof. vm_compute. by split_and!. Qed.

(** A message with another first byte of its signature and one that is no message, among the others. *)
Definition oForged : bytes := take (length oMsg2 - 64) oMsg2 ++ xff :: drop (length oMsg2 - 63) oMsg2.
Definition oAll : list bytes := [gMsg0; gMsg1; oForged; [x33]; oOther].
Definition oFates (is : list nat) : list (bytes * res bytes) := fates toy gname (omap (fun i => oAll !! i) is) oM.
Example C95_failing : oForged <> oMsg2 /\ different oAll /\
  map snd (oFates [0; 1; 2; 3; 4]) = [Ok [x2a]; Ok [x2b]; Err EInvalidMessage; Err EInvalidMessage; Ok [x07]] /\
  map snd (oFates [2; 4; 1; 3; 0]) = [Err EInvalidMessage; Ok [x07]; Ok [x2b]; Err EInvalidMessage; Ok [x2a]].
Proof.
  split; [vm_compute; discriminate|]. split; [|vm_compute; by split_and!].
  apply (bool_decide_unpack _). vm_compute. exact I.
Qed.
(** With the same key id and iteration twice the first one wins, so there the order does
    matter. *)
Example C95_same_twice : ~ different [gMsg0; gMsg0] /\ (deliver toy gname [gMsg0; gMsg0] oM).1 = [Ok [x2a]; Err EDuplicateMessage].
Proof.
  split; [|vm_compute; reflexivity]. intros H. assert (bool_decide (different [gMsg0; gMsg0]) = true) as E by (by apply bool_decide_eq_true).
  revert E. vm_compute. discriminate.
Qed.
