(** Property C40: peers and devices are isolated. *)
From Verif Require Import PyBase Protos Crypto Ecc Messages State Prog Builder Cipher Groups.
From Verif Require Import SpecIso IsoProofs Toy Ex.

(** ** C40: peers *)

(** A call for ([r], [d]) changes nothing of another peer device.  It reads nothing of
    another peer device either: on two devices that may differ in everything that is not of
    ([r], [d]), it gives the same result and leaves the same session. *)
Theorem C40_peers : forall C r d A (p : prog A), peerCall C r d A p ->
  (forall w, only_changes r d w (run p w).2) /\
  (forall w1 w2, same_for r d w1 w2 ->
     (run p w1).1 = (run p w2).1 /\ same_for r d (run p w1).2 (run p w2).2).
Proof. exact peer_isolated. Qed.
Print Assumptions C40_peers.

(** The same when the process dies after [n] calls to the store. *)
Theorem C40_peers_crash : forall C r d A (p : prog A) n, peerCall C r d A p ->
  (forall w, only_changes r d w (run_crash n p w).2) /\
  (forall w1 w2, same_for r d w1 w2 ->
     (run_crash n p w1).1 = (run_crash n p w2).1 /\ same_for r d (run_crash n p w1).2 (run_crash n p w2).2).
Proof. exact peer_isolated_crash. Qed.
Print Assumptions C40_peers_crash.

(** ** C40: sender keys *)

(** A group call for one name changes neither the record of another name nor any session,
    identity or prekey, and its result does not depend on them. *)
Theorem C40_groups : forall C n A (p : prog A), groupCall C n A p ->
  (forall w, only_changes_group n w (run p w).2) /\
  (forall w1 w2, same_for_group n w1 w2 ->
     (run p w1).1 = (run p w2).1 /\ same_for_group n (run p w1).2 (run p w2).2).
Proof. exact group_isolated. Qed.
Print Assumptions C40_groups.

Theorem C40_groups_crash : forall C n A (p : prog A) k, groupCall C n A p ->
  (forall w, only_changes_group n w (run_crash k p w).2) /\
  (forall w1 w2, same_for_group n w1 w2 ->
     (run_crash k p w1).1 = (run_crash k p w2).1 /\ same_for_group n (run_crash k p w1).2 (run_crash k p w2).2).
Proof. exact group_isolated_crash. Qed.
Print Assumptions C40_groups_crash.

(** Not vacuous: Alice holds sessions with device 1 and with device 7 of the same peer.
    Sending to device 1 moves the session of device 1 and not the one of device 7. *)
Definition bothDevices : world := (run (processPreKeyBundle toy 2 7 bundle) alice1).2.
Definition sentToOne : world := (run (encrypt toy 2 1 [x01]) bothDevices).2.
Example C40_peers_example :
  bool_decide (is_Some (w_sessions bothDevices !! (2%Z, 7%Z))) = true /\
  bool_decide (w_sessions sentToOne !! (2%Z, 7%Z) = w_sessions bothDevices !! (2%Z, 7%Z)) = true /\
  bool_decide (w_sessions sentToOne !! (2%Z, 1%Z) = w_sessions bothDevices !! (2%Z, 1%Z)) = false.
Proof. split; [|split]; vm_compute; reflexivity. Qed.

(** Two sender keys on one device: encrypting for one group moves only its own record. *)
Definition nameA : senderKeyName := ("chat", "alice", 1%Z).
Definition nameB : senderKeyName := ("work", "alice", 1%Z).
Definition twoGroups : world := (run (group_create toy nameB) (run (group_create toy nameA) alice0).2).2.
Definition sentToA : world := (run (group_encrypt toy nameA [x01]) twoGroups).2.
Example C40_groups_example :
  bool_decide (is_Some (w_senderkeys twoGroups !! nameB)) = true /\
  bool_decide (w_senderkeys sentToA !! nameB = w_senderkeys twoGroups !! nameB) = true /\
  bool_decide (w_senderkeys sentToA !! nameA = w_senderkeys twoGroups !! nameA) = false.
Proof. split; [|split]; vm_compute; reflexivity. Qed.
