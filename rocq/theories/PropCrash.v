(** Properties C51 and C52: what a crash in the middle of a call leaves behind. *)
From Verif Require Import PyBase Protos Crypto Ecc Messages State Prog Builder Cipher Groups.
From Verif Require Import SpecSession SpecCrash CrashProofs CrashRefuted Toy Ex.

(** ** C51: single-effect calls *)

(** However many calls to the outside the process survives, the stores are those of before
    the call or those of the completed call. *)
Theorem C51_single_calls_atomic : forall C A (p : prog A) n w, singleCall C A p ->
  unchanged w (run_crash n p w).2 \/ unchanged (run p w).2 (run_crash n p w).2.
Proof. exact (fun C A p n w H => single_atomic C A p H n w). Qed.
Print Assumptions C51_single_calls_atomic.

(** Not vacuous: encrypt is torn into its two possible outcomes, and these differ. *)
Definition encOne : prog ciphertextMessage := encrypt toy 2 1 [x01].
Example C51_example :
  bool_decide (w_sessions (run_crash 1 encOne alice1).2 = w_sessions alice1) = true /\
  bool_decide (w_sessions (run_crash 2 encOne alice1).2 = w_sessions alice1) = false /\
  bool_decide (w_sessions (run_crash 2 encOne alice1).2 = w_sessions (run encOne alice1).2) = true.
Proof. split; [|split]; vm_compute; reflexivity. Qed.

(** ** C52: handshake calls *)

(** They are not atomic.  A device that dies while processing a bundle can be left with a
    session but no stored identity for the peer, *)
Theorem C52_handshakes_atomic_refuted : exists r d b n w,
  let wf := (run (processPreKeyBundle toy r d b) w).2 in
  let wc := (run_crash n (processPreKeyBundle toy r d b) w).2 in
  ~ unchanged w wc /\ ~ unchanged wf wc /\
  is_Some (w_sessions wc !! (r, d)) /\ w_trusted wc !! r = None /\ w_trusted wf !! r = Some (bu_identityKey b).
Proof. exact bundle_torn. Qed.
Print Assumptions C52_handshakes_atomic_refuted.

(** and one that dies while decrypting a first message with a stored identity but no
    session. *)
Theorem C52_first_message_atomic_refuted : exists r d m n w,
  let wf := (run (decryptPkmsg toy r d m) w).2 in
  let wc := (run_crash n (decryptPkmsg toy r d m) w).2 in
  ~ unchanged w wc /\ ~ unchanged wf wc /\
  w_sessions wc !! (r, d) = None /\ w_trusted wc !! r = Some (pIdentityKey m) /\ is_Some (w_sessions wf !! (r, d)).
Proof. exact pkmsg_torn. Qed.
Print Assumptions C52_first_message_atomic_refuted.

(** What holds: each store on its own is old or new, and the stores turn new in a fixed
    order.  In particular a prekey is only gone when the session is stored. *)
Theorem C52_write_order_partial : forall C r d,
  (forall b n w, let p := processPreKeyBundle C r d b in
     cut [Sessions; Trusted] w (run p w).2 (run_crash n p w).2) /\
  (forall m n w, let p := processKeyExchangeMessage C r d m in
     cut [Sessions; Trusted] w (run p w).2 (run_crash n p w).2) /\
  (forall m n w, let p := decryptPkmsg C r d m in
     cut [Trusted; Sessions; Prekeys] w (run p w).2 (run_crash n p w).2).
Proof. exact multi_cut. Qed.
Print Assumptions C52_write_order_partial.

(** Not vacuous: the three points at which receiving a first message can be cut. *)
Definition pkRun (n : nat) : world := (run_crash n (decryptPkmsg toy 1 1 pkOne) bob1).2.
Definition seen (w : world) : bool * bool * bool :=
  (bool_decide (is_Some (w_trusted w !! 1%Z)), bool_decide (is_Some (w_sessions w !! (1%Z, 1%Z))), bool_decide (is_Some (w_prekeys w !! 5%N))).
Example C52_example :
  map (fun n => seen (pkRun n)) [6; 7; 8; 9; 10] =
  [ (false, false, true); (true, false, true); (true, false, true); (true, true, true); (true, true, false) ].
Proof. vm_compute. reflexivity. Qed.
