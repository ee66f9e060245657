(** Properties C66, C67, C68: identities are trusted on first use and then pinned. *)
From Verif Require Import PyBase Wire Protos Crypto Ecc Kdf Messages State Prog Ratchet Builder Cipher Groups Helper.
From Verif Require Import SpecSession SpecApi SpecPin PinProofs PinProofs2 PinPair PinRefuted Toy Sched Ex.

(** ** C66: no message changes a trusted identity *)

(** Whatever calls follow, with whatever arguments, even if some are killed. *)
Theorem C66_trusted_stays : forall C w w' r k,
  calls_from C w w' -> w_trusted w !! r = Some k -> w_trusted w' !! r = Some k.
Proof. exact trusted_stays. Qed.
Print Assumptions C66_trusted_stays.

(** Also when two calls run at the same time. *)
Theorem C66_trusted_stays_pair : forall C sched c1 c2 w r k,
  w_trusted w !! r = Some k -> w_trusted (run_pair sched (api C c1) (api C c2) w).2 !! r = Some k.
Proof. exact trusted_stays_pair. Qed.
Print Assumptions C66_trusted_stays_pair.

(** Alice knows Bob; a bundle with another identity is refused, also interleaved with one of
    Bob's. *)
Example C66_known :
  let bob := kp_pub (w_identity bob0) in
  w_trusted alice1 !! 2%Z = Some bob /\
  (run (processPreKeyBundle toy 2 1 malBundle) alice1).1 = Err (EUntrustedIdentity 2 (bu_identityKey malBundle)) /\
  w_trusted (run_pair [true; false; true; false] (api toy (ABundle 2 1 malBundle)) (api toy (ABundle 2 1 bundleNoPreKey)) alice1).2
    !! 2%Z = Some bob.
Proof. vm_compute. done. Qed.

(** ** C67: all sessions with a peer are with its trusted identity *)

(** Not if a call is killed between storing the session and saving the identity. *)
Theorem C67_pinned_refuted : exists C w0 w,
  crypto_ok C /\ w_sessions w0 = ∅ /\ w_trusted w0 = ∅ /\ calls_from C w0 w /\ ~ sessions_pinned w.
Proof. exact pinned_refuted. Qed.
Print Assumptions C67_pinned_refuted.

(** It holds if no call is killed and the application does not change the trusted identities. *)
Theorem C67_pinned_partial : forall C w, undisturbed C w -> sessions_pinned w.
Proof. exact undisturbed_pinned. Qed.
Print Assumptions C67_pinned_partial.

Example C67_session :
  let n := after [SendA [x01]; DeliverB 0] in
  let rec := get sr_new (session_at (n_B n) 1 1) in
  ss_remoteIdentity (sr_state rec) = pub_serialize <$> (w_trusted (n_B n) !! 1%Z) /\
  ss_remoteIdentity (sr_state rec) = Some (pub_serialize (kp_pub (w_identity alice0))).
Proof. vm_compute. done. Qed.

(** ** C68: two first contacts under one name with different identities: one is refused *)

Theorem C68_race_refuted : exists C sched r d b1 b2 w,
  crypto_ok C /\ w_sessions w = ∅ /\ w_trusted w !! r = None /\ bu_identityKey b1 <> bu_identityKey b2 /\
  (run_pair sched (processPreKeyBundle C r d b1) (processPreKeyBundle C r d b2) w).1 = (Ok tt, Ok tt).
Proof. exact race_refuted. Qed.
Print Assumptions C68_race_refuted.

(** One after the other, the second is refused and changes nothing. *)
Theorem C68_sequential_partial : forall C r d d' b1 b2 w w1,
  run (processPreKeyBundle C r d b1) w = (Ok tt, w1) -> bu_identityKey b1 <> bu_identityKey b2 ->
  run (processPreKeyBundle C r d' b2) w1 = (Err (EUntrustedIdentity r (bu_identityKey b2)), w1).
Proof. exact bundle_other_refused. Qed.
Print Assumptions C68_sequential_partial.

Example C68_both_orders :
  (run (processPreKeyBundle toy 2 1 bundle) alice0).1 = Ok tt /\
  (run (processPreKeyBundle toy 2 1 malBundle) alice0).1 = Ok tt /\
  is_err (run (processPreKeyBundle toy 2 2 bundle) (run (processPreKeyBundle toy 2 1 malBundle) alice0).2).1.
Proof. vm_compute. done. Qed.
