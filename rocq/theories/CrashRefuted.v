(** Counterexamples to C52: handshakes torn by a crash. *)
From Verif Require Import PyBase Protos Crypto Ecc Messages State Prog Builder Cipher Groups.
From Verif Require Import SpecSession SpecCrash Toy Ex.

Lemma torn1 r d k w wf wc :
  w_sessions w !! (r, d) = None -> is_Some (w_sessions wc !! (r, d)) -> w_trusted wc !! r = None -> w_trusted wf !! r = Some k ->
  ~ unchanged w wc /\ ~ unchanged wf wc /\
  is_Some (w_sessions wc !! (r, d)) /\ w_trusted wc !! r = None /\ w_trusted wf !! r = Some k.
Proof.
  intros H0 H1 H2 H3. split; [|split; [|done]].
  - intros (H & _). rewrite H, H0 in H1. by destruct H1.
  - intros (_ & _ & _ & H & _). rewrite H in H2. by rewrite H2 in H3.
Qed.

Lemma torn2 r d k w wf wc :
  w_trusted w !! r = None -> w_sessions wc !! (r, d) = None -> w_trusted wc !! r = Some k -> is_Some (w_sessions wf !! (r, d)) ->
  ~ unchanged w wc /\ ~ unchanged wf wc /\
  w_sessions wc !! (r, d) = None /\ w_trusted wc !! r = Some k /\ is_Some (w_sessions wf !! (r, d)).
Proof.
  intros H0 H1 H2 H3. split; [|split; [|done]].
  - intros (_ & _ & _ & H & _). rewrite H in H2. by rewrite H0 in H2.
  - intros (H & _). rewrite H in H1. rewrite H1 in H3. by destruct H3.
Qed.

(** Processing Bob's bundle, dying between the session and the identity store. *)
Lemma bundle_torn : exists r d b n w,
  let wf := (run (processPreKeyBundle toy r d b) w).2 in
  let wc := (run_crash n (processPreKeyBundle toy r d b) w).2 in
  ~ unchanged w wc /\ ~ unchanged wf wc /\
  is_Some (w_sessions wc !! (r, d)) /\ w_trusted wc !! r = None /\ w_trusted wf !! r = Some (bu_identityKey b).
Proof.
  exists 2%Z, 1%Z, bundle, 7, alice0. apply torn1.
  - vm_compute; reflexivity.
  - apply (bool_decide_eq_true_1 _). vm_compute; reflexivity.
  - vm_compute; reflexivity.
  - vm_compute; reflexivity.
Qed.

(** Receiving a first message, dying between the identity store and the session. *)
Definition pkOne : preKeyWhisperMessage := pkFrom alice0 [x01].

Lemma pkmsg_torn : exists r d m n w,
  let wf := (run (decryptPkmsg toy r d m) w).2 in
  let wc := (run_crash n (decryptPkmsg toy r d m) w).2 in
  ~ unchanged w wc /\ ~ unchanged wf wc /\
  w_sessions wc !! (r, d) = None /\ w_trusted wc !! r = Some (pIdentityKey m) /\ is_Some (w_sessions wf !! (r, d)).
Proof.
  exists 1%Z, 1%Z, pkOne, 7, bob1. apply torn2.
  - vm_compute; reflexivity.
  - vm_compute; reflexivity.
  - vm_compute; reflexivity.
  - apply (bool_decide_eq_true_1 _). vm_compute; reflexivity.
Qed.
