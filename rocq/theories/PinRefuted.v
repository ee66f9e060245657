(** Counterexamples to C67 and C68: two identities for one peer. *)
From Verif Require Import PyBase Wire Protos Crypto Ecc Kdf Messages State Prog Ratchet Builder Cipher Groups Helper.
From Verif Require Import SpecSession SpecApi SpecPin Toy Sched Ex.

(** Somebody else with another identity, whose bundle is presented as Bob's. *)
Definition mal0 : world := device 9.
Definition malSigned : spr_s := get (SprS None None None None None) (run (generateSignedPreKey toy (w_identity mal0) 9) mal0).1.
Definition malBundle : preKeyBundle :=
  PreKeyBundle 7 1 None None 9
    (Some (kp_pub (get noKp (signedprekeyrecord_getKeyPair malSigned)))) (signedprekeyrecord_getSignature malSigned)
    (kp_pub (w_identity mal0)).

(** Alice processes Bob's bundle and is killed before the identity is saved; then the
    other bundle. *)
Definition pinA1 : world := (run_crash 7 (api toy (ABundle 2 1 bundle)) alice0).2.
Definition pinA2 : world := (run (api toy (ABundle 2 1 malBundle)) pinA1).2.

Lemma pinned_not w r d rec s id k :
  session_at w r d = Ok rec -> s ∈ states rec -> ss_remoteIdentity s = Some id ->
  w_trusted w !! r = Some k -> id <> pub_serialize k -> ~ sessions_pinned w.
Proof. intros H1 H2 H3 H4 H5 H. destruct (H _ _ _ _ _ H1 H2 H3) as (k' & Hk & ->). congruence. Qed.

Definition pinRec : sessionRecord := get sr_new (session_at pinA2 2 1).
Definition oldState : ss_s := hd st_new (sr_previous pinRec).
Lemma oldState_in : oldState ∈ states pinRec.
Proof.
  apply elem_of_cons. right. unfold oldState. destruct (sr_previous pinRec) as [|s l] eqn:E.
  - assert (length (sr_previous pinRec) = 1) as H by (vm_compute; reflexivity). by rewrite E in H.
  - apply elem_of_cons. by left.
Qed.

Lemma pinned_refuted : exists C w0 w,
  crypto_ok C /\ w_sessions w0 = ∅ /\ w_trusted w0 = ∅ /\ calls_from C w0 w /\ ~ sessions_pinned w.
Proof.
  exists toy, alice0, pinA2. split; [exact toy_ok|]. split; [reflexivity|]. split; [reflexivity|]. split.
  - apply calls_end. unfold pinA1. apply calls_die, calls_none.
  - apply (pinned_not pinA2 2 1 pinRec oldState (pub_serialize (kp_pub (w_identity bob0))) (kp_pub (w_identity mal0))).
    + vm_compute. reflexivity.
    + exact oldState_in.
    + vm_compute. reflexivity.
    + vm_compute. reflexivity.
    + vm_compute. discriminate.
Qed.

(** Both calls see no identity yet. *)
Definition raceSched : list bool := [true; false].
Lemma race_refuted : exists C sched r d b1 b2 w,
  crypto_ok C /\ w_sessions w = ∅ /\ w_trusted w !! r = None /\ bu_identityKey b1 <> bu_identityKey b2 /\
  (run_pair sched (processPreKeyBundle C r d b1) (processPreKeyBundle C r d b2) w).1 = (Ok tt, Ok tt).
Proof.
  exists toy, raceSched, 2%Z, 1%Z, bundle, malBundle, alice0.
  split; [exact toy_ok|]. split; [reflexivity|]. split; [reflexivity|]. split; [vm_compute; discriminate|].
  vm_compute. reflexivity.
Qed.
