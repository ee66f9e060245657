(** An example for C85. *)
From Verif Require Import PyBase Wire Protos ProtoFacts Crypto Ecc Kdf Messages State Prog Ratchet Builder Cipher Groups Helper.
From Verif Require Import HelperFacts SpecUtil SpecSession SpecKeys SpecConv SpecMany ManyEnd Toy Sched Ex.

(** Two devices with two one-time prekeys each; the bundles name one of them. *)
Definition stocked (w : world) : world * list preKeyBundle :=
  let '(o, w1) := run (generatePreKeys toy 5 2) w in
  let '(s, w2) := run (generateSignedPreKey toy (w_identity w) 9) w1 in
  let sp := get (SprS None None None None None) s in
  let ps := get [] o in
  (w_set_signed {[ 9%N := spr_enc sp ]} (w_set_prekeys (list_to_map (zip [5%N; 6%N] (pr_enc <$> ps))) w2),
   (fun '(i, p) => PreKeyBundle 7 1 (Some i) (Some (kp_pub (get noKp (prekeyrecord_getKeyPair p)))) 9
      (Some (kp_pub (get noKp (signedprekeyrecord_getKeyPair sp)))) (signedprekeyrecord_getSignature sp)
      (kp_pub (w_identity w))) <$> zip [5%N; 6%N] ps).
Definition aliceM : world := (stocked alice0).1.
Definition bobM : world := (stocked bob0).1.
Definition ofAlice (i : nat) : preKeyBundle := nth i (stocked alice0).2 bundle.
Definition ofBob (i : nat) : preKeyBundle := nth i (stocked bob0).2 bundle.

(** Both start a session at once and their first messages cross; Alice starts another one
    while messages of the first two are under way; late messages and a message that comes
    again. *)
Definition busy : list move :=
  [RenewA (ofBob 0); Talk (SendA [x01]); RenewB (ofAlice 0); Talk (SendB [x11]);
   Talk (DeliverB 0); Talk (DeliverA 0); Talk (SendA [x02]); Talk (SendB [x12]);
   RenewA (ofBob 1); Talk (SendA [x03]); Talk (DeliverB 2); Talk (DeliverB 1); Talk (DeliverA 1);
   Talk (SendB [x13]); Talk (SendA [x04]); Talk (DeliverA 2); Talk (DeliverB 3); Talk (DeliverB 2)].

Lemma able_aliceM : able toy aliceM.
Proof. split; [split|]; vm_compute; done. Qed.
Lemma able_bobM : able toy bobM.
Proof. split; [split|]; vm_compute; done. Qed.

Definition spkOf (w : world) : spr_s := get (SprS None None None None None)
  (run (generateSignedPreKey toy (w_identity w) 9) (run (generatePreKeys toy 5 2) w).2).1.
Definition otpkOf (w : world) (i : nat) : pr_s := nth i (get [] (run (generatePreKeys toy 5 2) w).1) (PrS None None None).
Local Ltac offered w i :=
  exists (get noKp (signedprekeyrecord_getKeyPair (spkOf w))), (N.of_nat (5 + i)), (get noKp (prekeyrecord_getKeyPair (otpkOf w i)));
  split; [split; vm_compute; done|]; split; [vm_compute; done|]; split; [split; vm_compute; done|];
  split; [exists (spr_enc (spkOf w)), (spkOf w); split; [vm_compute; done|]; split; vm_compute; done|];
  split; [vm_compute; done|]; split; [split; [|split]; vm_compute; done|];
  split; [vm_compute; done|]; split; [vm_compute; done|];
  split; [split; vm_compute; done|];
  split; [exists (pr_enc (otpkOf w i)), (otpkOf w i); split; [vm_compute; done|]; split; vm_compute; done|];
  split; [|split]; vm_compute; done.
Lemma bob_offers : offers toy bobM (renewalsA busy).
Proof.
  change (renewalsA busy) with [ofBob 0; ofBob 1]. split.
  - constructor; [|constructor; [|constructor]]; [offered bob0 0|offered bob0 1].
  - change (NoDup [Some 5%N; Some 6%N]). apply (bool_decide_unpack _). vm_compute. done.
Qed.
Lemma alice_offers : offers toy aliceM (renewalsB busy).
Proof.
  change (renewalsB busy) with [ofAlice 0]. split.
  - constructor; [|constructor]. offered alice0 0.
  - apply NoDup_singleton.
Qed.
Definition busyEnd : net := (domoves toy 1 1 2 1 busy (Net aliceM bobM [] [])).2.
Lemma busy_goes : goes toy 1 1 2 1 busy (Net aliceM bobM [] []) (Many [] [] [] [] 0).
Proof.
  apply (sessions toy toy_ok 1 1 2 1 aliceM bobM busy (domoves toy 1 1 2 1 busy (Net aliceM bobM [] [])).1 busyEnd);
    [exact able_aliceM|exact able_bobM|left; vm_compute; done|left; vm_compute; done|vm_compute; done|vm_compute; done|exact bob_offers|exact alice_offers|apply surjective_pairing| | | |].
  - apply (bool_decide_unpack _). vm_compute. done.
  - assert (Forall (fun b => default [] (bu_signedPreKey b) ∉ drawn toy aliceM (n_A busyEnd) ++ drawn toy bobM (n_B busyEnd))
      (renewalsA busy ++ renewalsB busy)) as H.
    { change (renewalsA busy ++ renewalsB busy) with [ofBob 0; ofBob 1; ofAlice 0].
      constructor; [|constructor; [|constructor; [|constructor]]]; apply (bool_decide_unpack _); vm_compute; done. }
    intros k (b & Hb & Hk). rewrite Forall_forall in H. specialize (H b Hb). by rewrite Hk in H.
  - vm_compute. lia.
  - done.
Qed.
