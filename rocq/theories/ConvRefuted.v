(** Concrete runs that refute C01 for dropped chains and C12. *)
From Verif Require Import PyBase Wire Protos ProtoFacts Crypto Ecc Kdf Messages State Prog Ratchet Builder Cipher Groups Helper.
From Verif Require Import StateFacts SpecUtil SpecSession SpecKeys SpecConv Toy Sched Ex.

(** Six turns later the chain of Alice's first message is gone. *)
Definition turnOf (n : nat) : list action := [SendB [x00]; DeliverA n; SendA [x01]; DeliverB (S n)].
Definition six : list action := flat_map turnOf (seq 0 6) ++ [DeliverB 0].

Lemma received_last : (play toy 1 1 2 1 [SendA [x01]; DeliverB 0] net1).1 = [Sent (ct_wire (get noCt (run (encrypt toy 2 1 [x01]) alice1).1))] ++ [Received [x01]].
Proof. vm_compute. done. Qed.
Lemma raised_last : last (shown <$> (play toy 1 1 2 1 six (play toy 1 1 2 1 [SendA [x01]; DeliverB 0] net1).2).1) = Some (Some (Err EInvalidMessage)).
Proof. vm_compute. done. Qed.
Lemma last_split (l : list event) e : last (shown <$> l) = Some (Some (Err e)) -> exists l', l = l' ++ [Raised e].
Proof.
  induction l as [|x l _] using rev_ind; [done|]. rewrite fmap_app. cbn [fmap list_fmap]. rewrite last_snoc.
  destruct x; intros [= ]. subst. by exists l.
Qed.

Lemma dropped_duplicate : exists C rA dA rB dB wA wB b l1 l2 pt es1 es2 n1 n2 i,
  crypto_ok C /\ (run (processPreKeyBundle C rB dB b) wA).1 = Ok tt /\
  play C rA dA rB dB l1 (Net (run (processPreKeyBundle C rB dB b) wA).2 wB [] []) = (es1 ++ [Received pt], n1) /\
  (exists l1', l1 = l1' ++ [DeliverB i]) /\
  play C rA dA rB dB l2 n1 = (es2 ++ [Raised EInvalidMessage], n2) /\ (exists l2', l2 = l2' ++ [DeliverB i]).
Proof.
  pose proof received_last as H1. destruct (last_split _ _ raised_last) as [es2 H2].
  exists toy, 1%Z, 1%Z, 2%Z, 1%Z, alice0, bob1, bundle, [SendA [x01]; DeliverB 0], six, [x01].
  eexists _, es2, _, _, 0. split; [exact toy_ok|]. split; [vm_compute; done|].
  split; [rewrite <- H1; apply surjective_pairing|]. split; [by exists [SendA [x01]]|].
  split; [rewrite <- H2; apply surjective_pairing|]. by exists (flat_map turnOf (seq 0 6)).
Qed.

(** C12 *)
Definition lone_ct : ciphertextMessage := get noCt (run (encrypt toy 2 1 [x2a]) (run (processPreKeyBundle toy 2 1 bundleNoPreKey) alice0).2).1.
Definition lone_pk : preKeyWhisperMessage := match lone_ct with CTPreKey m => m | _ => noPk end.
Lemma lone_1 : (run (processPreKeyBundle toy 2 1 bundleNoPreKey) alice0).1 = Ok tt.
Proof. vm_compute. done. Qed.
Lemma lone_2 : (run (encrypt toy 2 1 [x2a]) (run (processPreKeyBundle toy 2 1 bundleNoPreKey) alice0).2).1 = Ok (CTPreKey lone_pk).
Proof. vm_compute. done. Qed.
Lemma lone_3 : prekey_parse (pSerialized lone_pk) = Ok (get noPk (prekey_parse (pSerialized lone_pk))).
Proof. vm_compute. done. Qed.
Lemma lone_4 : (run (decryptPkmsg toy 1 1 (get noPk (prekey_parse (pSerialized lone_pk)))) bob1).1 = Err EInvalidKeyId.
Proof. vm_compute. done. Qed.
Definition bobSpk : keypair := get noKp (signedprekeyrecord_getKeyPair bobSigned).
Definition bobOtpk : keypair := get noKp (prekeyrecord_getKeyPair bobPreKey).
Lemma bobSpk_held : holds_signed bob1 9 bobSpk.
Proof. exists (spr_enc bobSigned), bobSigned. split; [vm_compute; done|]. split; vm_compute; done. Qed.
Lemma bobOtpk_held : holds_prekey bob1 5 bobOtpk.
Proof. exists (pr_enc bobPreKey), bobPreKey. split; [vm_compute; done|]. split; vm_compute; done. Qed.
Lemma able_alice0 : able toy alice0.
Proof. split; [split|]; vm_compute; done. Qed.
Lemma able_bob1 : able toy bob1.
Proof. split; [split|]; vm_compute; done. Qed.
Lemma lone_bundle : bundle_of toy bob1 bundleNoPreKey bobSpk None.
Proof.
  split; [split; vm_compute; done|]. split; [vm_compute; done|]. split; [split; vm_compute; done|].
  split; [exact bobSpk_held|]. split; [vm_compute; done|]. split; [split; [|split]; vm_compute; done|].
  split; [vm_compute; done|]. split; vm_compute; done.
Qed.
Lemma bundle_ok : bundle_of toy bob1 bundle bobSpk (Some (5%N, bobOtpk)).
Proof.
  split; [split; vm_compute; done|]. split; [vm_compute; done|]. split; [split; vm_compute; done|].
  split; [exact bobSpk_held|]. split; [vm_compute; done|]. split; [split; [|split]; vm_compute; done|].
  split; [vm_compute; done|]. split; [vm_compute; done|].
  split; [split; vm_compute; done|]. split; [exact bobOtpk_held|]. split; [|split]; vm_compute; done.
Qed.

Lemma no_prekey_refuted : exists C rA dA rB dB b spk wA wB wA1 pt m wA2 m',
  crypto_ok C /\ able C wA /\ able C wB /\ bundle_of C wB b spk None /\
  w_sessions wA !! (rB, dB) = None /\ w_sessions wB !! (rA, dA) = None /\
  w_trusted wA !! rB = None /\ w_trusted wB !! rA = None /\
  run (processPreKeyBundle C rB dB b) wA = (Ok tt, wA1) /\
  run (encrypt C rB dB pt) wA1 = (Ok (CTPreKey m), wA2) /\ prekey_parse (pSerialized m) = Ok m' /\
  (run (decryptPkmsg C rA dA m') wB).1 = Err EInvalidKeyId.
Proof.
  exists toy, 1%Z, 1%Z, 2%Z, 1%Z, bundleNoPreKey, bobSpk, alice0, bob1,
    (run (processPreKeyBundle toy 2 1 bundleNoPreKey) alice0).2, [x2a], lone_pk. eexists _, _.
  split; [exact toy_ok|]. split; [exact able_alice0|]. split; [exact able_bob1|].
  split; [exact lone_bundle|]. split; [vm_compute; done|]. split; [vm_compute; done|]. split; [vm_compute; done|]. split; [vm_compute; done|].
  split; [rewrite <- lone_1; apply surjective_pairing|]. split; [rewrite <- lone_2; apply surjective_pairing|].
  split; [exact lone_3|]. exact lone_4.
Qed.
