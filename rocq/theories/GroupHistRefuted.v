(** Counterexamples about group histories: C55, C59, C60. *)
From Verif Require Import PyBase Wire Protos Crypto Ecc Kdf Messages State Prog Ratchet Builder Cipher Groups Helper.
From Verif Require Import ProgFacts SpecSession SpecGroup SpecApi PoolFacts SpecGroupHist GroupPool Toy Ex.

Definition gname : senderKeyName := ("chat", "sender", 1%Z).
Definition noDist : senderKeyDistributionMessage := SenderKeyDistributionMessage 0 0 [] [] [].
(** The sender makes a sender key and sends two messages. *)
Definition gS0 : world := device 4.
Definition gDist : senderKeyDistributionMessage := get noDist (run (group_create toy gname) gS0).1.
Definition gS1 : world := (run (group_create toy gname) gS0).2.
Definition gMsg0 : bytes := get [] (run (group_encrypt toy gname [x2a]) gS1).1.
Definition gS2 : world := (run (group_encrypt toy gname [x2a]) gS1).2.
Definition gMsg1 : bytes := get [] (run (group_encrypt toy gname [x2b]) gS2).1.
(** The member joins, reads the first message, and processes the same distribution message
    again. *)
Definition gM0 : world := device 5.
Definition gM1 : world := (run (group_process gname gDist) gM0).2.
Definition gM2 : world := (run (group_decrypt toy gname gMsg0) gM1).2.
Definition gM3 : world := (run (group_process gname gDist) gM2).2.

Lemma gM1_reachable : group_reachable toy gM1.
Proof.
  eapply later_reachable; [apply (group_reachable_start toy gM0); reflexivity|]. eapply rtc_l; [|apply rtc_refl].
  exact (step_call_ends toy gM0 (AGroupProcess gname gDist)).
Qed.
Lemma gS1_reachable : group_reachable toy gS1.
Proof.
  eapply later_reachable; [apply (group_reachable_start toy gS0); reflexivity|]. eapply rtc_l; [|apply rtc_refl].
  pose proof (step_call_ends toy gS0 (AGroupCreate gname)) as H. cbn [api] in H. rewrite run_bind in H.
  unfold gS1. by destruct (run (group_create toy gname) gS0) as [[?|?] ?].
Qed.
Lemma gM3_later : later toy gM2 gM3.
Proof. eapply rtc_l; [|apply rtc_refl]. exact (step_call_ends toy gM2 (AGroupProcess gname gDist)). Qed.

Definition noSk : senderKeyMessage := SenderKeyMessage 0 0 0 [] [].
Definition noSt : st_s := StS None None None [].
Definition oneOf {A} (o : option A) (d : A) : A := match o with Some x => x | None => d end.

(** The second state with the key id opens the message again. *)
Lemma group_erased_refuted : exists C n w b pt w1 w2 m rec s k s',
  crypto_ok C /\ group_reachable C w /\ run (group_decrypt C n b) w = (Ok pt, w1) /\ later C w1 w2 /\
  sk_msg_parse b = Ok m /\ senderkey_at w2 n = Ok rec /\ s ∈ rec /\ default 0%N (st_senderKeyId s) = gKeyId m /\
  getSenderKey C s (gIteration m) = Ok (k, s') /\ aes_decrypt C (smCipher k) (smIv k) (gCiphertext m) = Ok pt.
Proof.
  pose (m := get noSk (sk_msg_parse gMsg0)). pose (rec := get [] (senderkey_at gM3 gname)). pose (s := oneOf (rec !! 1) noSt).
  pose (x := get (SenderMessageKey 0 [] [] [], noSt) (getSenderKey toy s (gIteration m))).
  exists toy, gname, gM1, gMsg0, [x2a], gM2, gM3, m, rec, s, x.1, x.2.
  split; [exact toy_ok|]. split; [exact gM1_reachable|].
  assert ((run (group_decrypt toy gname gMsg0) gM1).1 = Ok [x2a]) as H1 by (vm_compute; reflexivity).
  split; [rewrite <- H1; apply surjective_pairing|]. split; [exact gM3_later|].
  assert (match sk_msg_parse gMsg0 with Ok _ => true | Err _ => false end = true) as H2 by (vm_compute; reflexivity).
  split; [unfold m; by destruct (sk_msg_parse gMsg0)|].
  assert (match senderkey_at gM3 gname with Ok _ => true | Err _ => false end = true) as H3 by (vm_compute; reflexivity).
  split; [unfold rec; by destruct (senderkey_at gM3 gname)|].
  assert (match rec !! 1 with Some _ => true | None => false end = true) as H4 by (vm_compute; reflexivity).
  split; [unfold s; destruct (rec !! 1) eqn:E; [|done]; by eapply elem_of_list_lookup_2|].
  split; [vm_compute; reflexivity|].
  assert (match getSenderKey toy s (gIteration m) with Ok _ => true | Err _ => false end = true) as H5 by (vm_compute; reflexivity).
  split; [unfold x; destruct (getSenderKey toy s (gIteration m)) as [[? ?]|]; done|].
  vm_compute; reflexivity.
Qed.

(** Two encrypts that both load before either stores. *)
Lemma group_overlap_refuted : exists C w n p1 p2 l b1 b2 w' m1 m2,
  crypto_ok C /\ group_reachable C w /\ run_pair l (group_encrypt C n p1) (group_encrypt C n p2) w = (Ok b1, Ok b2, w') /\
  sk_msg_parse b1 = Ok m1 /\ sk_msg_parse b2 = Ok m2 /\ p1 <> p2 /\ gKeyId m1 = gKeyId m2 /\ gIteration m1 = gIteration m2.
Proof.
  pose (l := [true; false]). pose (x := run_pair l (group_encrypt toy gname [x2a]) (group_encrypt toy gname [x2b]) gS1).
  pose (b1 := get [] x.1.1). pose (b2 := get [] x.1.2).
  exists toy, gS1, gname, [x2a], [x2b], l, b1, b2, x.2, (get noSk (sk_msg_parse b1)), (get noSk (sk_msg_parse b2)).
  split; [exact toy_ok|]. split; [exact gS1_reachable|].
  assert (match x with (Ok _, Ok _, _) => true | _ => false end = true) as H1 by (vm_compute; reflexivity).
  split; [unfold b1, b2; fold x; destruct x as [[[?|?] [?|?]] ?]; done|].
  assert (match sk_msg_parse b1, sk_msg_parse b2 with Ok _, Ok _ => true | _, _ => false end = true) as H2 by (vm_compute; reflexivity).
  split; [by destruct (sk_msg_parse b1)|]. split; [by destruct (sk_msg_parse b1), (sk_msg_parse b2)|]. split; [done|].
  split; vm_compute; reflexivity.
Qed.

(** One message delivered twice at the same time: both return its plaintext. *)
Lemma group_twice_refuted : exists C w n b l pt w',
  crypto_ok C /\ group_reachable C w /\ run_pair l (group_decrypt C n b) (group_decrypt C n b) w = (Ok pt, Ok pt, w').
Proof.
  pose (l := [true; false]). pose (x := run_pair l (group_decrypt toy gname gMsg0) (group_decrypt toy gname gMsg0) gM1).
  exists toy, gM1, gname, gMsg0, l, [x2a], x.2. split; [exact toy_ok|]. split; [exact gM1_reachable|].
  assert (x.1.1 = Ok [x2a]) as H1 by (vm_compute; reflexivity). assert (x.1.2 = Ok [x2a]) as H2 by (vm_compute; reflexivity).
  fold x. destruct x as [[? ?] ?]. cbn in H1, H2 |- *. by subst.
Qed.

(** The same for a session. *)
Definition cA2 : world := (run (encrypt toy 2 1 [x2a]) alice1).2.
Definition cPk : preKeyWhisperMessage := pkFrom alice0 [x2a].
Definition cB2 : world := (run (decryptPkmsg toy 1 1 cPk) bob1).2.
Definition cAns : whisperMessage := match (run (encrypt toy 1 1 [x2b]) cB2).1 with Ok (CTWhisper m) => m | _ => noWm end.

Lemma session_twice_refuted : exists C w r d m l pt w',
  crypto_ok C /\ reachable C w /\ run_pair l (decryptMsg C r d m) (decryptMsg C r d m) w = (Ok pt, Ok pt, w').
Proof.
  pose (l := [true; false; true; false]). pose (x := run_pair l (decryptMsg toy 2 1 cAns) (decryptMsg toy 2 1 cAns) cA2).
  exists toy, cA2, 2%Z, 1%Z, cAns, l, [x2b], x.2. split; [exact toy_ok|]. split.
  - pose proof (step_call_ends toy alice0 (ABundle 2 1 bundle)) as S1. pose proof (step_call_ends toy alice1 (AEncrypt 2 1 [x2a])) as S2.
    cbn [api] in S1, S2. fold alice1 in S1. rewrite run_bind in S2.
    assert (step toy alice1 cA2) as S3 by (unfold cA2; by destruct (run (encrypt toy 2 1 [x2a]) alice1) as [[?|?] ?]).
    eapply reachable_step; [|exact S3]. eapply reachable_step; [|exact S1]. apply reachable_start. reflexivity.
  - assert (x.1.1 = Ok [x2b]) as H1 by (vm_compute; reflexivity). assert (x.1.2 = Ok [x2b]) as H2 by (vm_compute; reflexivity).
    fold x. destruct x as [[? ?] ?]. cbn in H1, H2 |- *. by subst.
Qed.
