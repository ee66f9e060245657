(** A replayed key exchange message: executions in which a message is decrypted twice, a
    used message key stays in an archived state, and a message key is used for two
    messages.  With the toy primitives, computed by the kernel. *)
From Verif Require Import PyBase Wire Protos Crypto Ecc Kdf Messages State Prog ProgFacts Ratchet Builder Cipher Groups Helper Toy Sched Ex.
From Verif Require Import SpecSession SpecApi PoolFacts.

Lemma run_drop {A} (p : prog A) w : (run (_ ← p; Ret tt) w).2 = (run p w).2.
Proof. rewrite run_bind. by destruct (run p w) as [[a|e] w']. Qed.

Definition noKx : keyExchangeMessage := KeyExchangeMessage 0 0 0 0 [] [] [] [] [].
Definition wmOf (o : res ciphertextMessage) : whisperMessage := match o with Ok (CTWhisper m) => m | _ => noWm end.
Definition pkOf (o : res ciphertextMessage) : preKeyWhisperMessage := match o with Ok (CTPreKey m) => m | _ => noPk end.
(** What a device holds after a call. *)
Definition does (c : apiCall) (w : world) : world := (run (api toy c) w).2.

(** Alice and Bob have a session; one message of Alice, [oldMsg], is still under way. *)
Definition rpA1 : world := (run (encrypt toy 2 1 [x01]) alice1).2.
Definition rpB1 : world := does (APkmsg 1 1 (pkOf (run (encrypt toy 2 1 [x01]) alice1).1)) bob1.
Definition rpB2 : world := does (AEncrypt 1 1 [x02]) rpB1.
Definition rpA2 : world := does (AMsg 2 1 (wmOf (run (encrypt toy 1 1 [x02]) rpB1).1)) rpA1.
Definition oldMsg : whisperMessage := wmOf (run (encrypt toy 2 1 [x03]) rpA2).1.
Definition rpA3 : world := does (AEncrypt 2 1 [x03]) rpA2.
(** Both start a new key exchange at the same time. *)
Definition kxA : keyExchangeMessage := get noKx (run (processInitKeyExchangeMessage toy 2 1) rpA3).1.
Definition rpA4 : world := does (AInitKx 2 1) rpA3.
Definition rpB3 : world := does (AInitKx 1 1) rpB2.
(** Bob answers Alice's message, Alice processes the answer. *)
Definition kxB : keyExchangeMessage :=
  match (run (processKeyExchangeMessage toy 1 1 kxA) rpB3).1 with Ok (Some x) => x | _ => noKx end.
Definition rpB4 : world := does (AKx 1 1 kxA) rpB3.
Definition rpA5 : world := does (AKx 2 1 kxB) rpA4.
(** Alice sends two messages in the new session. *)
Definition new0 : whisperMessage := wmOf (run (encrypt toy 2 1 [x07]) rpA5).1.
Definition new1 : whisperMessage := wmOf (run (encrypt toy 2 1 [x08]) (does (AEncrypt 2 1 [x07]) rpA5)).1.

Lemma reachable_does c w : reachable toy w -> reachable toy (does c w).
Proof. intros H. by eapply reachable_step, step_call_ends. Qed.
Lemma reachable_rpB4 : reachable toy rpB4.
Proof. do 4 apply reachable_does. apply reachable_start. reflexivity. Qed.

(** The message of the old session makes the old state current again; then the attacker
    repeats Alice's key exchange message. *)
Definition replayed (w : world) : world := does (AKx 1 1 kxA) (does (AMsg 1 1 oldMsg) w).
Lemma replayed_steps w : rtc (step toy) w (replayed w).
Proof. eapply rtc_l; [apply step_call_ends|]. eapply rtc_l; [apply step_call_ends|]. apply rtc_refl. Qed.

Lemma decrypted_twice_refuted : exists C w r d m pt w1 w2,
  crypto_ok C /\ reachable C w /\ run (decryptMsg C r d m) w = (Ok pt, w1) /\ rtc (step C) w1 w2 /\
  (run (decryptMsg C r d m) w2).1 = Ok pt.
Proof.
  exists toy, rpB4, 1%Z, 1%Z, new0, [x07], (run (decryptMsg toy 1 1 new0) rpB4).2,
    (replayed (run (decryptMsg toy 1 1 new0) rpB4).2).
  split; [exact toy_ok|]. split; [exact reachable_rpB4|].
  split; [|split; [apply replayed_steps|vm_compute; reflexivity]].
  assert ((run (decryptMsg toy 1 1 new0) rpB4).1 = Ok [x07]) as H1 by (vm_compute; reflexivity).
  rewrite <- H1. apply surjective_pairing.
Qed.

Lemma holds_key_compute s key n :
  existsb (fun c => match ch_ratchetKey c with
                    | Some k => bool_decide (k = x05 :: key) && existsb (fun k => (default 0%N (mk_index k) =? n)%N) (ch_messageKeys c)
                    | None => false end) (ss_receiverChains s) = true -> holds_key s key n.
Proof.
  intros (c & Hc & H)%existsb_exists. destruct (ch_ratchetKey c) as [k|] eqn:Ek; [|done].
  apply andb_prop in H as [->%bool_decide_eq_true H]. apply existsb_exists in H as (mk & Hmk & H%N.eqb_eq).
  exists c. split; [by apply elem_of_list_In|]. split; [done|]. right. exists mk. split; [by apply elem_of_list_In|done].
Qed.

Lemma erased_refuted : exists C w r d m pt w' rec s,
  crypto_ok C /\ reachable C w /\ run (decryptMsg C r d m) w = (Ok pt, w') /\
  session_at w' r d = Ok rec /\ s ∈ states rec /\ holds_key s (wRatchetKey m) (wCounter m).
Proof.
  pose (w := replayed (does (AMsg 1 1 new1) rpB4)). pose (w' := (run (decryptMsg toy 1 1 new0) w).2).
  pose (rec := get sr_new (session_at w' 1 1)). pose (s := default st_new (states rec !! 2)).
  exists toy, w, 1%Z, 1%Z, new0, [x07], w', rec, s.
  split; [exact toy_ok|]. split; [do 3 apply reachable_does; exact reachable_rpB4|].
  assert ((run (decryptMsg toy 1 1 new0) w).1 = Ok [x07]) as H1 by (vm_compute; reflexivity).
  split; [rewrite <- H1; apply surjective_pairing|].
  assert (match session_at w' 1 1 with Ok _ => true | Err _ => false end = true) as H2 by (vm_compute; reflexivity).
  split; [unfold rec; by destruct (session_at w' 1 1)|].
  assert (match states rec !! 2 with Some _ => true | None => false end = true) as H3 by (vm_compute; reflexivity).
  split; [unfold s; destruct (states rec !! 2) eqn:E; [|done]; by eapply elem_of_list_lookup_2|].
  apply holds_key_compute. vm_compute. reflexivity.
Qed.

(** The pair of ratchet key and counter of the two ciphertexts and the keys are the same;
    the receiver of both takes the second for a repetition of the first. *)
Lemma key_reused_refuted : exists C w r d pt1 pt2 c1 c2 w1 w2,
  crypto_ok C /\ reachable C w /\ run (encrypt C r d pt1) w = (Ok (CTWhisper c1), w1) /\ rtc (step C) w1 w2 /\
  (run (encrypt C r d pt2) w2).1 = Ok (CTWhisper c2) /\ pt1 <> pt2 /\
  wRatchetKey c1 = wRatchetKey c2 /\ wCounter c1 = wCounter c2.
Proof.
  pose (w1 := (run (encrypt toy 1 1 [x0a]) rpB4).2). pose (w2 := replayed w1).
  exists toy, rpB4, 1%Z, 1%Z, [x0a], [x0b], (wmOf (run (encrypt toy 1 1 [x0a]) rpB4).1), (wmOf (run (encrypt toy 1 1 [x0b]) w2).1), w1, w2.
  split; [exact toy_ok|]. split; [exact reachable_rpB4|].
  assert (match (run (encrypt toy 1 1 [x0a]) rpB4).1 with Ok (CTWhisper _) => true | _ => false end = true) as H1 by (vm_compute; reflexivity).
  split. { unfold w1. destruct (run (encrypt toy 1 1 [x0a]) rpB4) as [[[]|] ?]; by cbn in *. }
  split; [apply replayed_steps|].
  assert (match (run (encrypt toy 1 1 [x0b]) w2).1 with Ok (CTWhisper _) => true | _ => false end = true) as H2 by (vm_compute; reflexivity).
  split. { destruct (run (encrypt toy 1 1 [x0b]) w2) as [[[]|] ?]; by cbn in *. }
  split; [done|]. split; vm_compute; reflexivity.
Qed.
