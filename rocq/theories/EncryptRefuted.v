(** Executions in which encrypt does not behave as C15 and C45 ask.  With the toy
    primitives, computed by the kernel. *)
From Verif Require Import PyBase Wire Protos Crypto Ecc Kdf Messages State Prog ProgFacts Ratchet Builder Cipher Groups Helper Toy Sched Ex.
From Verif Require Import SpecSession SpecApi PoolFacts SpecKeys SpecEncrypt HistoryRefuted.

(** Two overlapping calls return the same ratchet key and counter. *)
Definition overlap : res ciphertextMessage * res ciphertextMessage * world :=
  run_pair [true; false] (encrypt toy 2 1 [x2a]) (encrypt toy 2 1 [x2b]) alice1.
Definition shownCt (o : res ciphertextMessage) : option (bytes * N) :=
  match o with Ok c => Some (wRatchetKey (inner c), wCounter (inner c)) | Err _ => None end.
Lemma overlap_shown : shownCt overlap.1.1 = shownCt overlap.1.2 /\ is_Some (shownCt overlap.1.1).
Proof. vm_compute. eauto. Qed.
Lemma alice1_reachable : reachable toy alice1.
Proof.
  apply (reachable_does (ABundle 2 1 bundle) alice0). apply reachable_start. reflexivity.
Qed.

Lemma shown_equal x y : shownCt x = shownCt y -> is_Some (shownCt x) ->
  exists c1 c2, x = Ok c1 /\ y = Ok c2 /\
    wRatchetKey (inner c1) = wRatchetKey (inner c2) /\ wCounter (inner c1) = wCounter (inner c2).
Proof.
  destruct x as [c1|e], y as [c2|e']; cbn; intros H1 H2; [|done|by destruct H2..]. exists c1, c2. by injection H1.
Qed.
Lemma triple {A B D} (t : A * B * D) a b : t.1.1 = a -> t.1.2 = b -> t = (a, b, t.2).
Proof. destruct t as [[x y] z]. cbn. by intros -> ->. Qed.

Lemma overlap_refuted : exists C w r d p1 p2 l c1 c2 w',
  crypto_ok C /\ reachable C w /\ run_pair l (encrypt C r d p1) (encrypt C r d p2) w = (Ok c1, Ok c2, w') /\
  wRatchetKey (inner c1) = wRatchetKey (inner c2) /\ wCounter (inner c1) = wCounter (inner c2).
Proof.
  destruct (shown_equal _ _ (proj1 overlap_shown) (proj2 overlap_shown)) as (c1 & c2 & H1 & H2 & H3).
  exists toy, alice1, 2%Z, 1%Z, [x2a], [x2b], [true; false], c1, c2, overlap.2.
  split; [exact toy_ok|]. split; [exact alice1_reachable|]. split; [exact (triple _ _ _ H1 H2)|exact H3].
Qed.

(** Alice has a session and sets up a second one; then a message of the first arrives,
    which the second does not open, and encrypt returns a plain message. *)
Definition twiceA : world := does (ABundle 2 1 bundle) (does (AEncrypt 2 1 [x01]) alice1).
Definition oldReply : whisperMessage := wmOf (run (encrypt toy 1 1 [x02]) rpB1).1.
Definition twice : list (option (res outcome)) := (history toy 2 1 [(OMsg oldReply, None); (OEncrypt [x09], None)] twiceA).1.
Definition noRec : sessionRecord := SessionRecord true ss_empty [].

Lemma old_session_refuted : exists C w w1 r d b m e rec o2 x ct,
  crypto_ok C /\ reachable C w /\ run (processPreKeyBundle C r d b) w = (Ok tt, w1) /\
  session_at w1 r d = Ok rec /\ (run (decryptWithSessionState C (sr_state rec) m) w1).1 = Err e /\
  (history C r d [(OMsg m, None); (o2, None)] w1).1 = [Some (Ok (Decrypted x)); Some (Ok (Encrypted (CTWhisper ct)))].
Proof.
  exists toy, (does (AEncrypt 2 1 [x01]) alice1), twiceA, 2%Z, 1%Z, bundle, oldReply, EInvalidMessage,
    (get noRec (session_at twiceA 2 1)), (OEncrypt [x09]), [x02],
    (match twice with [_; Some (Ok (Encrypted (CTWhisper m)))] => m | _ => noWm end).
  split; [exact toy_ok|]. split; [apply reachable_does, alice1_reachable|].
  split.
  { assert ((run (processPreKeyBundle toy 2 1 bundle) (does (AEncrypt 2 1 [x01]) alice1)).1 = Ok tt) as H by (vm_compute; reflexivity).
    rewrite <- H. unfold twiceA, does at 2. change (api toy (ABundle 2 1 bundle)) with (processPreKeyBundle toy 2 1 bundle).
    apply surjective_pairing. }
  split; [vm_compute; reflexivity|]. split; vm_compute; reflexivity.
Qed.
