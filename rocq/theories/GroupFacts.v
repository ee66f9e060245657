(** Lemmas about the sender key code. *)
From Verif Require Import PyBase Wire Protos ProtoFacts Crypto Ecc Kdf Messages State Prog Groups Helper.
From Verif Require Import ProgFacts StateFacts UtilFacts HelperFacts MsgFacts SpecSession SpecGroup.

Lemma load_senderkey w n : step_call (CLoadSenderKey n) w = (senderkey_at w n, w).
Proof. done. Qed.

Lemma senderkey_stored w n l :
  Forall st_wf l -> senderkey_at (w_set_senderkeys (<[n := skr_serialize l]> (w_senderkeys w)) w) n = Ok l.
Proof. intros H. unfold senderkey_at. cbn [w_senderkeys w_set_senderkeys]. rewrite lookup_insert. by apply skr_roundtrip. Qed.

Lemma senderkey_wf w n l : senderkey_at w n = Ok l -> Forall st_wf l.
Proof. unfold senderkey_at. case_match; [apply skr_deserialize_wf|]. intros [= <-]. by constructor. Qed.

Lemma find_state_some k l i j s :
  find_state k l i = Ok (j, s) ->
  exists n, j = i + n /\ l !! n = Some s /\ sks_getKeyId s = k /\
    (forall n' s', n' < n -> l !! n' = Some s' -> sks_getKeyId s' <> k).
Proof.
  revert i. induction l as [|x l IH]; intros i; cbn [find_state]; [done|].
  destruct (N.eqb_spec (sks_getKeyId x) k) as [E|E].
  - intros [= <- <-]. exists 0. rewrite Nat.add_0_r. split_and!; [done..|]. intros n' s' Hn. lia.
  - intros (n & -> & Hl & Hk & Hb)%IH. exists (S n). split_and!; [lia|done|done|].
    intros [|n'] s' Hn; [by intros [= <-]|]. apply Hb. lia.
Qed.

Lemma find_state_none k l i : (forall s, s ∈ l -> sks_getKeyId s <> k) -> find_state k l i = Err EInvalidKeyId.
Proof.
  revert i. induction l as [|x l IH]; intros i H; cbn [find_state]; [done|].
  rewrite (proj2 (N.eqb_neq _ _)) by (apply H; left). apply IH. intros s Hs. apply H. by right.
Qed.

Lemma find_state_err k l i e : find_state k l i = Err e -> e = EInvalidKeyId.
Proof. revert i. induction l as [|x l IH]; intros i; cbn [find_state]; [congruence|]. case_match; [done|apply IH]. Qed.

Lemma find_state_app k l l' i :
  (forall s, s ∈ l -> sks_getKeyId s <> k) -> find_state k (l ++ l') i = find_state k l' (i + length l).
Proof.
  revert i. induction l as [|x l IH]; intros i H; cbn [find_state app length]; [by rewrite Nat.add_0_r|].
  rewrite (proj2 (N.eqb_neq _ _)) by (apply H; left). rewrite IH; [f_equal; lia|]. intros s Hs. apply H. by right.
Qed.

Section facts.
Context (C : crypto).

(** The pure part of decrypt. *)
Definition groupOpen (rec : list st_s) (bs : bytes) : res (bytes * list st_s) :=
  m ← sk_msg_parse bs;
  is ← find_state (gKeyId m) rec 0;
  pub ← sks_getSigningKeyPublic is.2;
  _ ← sk_verifySignature C m pub;
  ks ← getSenderKey C is.2 (gIteration m);
  plaintext ← res_rethrow (fun _ => true) EInvalidMessage
                (aes_decrypt C (smCipher ks.1) (smIv ks.1) (gCiphertext m));
  Ok (plaintext, put_state is.1 ks.2 rec).

Definition keyToInvalid (e : exn) : exn := if isKeyException e then EInvalidMessage else e.

Lemma run_group_decrypt name bs w :
  run (group_decrypt C name bs) w =
  match senderkey_at w name with
  | Err e => (Err (keyToInvalid e), w)
  | Ok [] => (Err ENoSession, w)
  | Ok rec => match groupOpen rec bs with
              | Ok x => (Ok x.1, w_set_senderkeys (<[name := skr_serialize x.2]> (w_senderkeys w)) w)
              | Err e => (Err (keyToInvalid e), w)
              end
  end.
Proof.
  unfold group_decrypt. rewrite run_rethrow, run_bind, run_do, load_senderkey.
  destruct (senderkey_at w name) as [[|s rec]|e]; [done| |done].
  rewrite run_bind, run_lift.
  change (m ← sk_msg_parse bs; _) with (groupOpen (s :: rec) bs) at 1.
  destruct (groupOpen (s :: rec) bs) as [[p l]|e]; [|done]. rewrite run_bind, run_do. done.
Qed.

Lemma sk_verify_inv m pub :
  sk_verifySignature C m pub = Ok tt ->
  let n := length (gSerialized m) - 64 in
  verifies C pub (take n (gSerialized m)) (drop n (gSerialized m)).
Proof.
  unfold sk_verifySignature, bu_split2, SIGNATURE_LENGTH. set (bs := gSerialized m). cbv zeta.
  intros H. unfold res_rethrow in H.
  destruct (verifySignature C pub _ _) as [b|e] eqn:E; cbn [mbind res_bind] in H; [|by repeat case_match].
  destruct b; [|done]. clear H.
  unfold verifySignature, c_verifySignature in E. apply bind_ok_inv in E as (r & E & Hr).
  case_match eqn:L; [|done]. apply Ok_inj in E as ->. apply andb_true_iff in L as [L1 L2].
  apply Nat.eqb_eq in L1, L2.
  assert (64 <= length bs) as Hlen.
  { revert L2. destruct (le_lt_dec 64 (length bs)) as [|Hl]; [done|]. intros L2. exfalso.
    assert (length (py_slice bs (zlen bs - 64) (zlen bs - 64 + 64)) <= length bs) as Hb
      by (apply py_slice_length_le).
    lia. }
  revert L2 Hr.
  replace (zlen bs - 64)%Z with (Z.of_nat (length bs - 64)) by (unfold zlen; lia).
  replace (Z.of_nat (length bs - 64) + 64)%Z with (Z.of_nat (length bs)) by lia.
  rewrite py_slice_prefix, py_slice_nonneg by lia. rewrite Nat2Z.id.
  intros L2 Hr. rewrite (take_ge (drop _ _)) in L2, Hr by (rewrite drop_length; lia).
  injection Hr as Hr. apply Z.eqb_eq in Hr. by split_and!.
Qed.
End facts.
