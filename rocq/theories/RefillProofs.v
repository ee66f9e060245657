(** Refilling the stock of prekeys: C94. *)
From Verif Require Import PyBase Wire Protos Crypto Ecc State Prog Builder Helper ProgFacts StateFacts UtilFacts HelperFacts MsgFacts Install.
From Verif Require Import SpecUtil SpecRefill UtilProofs HandshakeFacts InstallProofs.

Lemma preKeyId_shift start k i : preKeyId_at (start + Z.of_nat k) i = preKeyId_at start (k + i).
Proof. unfold preKeyId_at. f_equal. f_equal. lia. Qed.

Lemma storePreKeys_other l m i : i ∉ (prekeyrecord_getId <$> l) -> storePreKeys l m !! i = m !! i.
Proof.
  revert m. induction l as [|r l IH]; intros m Hi; [done|]. rewrite fmap_cons in Hi. cbn.
  fold (storePreKeys l (<[prekeyrecord_getId r := pr_enc r]> m)). rewrite IH by (by intros H; apply Hi; right).
  apply lookup_insert_ne. intros <-. apply Hi. by left.
Qed.

Lemma NoDup_image {A B} (f : A -> B) l x y : NoDup (f <$> l) -> x ∈ l -> y ∈ l -> f x = f y -> x = y.
Proof.
  induction l as [|a l IH]; intros Hnd Hx Hy E; [by apply elem_of_nil in Hx|]. rewrite fmap_cons in Hnd. apply NoDup_cons in Hnd as [Hn Hnd].
  apply elem_of_cons in Hx as [->|Hx], Hy as [->|Hy]; [done| | |by apply IH].
  - destruct Hn. rewrite E. by apply elem_of_list_fmap_1.
  - destruct Hn. rewrite <- E. by apply elem_of_list_fmap_1.
Qed.

Section refill.
Context (C : crypto) (Hok : crypto_ok C).

(** The [k]-th prekey generated from position [p] on. *)
Definition nth_prekey (w : world) (start : Z) (p k : nat) : pr_s :=
  PrS (Some (Z.to_N (preKeyId_at start k))) (Some (pub_serialize (kp_pub (kp_at C w (p + k))))) (Some (kp_priv (kp_at C w (p + k)))).
Lemma nth_id w start p k : prekeyrecord_getId (nth_prekey w start p k) = Z.to_N (preKeyId_at start k).
Proof. done. Qed.
Lemma kp_at_tape w w' n : w_tape w = w_tape w' -> kp_at C w n = kp_at C w' n.
Proof. intros H. unfold kp_at. by rewrite H. Qed.
Lemma nth_tape w w' start p k : w_tape w = w_tape w' -> nth_prekey w start p k = nth_prekey w' start p k.
Proof. intros H. unfold nth_prekey. by rewrite (kp_at_tape w w' _ H). Qed.

Lemma refill_run w0 start p k n w : w_tape w = w_tape w0 -> w_pos w = p + k ->
  run (generatePreKeys C (start + Z.of_nat k) n) w = (Ok (nth_prekey w0 start p <$> seq k n), w_set_pos (p + (k + n)) w).
Proof using Hok.
  intros Ht Hp. unfold generatePreKeys. rewrite generatePreKeys_run by done. f_equal.
  - f_equal. replace (seq k n) with (Nat.add k <$> seq 0 n) by (by rewrite fmap_add_seq, Nat.add_0_r). rewrite <- list_fmap_compose. apply map_ext. intros i.
    cbn zeta. unfold compose, nth_prekey. rewrite preKeyId_shift. cbn [Nat.add]. rewrite Hp, (kp_at_tape w w0) by done.
    by replace (p + k + i) with (p + (k + i)) by lia.
  - f_equal. lia.
Qed.

Definition stocked (m : gmap N bytes) (have : list pr_s) : Prop :=
  NoDup (prekeyrecord_getId <$> have) /\ forall i b, m !! i = Some b <-> exists r, r ∈ have /\ prekeyrecord_getId r = i /\ pr_enc r = b.

Lemma ids_inj start i j m : i < m -> j < m -> (Z.of_nat m <= max_prekey_id)%Z ->
  Z.to_N (preKeyId_at start i) = Z.to_N (preKeyId_at start j) -> i = j.
Proof.
  intros Hi Hj Hm E. pose proof (preKeyId_range start i). pose proof (preKeyId_range start j).
  apply (Z2N.inj (preKeyId_at start i)) in E; [|lia..].
  destruct (Nat.lt_trichotomy i j) as [Hl|[?|Hl]]; [|done|].
  - exfalso. eapply (preKeyId_inj start i j); [done|lia|done].
  - exfalso. eapply (preKeyId_inj start j i); [done|lia|done].
Qed.

Lemma stock_inv w0 start p m : (Z.of_nat m <= max_prekey_id)%Z -> forall l k w have b w',
  w_tape w = w_tape w0 -> w_pos w = p + k -> k + generated l <= m ->
  (forall r, r ∈ have -> exists i, i < k /\ r = nth_prekey w0 start p i) -> stocked (w_prekeys w) have ->
  stock C l (start + Z.of_nat k) w = (b, w') ->
  concat b = nth_prekey w0 start p <$> seq k (generated l) /\ stocked (w_prekeys w') (left_over l b have) /\
  (forall r, r ∈ left_over l b have -> exists i, i < k + generated l /\ r = nth_prekey w0 start p i).
Proof using Hok.
  intros Hm l. induction l as [|[n|u] l IH]; intros k w have b w' Ht Hp Hk Hhave [Hnd Hst] E; cbn [stock left_over generated] in *.
  - injection E as <- <-. rewrite Nat.add_0_r. done.
  - rewrite (refill_run w0 start p k n) in E by done.
    destruct (stock C l _ _) as [b1 w2] eqn:E1. injection E as <- <-.
    replace (start + Z.of_nat k + Z.of_nat n)%Z with (start + Z.of_nat (k + n))%Z in E1 by lia.
    set (new := nth_prekey w0 start p <$> seq k n) in *.
    assert (Hdis : forall r r', r ∈ have -> r' ∈ new -> prekeyrecord_getId r <> prekeyrecord_getId r').
    { intros r r' (i & Hi & ->)%Hhave (j & -> & Hj)%elem_of_list_fmap. rewrite !nth_id. apply elem_of_seq in Hj.
      intros Heq. apply (ids_inj _ _ _ m) in Heq; [lia..|done]. }
    assert (Hnew : NoDup (prekeyrecord_getId <$> new)).
    { unfold new. rewrite <- list_fmap_compose. apply NoDup_fmap_2_strong; [|apply NoDup_seq].
      intros i j Hi Hj Heq. apply elem_of_seq in Hi, Hj. apply (ids_inj start i j m); [lia..|done|exact Heq]. }
    assert (Hst' : stocked (storePreKeys new (w_prekeys w)) (have ++ new)).
    { split.
      - rewrite fmap_app. apply NoDup_app. split; [done|]. split; [|done].
        intros i (r & -> & Hr)%elem_of_list_fmap (r' & Heq & Hr')%elem_of_list_fmap. by apply (Hdis r r').
      - intros i x. destruct (decide (i ∈ (prekeyrecord_getId <$> new))) as [Hin|Hin].
        + apply elem_of_list_fmap in Hin as (r & -> & Hr). rewrite storePreKeys_elem by done. split.
          * intros [= <-]. exists r. split; [|done]. apply elem_of_app. by right.
          * intros (r' & [Hr'|Hr']%elem_of_app & Hi & <-); [by destruct (Hdis r' r)|].
            do 2 f_equal. by eapply (NoDup_image prekeyrecord_getId new).
        + rewrite storePreKeys_other, Hst by done. split.
          * intros (r & Hr & H). exists r. split; [|done]. apply elem_of_app. by left.
          * intros (r & [Hr|Hr]%elem_of_app & Hi & Hx); [by exists r|]. destruct Hin. rewrite <- Hi. by apply elem_of_list_fmap_1. }
    destruct (IH (k + n) (w_set_prekeys (storePreKeys new (w_prekeys w)) (w_set_pos (p + (k + n)) w)) (have ++ new) b1 w2) as (H1 & H2 & H3).
    + done.
    + done.
    + lia.
    + intros r [Hr|Hr]%elem_of_app.
      * destruct (Hhave _ Hr) as (i & Hi & ->). exists i. split; [lia|done].
      * apply elem_of_list_fmap in Hr as (i & -> & Hi). apply elem_of_seq in Hi. exists i. split; [lia|done].
    + exact Hst'.
    + exact E1.
    + cbn [concat]. rewrite H1. split; [|split; [exact H2|]].
      * by rewrite seq_app, fmap_app.
      * intros r Hr. destruct (H3 r Hr) as (i & Hi & ->). exists i. split; [lia|done].
  - apply (IH k _ (filter (fun r => prekeyrecord_getId r <> u) have)) in E; [done|done|done|done| |].
    + intros r [_ Hr]%elem_of_list_filter. by apply Hhave.
    + split.
      * clear -Hnd. induction have as [|r have IHh]; [constructor|]. rewrite fmap_cons in Hnd. apply NoDup_cons in Hnd as [Hn Hnd].
        rewrite filter_cons. case_decide; [|by apply IHh]. rewrite fmap_cons. apply NoDup_cons. split; [|by apply IHh].
        intros (r' & Heq & [_ Hr']%elem_of_list_filter)%elem_of_list_fmap. apply Hn. rewrite Heq. by apply elem_of_list_fmap_1.
      * intros i x. cbn [w_set_prekeys w_prekeys]. rewrite lookup_delete_Some, Hst. split.
        -- intros (Hu & r & Hr & Hi & Hx). exists r. split; [|done]. apply elem_of_list_filter. split; [congruence|done].
        -- intros (r & [Hu Hr]%elem_of_list_filter & Hi & Hx). split; [congruence|]. by exists r.
Qed.

Lemma nth_prekey_reads w start p k : prekeyrecord_parse (pr_enc (nth_prekey w start p k)) = Ok (nth_prekey w start p k).
Proof using Hok.
  destruct (prekey_created C Hok start (w_set_pos p w) k) as (H1 & _). exact H1.
Qed.

Lemma stock_kept l start w b w' : (Z.of_nat (generated l) <= max_prekey_id)%Z -> w_prekeys w = ∅ ->
  stock C l start w = (b, w') ->
  NoDup (prekeyrecord_getId <$> concat b) /\ length (concat b) = generated l /\
  (forall r, r ∈ left_over l b [] -> run (do (CLoadPreKey (prekeyrecord_getId r))) w' = (Ok r, w')) /\
  (forall i, i ∉ (prekeyrecord_getId <$> left_over l b []) -> run (do (CLoadPreKey i)) w' = (Err EInvalidKeyId, w')).
Proof using Hok.
  intros Hm He E. replace start with (start + Z.of_nat 0)%Z in E by lia.
  destruct (stock_inv w start (w_pos w) (generated l) Hm l 0 w [] b w') as (H1 & [H2 H3] & H4); [done|lia|lia| | |exact E|].
  - intros r Hr. by apply elem_of_nil in Hr.
  - split; [constructor|]. intros i x. rewrite He, lookup_empty. split; [done|]. intros (r & Hr & _). by apply elem_of_nil in Hr.
  - split_and!.
    + rewrite H1, <- list_fmap_compose. apply NoDup_fmap_2_strong; [|apply NoDup_seq].
      intros i j Hi Hj Heq. apply elem_of_seq in Hi, Hj. apply (ids_inj start i j (generated l)); [lia..|done|exact Heq].
    + by rewrite H1, fmap_length, seq_length.
    + intros r Hr. rewrite run_do. cbn [step_call].
      rewrite (proj2 (H3 (prekeyrecord_getId r) (pr_enc r))) by (by exists r).
      destruct (H4 r Hr) as (i & _ & ->). by rewrite nth_prekey_reads.
    + intros i Hi. rewrite run_do. cbn [step_call]. destruct (w_prekeys w' !! i) as [x|] eqn:Ex; [|done].
      apply H3 in Ex as (r & Hr & <- & _). destruct Hi. by apply elem_of_list_fmap_1.
Qed.

(** One more than there are numbers. *)
Lemma stock_wrapped n start w : Z.of_nat n = max_prekey_id ->
  exists r rs r' w', stock C [Refill n; Refill 1] start w = ([r :: rs; [r']], w') /\
    prekeyrecord_getId r' = prekeyrecord_getId r /\ run (do (CLoadPreKey (prekeyrecord_getId r))) w' = (Ok r', w') /\
    prekeyrecord_getKeyPair r = Ok (kp_at C w (w_pos w)) /\ prekeyrecord_getKeyPair r' = Ok (kp_at C w (w_pos w + n)).
Proof using Hok.
  intros Hn. destruct n as [|n]; [done|].
  assert (Hid : preKeyId_at start (S n) = preKeyId_at start 0).
  { unfold preKeyId_at, max_prekey_id in *. change (Z.of_N MEDIUM_MAX_VALUE - 1)%Z with 16777214%Z. rewrite Hn.
    replace (start - 1 + 16777214)%Z with (start - 1 + Z.of_nat 0 + 1 * 16777214)%Z by lia. by rewrite Z_mod_plus_full. }
  assert (H0 := refill_run w start (w_pos w) 0 (S n) w eq_refl ltac:(lia)). rewrite Z.add_0_r in H0.
  cbn [stock]. rewrite H0. cbn [Nat.add].
  match goal with |- context [run (generatePreKeys C _ 1) ?x] => rewrite (refill_run w start (w_pos w) (S n) 1 x) by done end.
  change (seq (S n) 1) with [S n]. change (seq 0 (S n)) with (0 :: seq 1 n). rewrite fmap_cons. cbn [fmap list_fmap].
  eexists _, _, _, _. split; [done|].
  destruct (prekey_created C Hok start w 0) as (_ & _ & G1 & _). destruct (prekey_created C Hok start w (S n)) as (G0 & _ & G2 & _).
  split; [by rewrite !nth_id, Hid|]. split; [|split].
  - rewrite run_do. cbn [step_call w_set_prekeys w_prekeys].
    assert (Hl : forall m, storePreKeys [nth_prekey w start (w_pos w) (S n)] m !! prekeyrecord_getId (nth_prekey w start (w_pos w) 0)
              = Some (pr_enc (nth_prekey w start (w_pos w) (S n)))).
    { intros m. unfold storePreKeys. cbn [foldl]. rewrite !nth_id, Hid. apply lookup_insert. }
    rewrite Hl. by rewrite nth_prekey_reads.
  - rewrite <- (Nat.add_0_r (w_pos w)) at 2. exact G1.
  - exact G2.
Qed.
End refill.
