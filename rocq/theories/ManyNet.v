(** Two devices with several sessions and a network (C85). *)
From Verif Require Import PyBase Wire Protos ProtoFacts Crypto Ecc Kdf Messages State Prog Ratchet Builder Cipher Helper.
From Verif Require Import ProgFacts StateFacts UtilFacts HelperFacts MsgFacts CipherFacts DecryptFacts SpecUtil SpecSession SessionProofs HandshakeFacts.
From Verif Require Import InvFacts HistoryProofs SpecKeys KeyProofs SpecEncrypt EncryptProofs Sched SpecConv ConvFacts ConvProofs ConvNet ConvStart SpecMany ManyFacts ManyProofs.

(** ** Lists *)

Lemma omap_step {A B} (f : A -> option B) x l : omap f (x :: l) = match f x with Some b => b :: omap f l | None => omap f l end.
Proof. done. Qed.
Lemma omap_insert_same {A B} (f : A -> option B) (l : list A) n x y : l !! n = Some x -> f y = f x -> omap f (<[n := y]> l) = omap f l.
Proof.
  revert n. induction l as [|z l IH]; intros n Hn Hf; [done|]. destruct n as [|n]; cbn in Hn.
  - injection Hn as ->. change (<[0 := y]> (x :: l)) with (y :: l). rewrite !omap_step. by rewrite Hf.
  - change (<[S n := y]> (z :: l)) with (z :: <[n := y]> l). rewrite !omap_step. by rewrite (IH n Hn Hf).
Qed.
Lemma omap_index {A B} (f : A -> option B) (l : list A) n n' x x' b :
  NoDup (omap f l) -> l !! n = Some x -> l !! n' = Some x' -> f x = Some b -> f x' = Some b -> n = n'.
Proof.
  assert (forall (l : list A) n x, l !! n = Some x -> f x = Some b -> b ∈ omap f l) as Hin.
  { intros k m z Hz Hf. apply elem_of_list_omap. exists z. split; [by eapply elem_of_list_lookup_2|done]. }
  revert n n'. induction l as [|z l IH]; intros n n' Hnd Hn Hn' Hx Hx'; [done|].
  destruct n as [|n], n' as [|n']; cbn in Hn, Hn'; [done| | |].
  - injection Hn as ->. rewrite omap_step, Hx in Hnd. apply NoDup_cons in Hnd as [Hb _]. destruct Hb. by eapply Hin.
  - injection Hn' as ->. rewrite omap_step, Hx' in Hnd. apply NoDup_cons in Hnd as [Hb _]. destruct Hb. by eapply Hin.
  - f_equal. eapply IH; try done. rewrite omap_step in Hnd. destruct (f z); [by apply NoDup_cons in Hnd as [_ ?]|done].
Qed.
Lemma bind_index {A B} (f : A -> list B) (l : list A) n n' x x' b :
  NoDup (l ≫= f) -> l !! n = Some x -> l !! n' = Some x' -> b ∈ f x -> b ∈ f x' -> n = n'.
Proof.
  assert (forall (l : list A) n x, l !! n = Some x -> b ∈ f x -> b ∈ l ≫= f) as Hin.
  { intros k m z Hz Hf. apply elem_of_list_bind. exists z. split; [done|by eapply elem_of_list_lookup_2]. }
  revert n n'. induction l as [|z l IH]; intros n n' Hnd Hn Hn' Hx Hx'; [done|].
  rewrite bind_cons in Hnd. apply NoDup_app in Hnd as (Ha & Hb & Hc).
  destruct n as [|n], n' as [|n']; cbn in Hn, Hn'; [done| | |].
  - injection Hn as ->. destruct (Hb b Hx). by eapply Hin.
  - injection Hn' as ->. destruct (Hb b Hx'). by eapply Hin.
  - f_equal. by eapply IH.
Qed.
Lemma bind_lookup_NoDup {A B} (f : A -> list B) (l : list A) n x : NoDup (l ≫= f) -> l !! n = Some x -> NoDup (f x).
Proof.
  revert n. induction l as [|z l IH]; intros n Hnd Hn; [done|]. rewrite bind_cons in Hnd. apply NoDup_app in Hnd as (Ha & _ & Hc).
  destruct n as [|n]; cbn in Hn; [by injection Hn as ->|by eapply IH].
Qed.
Lemma bind_insert_app {A B} (f : A -> list B) (l : list A) n x y k :
  l !! n = Some x -> f y = f x ++ k -> <[n := y]> l ≫= f ≡ₚ (l ≫= f) ++ k.
Proof.
  revert n. induction l as [|z l IH]; intros n Hn Hf; [done|]. destruct n as [|n]; cbn in Hn.
  - injection Hn as ->. change (<[0 := y]> (x :: l)) with (y :: l). rewrite !bind_cons, Hf, <- !app_assoc. apply Permutation_app_head, Permutation_app_comm.
  - change (<[S n := y]> (z :: l)) with (z :: <[n := y]> l). rewrite !bind_cons, <- app_assoc. apply Permutation_app_head. by apply IH.
Qed.

Lemma lookup_snoc {A} (l : list A) x n y : (l ++ [x]) !! n = Some y -> (n < length l /\ l !! n = Some y) \/ (n = length l /\ y = x).
Proof.
  intros H. destruct (decide (n < length l)) as [Hl|Hl].
  - left. by rewrite lookup_app_l in H by done.
  - right. rewrite lookup_app_r in H by lia. apply list_lookup_singleton_Some in H as [Hn <-]. split; [lia|done].
Qed.

(** ** Devices *)

Definition tn (n : nat) (D : device) : nat := match party_of n D with Some p => p_turn p | None => 0 end.
Lemma tn_cons n k p D : tn n ((k, p) :: D) = if decide (k = n) then p_turn p else tn n D.
Proof. unfold tn. rewrite party_of_cons. cbn [fst snd]. by case_decide. Qed.
Lemma party_of_others n k D : n <> k -> party_of n (others_of k D) = party_of n D.
Proof.
  intros Hne. unfold others_of. induction D as [|[m q] D IH]; [done|]. rewrite filter_cons, party_of_cons. cbn [fst snd].
  destruct (decide (m = k)) as [->|Hm].
  - rewrite decide_False by naive_solver. rewrite (decide_False (P := k = n)) by congruence. done.
  - rewrite decide_True by done. rewrite party_of_cons. cbn [fst snd]. by rewrite IH.
Qed.
Lemma tn_moved n k p D : tn n ((k, p) :: others_of k D) = if decide (k = n) then p_turn p else tn n D.
Proof. rewrite tn_cons. case_decide; [done|]. unfold tn. by rewrite party_of_others by congruence. Qed.
Lemma in_moved n k p D : k ∈ D.*1 -> n ∈ ((k, p) :: others_of k D).*1 <-> n ∈ D.*1.
Proof.
  intros Hk. cbn [fmap list_fmap fst]. rewrite elem_of_cons. destruct (decide (n = k)) as [->|Hne]; [naive_solver|].
  split.
  - intros [?|H]; [done|]. apply elem_of_list_fmap in H as (y & -> & Hy). apply elem_of_list_fmap. exists y. split; [done|]. by apply elem_of_list_filter in Hy as [_ ?].
  - intros H. right. apply elem_of_list_fmap in H as (y & -> & Hy). apply elem_of_list_fmap. exists y. split; [done|]. by apply elem_of_list_filter.
Qed.
Lemma tn_pos n D : 1 <= tn n D -> n ∈ D.*1.
Proof.
  unfold tn. destruct (party_of n D) as [p|] eqn:E; [|lia]. intros _. apply party_of_lookup in E as [j Hj].
  apply elem_of_list_fmap. exists (n, p). split; [done|]. by eapply elem_of_list_lookup_2.
Qed.
Lemma others_not_in n D : n ∉ D.*1 -> others_of n D = D.
Proof.
  unfold others_of. induction D as [|[k q] D IH]; intros Hn; [done|]. cbn [fmap list_fmap fst] in Hn. apply not_elem_of_cons in Hn as [H1 H2].
  rewrite filter_cons, decide_True by (cbn; congruence). f_equal. by apply IH.
Qed.

Section net.
Context (C : crypto) (Hok : crypto_ok C) (SP : bytes -> Prop).

Definition mkeys (S : sess) : list bytes := dt_base (s_det S) :: (kp_pub <$> drop 1 (s_ks S)).
Definition used (Σ : list sess) : list bytes := Σ ≫= mkeys.
Definition clean (l : list bytes) : Prop := NoDup l /\ forall k, SP k -> k ∉ l.
Lemma clean_sub l k : k ⊆+ l -> clean l -> clean k.
Proof using.
  intros Hs [H1 H2]. split.
  - apply submseteq_Permutation in Hs as [k' Hk]. rewrite Hk in H1. by apply NoDup_app in H1 as [? _].
  - intros x Hx Hin. apply (H2 x Hx). by eapply elem_of_submseteq.
Qed.
Lemma used_step Σ n S ek : Σ !! n = Some S -> 1 <= length (s_ks S) -> used (<[n := s_more [ek] S]> Σ) ≡ₚ used Σ ++ [kp_pub ek].
Proof using.
  intros HS Hl. apply bind_insert_app with S; [done|]. unfold mkeys, s_more. cbn [s_ks s_det].
  rewrite drop_app_le by done. rewrite fmap_app. done.
Qed.
Lemma drawn_in w w' k : w_pos w <= k < w_pos w' -> kp_pub (kp_at C w k) ∈ drawn C w w'.
Proof using.
  intros H. unfold drawn. apply elem_of_list_fmap. exists k. split; [done|]. apply elem_of_seq. lia.
Qed.

(** ** The relation *)

(** Sessions are named by their starter: [side] is true for A. *)
Definition sok (idA idB : keypair) (S : sess) : Prop :=
  (exists pid, dt_pid (s_det S) = Some pid) /\ genuine C (s_otpk S) /\
  mkdf C (secretB C (if s_first S then idB else idA) (kth (s_ks S) 0) (Some (s_otpk S))
            (kp_pub (if s_first S then idA else idB)) (dt_base (s_det S))) = (s_r0 S, s_c0 S).
Definition grel (idA idB : keypair) (Σ : list sess) (DA DB : device) : Prop :=
  forall n S, Σ !! n = Some S -> Forall (genuine C) (s_ks S) /\ details_ok (s_det S) /\ sok idA idB S /\ SP (kp_pub (kth (s_ks S) 0)) /\
    length (s_ks S) = Datatypes.S (tn n DA `max` tn n DB) /\ (tn n DA = Datatypes.S (tn n DB) \/ tn n DB = Datatypes.S (tn n DA)) /\
    (exists k, tn n (if s_first S then DA else DB) = Datatypes.S (2 * k)) /\ (exists k, tn n (if s_first S then DB else DA) = 2 * k).

Lemma grel_apart idA idB Σ DA DB : grel idA idB Σ DA DB -> clean (used Σ) -> apart C Σ.
Proof using.
  intros Hg [Hnd Hsp]. split_and!.
  - intros n S HS. destruct (Hg _ _ HS) as (H1 & H2 & _ & H4 & H5 & _). split_and!; try done.
    pose proof (bind_lookup_NoDup _ _ _ _ Hnd HS) as Hm. unfold mkeys in Hm. apply NoDup_cons in Hm as [_ Hm].
    destruct (s_ks S) as [|k0 ks] eqn:E; [done|]. cbn [fmap list_fmap]. constructor; [|done].
    intros Hin. apply (Hsp (kp_pub k0)); [done|]. apply elem_of_list_bind. exists S. split; [|by eapply elem_of_list_lookup_2].
    unfold mkeys. rewrite E. by right.
  - intros n n' S S' l y Hne HS HS' Hl Hy He.
    assert (kp_pub (kth (s_ks S) l) ∈ mkeys S) as Hin.
    { unfold mkeys. right. rewrite fmap_drop. apply elem_of_list_lookup. exists (l - 1). rewrite lookup_drop.
      replace (1 + (l - 1)) with l by lia. apply kth_lookup. lia. }
    destruct y as [|y].
    + destruct (Hg _ _ HS') as (_ & _ & _ & H4 & _). apply (Hsp _ H4). rewrite <- He.
      apply elem_of_list_bind. exists S. split; [done|by eapply elem_of_list_lookup_2].
    + apply Hne. eapply (bind_index mkeys Σ); [done|done|done|exact Hin|]. rewrite He. unfold mkeys. right. rewrite fmap_drop.
      apply elem_of_list_lookup. exists y. rewrite lookup_drop. by apply kth_lookup.
  - intros n n' S S' Hne HS HS' He. apply Hne. eapply (bind_index mkeys Σ); [done|done|done|by left|]. rewrite He. by left.
Qed.

(** What a device holds for the sessions that its peer started or will start. *)
Definition pid_of (side : bool) (S : sess) : option (option N) := if ours side S then None else Some (dt_pid (s_det S)).
Definition hrel (side : bool) (idme : keypair) (Σ : list sess) (w : world) (D : device) (fut : list preKeyBundle) : Prop :=
  w_identity w = idme /\ (w_regid w < 2 ^ 32)%N /\
  (forall n S pid, Σ !! n = Some S -> ours side S = false -> n ∉ D.*1 -> dt_pid (s_det S) = Some pid ->
     holds_signed w (dt_sid (s_det S)) (kth (s_ks S) 0) /\ holds_prekey w pid (s_otpk S)) /\
  Forall (fun b => exists spk i otpk, bundle_of C w b spk (Some (i, otpk)) /\ SP (kp_pub spk)) fut /\
  NoDup (omap (pid_of side) Σ ++ (bu_preKeyId <$> fut)).

Lemma hrel_rest side idme Σ w w' D fut : rest w w' -> hrel side idme Σ w D fut -> hrel side idme Σ w' D fut.
Proof using.
  intros (R1 & R2 & R3 & R4) (H1 & H2 & H3 & H4 & H5). unfold hrel, bundle_of, holds_signed, holds_prekey in *. rewrite R1, R2, R3, R4. done.
Qed.
Lemma hrel_more side idme Σ n S ek w D D' fut :
  Σ !! n = Some S -> 1 <= length (s_ks S) -> (forall k, k ∈ D.*1 -> k ∈ D'.*1) ->
  hrel side idme Σ w D fut -> hrel side idme (<[n := s_more [ek] S]> Σ) w D' fut.
Proof using.
  intros HS Hl HD (H1 & H2 & H3 & H4 & H5). split_and!; try done.
  - intros n' S' pid HS' Ho Hn' Hpid.
    assert (exists S0, Σ !! n' = Some S0 /\ ours side S0 = false /\ dt_pid (s_det S0) = Some pid /\ s_det S' = s_det S0 /\
      kth (s_ks S') 0 = kth (s_ks S0) 0 /\ s_otpk S' = s_otpk S0) as (S0 & HS0 & Ho0 & Hp0 & -> & -> & ->).
    { destruct (decide (n' = n)) as [->|Hne].
      - rewrite list_lookup_insert in HS' by (by eapply lookup_lt_Some). injection HS' as <-. exists S. split_and!; try done.
        by apply kth_app.
      - rewrite list_lookup_insert_ne in HS' by done. by exists S'. }
    eapply H3; try done. intros Hin. by apply Hn', HD.
  - by rewrite (omap_insert_same _ _ _ S).
Qed.
Lemma hrel_mono side idme Σ w D D' fut : (forall k, k ∈ D.*1 -> k ∈ D'.*1) -> hrel side idme Σ w D fut -> hrel side idme Σ w D' fut.
Proof using.
  intros HD (H1 & H2 & H3 & H4 & H5). split_and!; try done. intros n S pid HS Ho Hn. eapply H3; try done. intros ?. by apply Hn, HD.
Qed.

(** A one-time prekey is used up. *)
Lemma hrel_used side idme Σ n S pid w w' D fut :
  Σ !! n = Some S -> ours side S = false -> n ∈ D.*1 -> dt_pid (s_det S) = Some pid ->
  w_signed w' = w_signed w -> w_identity w' = w_identity w -> w_regid w' = w_regid w ->
  w_prekeys w' = w_prekeys w \/ w_prekeys w' = delete pid (w_prekeys w) ->
  hrel side idme Σ w D fut -> hrel side idme Σ w' D fut.
Proof using.
  intros HS Ho Hn Hpid R2 R3 R4 [R1|R1] H; [by eapply hrel_rest|]. destruct H as (H1 & H2 & H3 & H4 & H5).
  assert (forall i k, i <> pid -> holds_prekey w i k -> holds_prekey w' i k) as Hk.
  { intros i k Hne (bs & pr & Hb & Hx). exists bs, pr. by rewrite R1, lookup_delete_ne. }
  split_and!; try congruence.
  - intros n' S' pid' HS' Ho' Hn' Hpid'. destruct (H3 n' S' pid' HS' Ho' Hn' Hpid') as [A1 A2].
    split; [unfold holds_signed in *; by rewrite R2|]. apply Hk; [|done]. intros ->. apply Hn'.
    apply NoDup_app in H5 as [H5 _].
    assert (n' = n) as ->; [|done]. eapply (omap_index (pid_of side) Σ n' n S' S (Some pid)); try done; unfold pid_of; by rewrite ?Ho, ?Ho', ?Hpid, ?Hpid'.
  - rewrite Forall_forall in *. intros b Hb. destruct (H4 b Hb) as (spk & i & otpk & (B1 & B2 & B3 & B4 & B5 & B6 & B7 & B8 & (B9 & B10 & B11 & B12 & B13)) & Bs).
    exists spk, i, otpk. split; [|done]. unfold bundle_of, holds_signed in *. rewrite R2, R3. split_and!; try done. apply Hk; [|done].
    intros ->. apply NoDup_app in H5 as (_ & H5 & _). apply (H5 (Some pid)).
    + apply elem_of_list_omap. exists S. split; [by eapply elem_of_list_lookup_2|]. unfold pid_of. by rewrite Ho, Hpid.
    + apply elem_of_list_fmap. by exists b.
Qed.
(** Another session. *)
Lemma hrel_ours side idme Σ S w D fut : ours side S = true -> hrel side idme Σ w D fut -> hrel side idme (Σ ++ [S]) w D fut.
Proof using.
  intros Ho (H1 & H2 & H3 & H4 & H5). split_and!; try done.
  - intros n S' pid HS'. apply lookup_snoc in HS' as [[_ HS']|[_ ->]]; [by eapply H3|congruence].
  - rewrite omap_app. cbn. unfold pid_of at 2. rewrite Ho. by rewrite app_nil_r.
Qed.
Lemma hrel_theirs side idme Σ S w D b fut pid :
  ours side S = false -> dt_pid (s_det S) = Some pid -> bu_preKeyId b = Some pid ->
  holds_signed w (dt_sid (s_det S)) (kth (s_ks S) 0) -> holds_prekey w pid (s_otpk S) ->
  hrel side idme Σ w D (b :: fut) -> hrel side idme (Σ ++ [S]) w D fut.
Proof using.
  intros Ho Hpid Hb Hs Hp (H1 & H2 & H3 & H4 & H5). split_and!; try done.
  - intros n S' pid' HS'. apply lookup_snoc in HS' as [[_ HS']|[_ ->]]; [by eapply H3|].
    intros _ _ Hpid'. rewrite Hpid in Hpid'. injection Hpid' as <-. done.
  - by apply Forall_cons in H4 as [_ ?].
  - rewrite omap_app. cbn. unfold pid_of at 2. rewrite Ho, Hpid, <- app_assoc. cbn. by rewrite <- Hb.
Qed.

(** A message on the wire; the side is the sender's. *)
Definition msgrel (side : bool) (snd rcv : bytes) (Σ : list sess) (DS DR : device) (x : wire) (mg : mmsg) : Prop :=
  exists S, Σ !! mg.1 = Some S /\ wrel C (s_r0 S) (s_c0 S) (s_ks S) (out_of side S) snd rcv x mg.2 /\
    1 <= mg.2.1.1 <= tn mg.1 DS /\ (exists k, mg.2.1.1 = if ours side S then Datatypes.S (2 * k) else 2 * k) /\
    (x.1 = false -> mg.1 ∈ DR.*1).
Lemma msgrel_mono side snd rcv Σ Σ' DS DS' DR DR' x mg :
  grows Σ Σ' -> (forall n, tn n DS <= tn n DS') -> (forall k, k ∈ DR.*1 -> k ∈ DR'.*1) ->
  msgrel side snd rcv Σ DS DR x mg -> msgrel side snd rcv Σ' DS' DR' x mg.
Proof using.
  intros Hg HDS HDR (S & H1 & H2 & H3 & H4 & H5). destruct (Hg _ _ H1) as [l Hl]. exists (s_more l S). split_and!; try done.
  - by apply wrel_app.
  - lia.
  - specialize (HDS mg.1). lia.
  - auto.
Qed.
Lemma msgs_mono side snd rcv Σ Σ' DS DS' DR DR' xs mgs :
  grows Σ Σ' -> (forall n, tn n DS <= tn n DS') -> (forall k, k ∈ DR.*1 -> k ∈ DR'.*1) ->
  Forall2 (msgrel side snd rcv Σ DS DR) xs mgs -> Forall2 (msgrel side snd rcv Σ' DS' DR') xs mgs.
Proof using. intros H1 H2 H3 H. eapply Forall2_impl; [exact H|]. intros. by eapply msgrel_mono. Qed.

Definition room (l : list move) (D : device) : Prop := Forall (fun x : nat * party => (p_sent x.2 + N.of_nat (length l) < 2 ^ 32)%N) D.

Definition nrelm (idA idB : keypair) (rA dA rB dB : Z) (Σ : list sess) (l : list move) (n : net) (y : many) : Prop :=
  grel idA idB Σ (y_A y) (y_B y) /\
  devrel C true (kp_pub idA) (kp_pub idB) rB dB Σ (fun k => k ∈ (y_B y).*1) (n_A n) (y_A y) /\
  devrel C false (kp_pub idB) (kp_pub idA) rA dA Σ (fun k => k ∈ (y_A y).*1) (n_B n) (y_B y) /\
  hrel true idA Σ (n_A n) (y_A y) (renewalsB l) /\ hrel false idB Σ (n_B n) (y_B y) (renewalsA l) /\
  Forall2 (msgrel true (kp_pub idA) (kp_pub idB) Σ (y_A y) (y_B y)) (n_fromA n) (y_fromA y) /\
  Forall2 (msgrel false (kp_pub idB) (kp_pub idA) Σ (y_B y) (y_A y)) (n_fromB n) (y_fromB y) /\
  y_count y = length Σ /\ room l (y_A y) /\ room l (y_B y) /\
  length Σ + length (renewalsA l) + length (renewalsB l) <= 41 /\ (N.of_nat (length l) < 2 ^ 32)%N.

Lemma devrel_range side me them r d Σ K w D : devrel C side me them r d Σ K w D -> Forall (fun x : nat * party => x.1 < length Σ) D /\ length D <= length Σ.
Proof using.
  intros (rec & _ & Hnd & _ & HF). assert (Forall (fun x : nat * party => x.1 < length Σ) D) as Hr.
  { destruct D as [|x D]; [constructor|]. apply Forall_forall. intros z (j & Hj)%elem_of_list_lookup.
    destruct (Forall2_lookup_r _ _ _ _ _ HF Hj) as (s & _ & (S & HS & _)). by eapply lookup_lt_Some. }
  split; [done|]. rewrite <- (fmap_length fst D), <- (seq_length (length Σ) 0).
  apply submseteq_length, NoDup_submseteq; [done|]. intros k (z & -> & Hz)%elem_of_list_fmap. rewrite Forall_forall in Hr. apply Hr in Hz. apply elem_of_seq. lia.
Qed.

Definition freshm (Σ : list sess) (n n' : net) : Prop := clean (used Σ ++ drawn C (n_A n) (n_A n') ++ drawn C (n_B n) (n_B n')).
End net.
