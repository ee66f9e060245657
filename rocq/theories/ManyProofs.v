(** One device with several sessions against the conversation in several sessions (C85). *)
From Verif Require Import PyBase Wire Protos ProtoFacts Crypto Ecc Kdf Messages State Prog Ratchet Builder Cipher Helper.
From Verif Require Import ProgFacts StateFacts UtilFacts HelperFacts MsgFacts CipherFacts DecryptFacts SpecUtil SpecSession SessionProofs HandshakeFacts.
From Verif Require Import InvFacts HistoryProofs SpecKeys KeyProofs SpecEncrypt EncryptProofs Sched SpecConv ConvFacts ConvProofs ConvNet ConvStart SpecMany ManyFacts.

(** ** Sessions *)

(** A session: root and chain key at its start, its ratchet key pairs, whether A started it,
    what its prekey messages say, the one-time prekey. *)
Record sess := Sess { s_r0 : bytes; s_c0 : bytes; s_ks : list keypair; s_first : bool; s_det : details; s_otpk : keypair }.
Definition s_more (l : list keypair) (S : sess) : sess := Sess (s_r0 S) (s_c0 S) (s_ks S ++ l) (s_first S) (s_det S) (s_otpk S).

(** ** Devices as lists *)

Lemma party_of_cons n x l : party_of n (x :: l) = if decide (x.1 = n) then Some x.2 else party_of n l.
Proof. unfold party_of. rewrite filter_cons. by case_decide. Qed.
Lemma party_of_lookup n p l : party_of n l = Some p -> exists j, l !! j = Some (n, p).
Proof.
  induction l as [|[k q] l IH]; [done|]. rewrite party_of_cons. cbn [fst snd]. case_decide as E.
  - intros [= ->]. exists 0. by subst.
  - intros (j & Hj)%IH. by exists (S j).
Qed.
Lemma party_of_none n l : party_of n l = None <-> n ∉ l.*1.
Proof.
  induction l as [|[k q] l IH]; [cbn; split; [by intros _ ?%elem_of_nil|done]|]. rewrite party_of_cons. cbn [fst snd fmap list_fmap]. rewrite elem_of_cons.
  case_decide as E; [split; [done|]; intros H; destruct H; auto|]. rewrite IH. naive_solver.
Qed.
Lemma party_of_in n l j p : NoDup l.*1 -> l !! j = Some (n, p) -> party_of n l = Some p.
Proof.
  revert j. induction l as [|[k q] l IH]; intros j Hnd Hj; [done|]. rewrite party_of_cons. cbn [fst snd]. apply NoDup_cons in Hnd as [Hk Hnd].
  destruct j as [|j]; cbn in Hj.
  - injection Hj as -> ->. by rewrite decide_True.
  - rewrite decide_False; [by eapply IH|]. intros ->. apply Hk. apply elem_of_list_fmap. exists (n, p). split; [done|]. by eapply elem_of_list_lookup_2.
Qed.
Lemma others_of_delete n l j p : NoDup l.*1 -> l !! j = Some (n, p) -> others_of n l = delete j l.
Proof.
  unfold others_of. revert j. induction l as [|[k q] l IH]; intros j Hnd Hj; [done|]. apply NoDup_cons in Hnd as [Hk Hnd]. rewrite filter_cons. cbn [fst].
  destruct j as [|j]; cbn in Hj.
  - injection Hj as -> ->. rewrite decide_False by naive_solver. cbn [delete list_delete]. clear IH Hnd.
    induction l as [|[k q'] l IH]; [done|]. cbn [fmap list_fmap fst] in Hk. apply not_elem_of_cons in Hk as [Hk1 Hk2].
    rewrite filter_cons, decide_True by (cbn; congruence). f_equal. by apply IH.
  - rewrite decide_True. { cbn [delete list_delete]. f_equal. by apply IH. }
    intros ->. apply Hk. apply elem_of_list_fmap. exists (n, p). split; [done|]. by eapply elem_of_list_lookup_2.
Qed.

Lemma forall_or {A} (P : Prop) (Q : nat -> A -> Prop) (l : list A) :
  (forall k s, l !! k = Some s -> P \/ Q k s) -> P \/ forall k s, l !! k = Some s -> Q k s.
Proof.
  revert Q. induction l as [|x l IH]; intros Q H; [by right|].
  destruct (H 0 x eq_refl) as [?|H0]; [by left|].
  destruct (IH (fun k => Q (S k))) as [?|H1]; [|by left|].
  - intros k s. apply (H (S k)).
  - right. intros [|k] s Hs; [by injection Hs as <-|]. by apply H1.
Qed.

(** Nothing but sessions, trusted identities and the random stream differs. *)
Definition rest (w w' : world) : Prop :=
  w_prekeys w' = w_prekeys w /\ w_signed w' = w_signed w /\ w_identity w' = w_identity w /\ w_regid w' = w_regid w.
Lemma rest_trans w w1 w2 : rest w w1 -> rest w1 w2 -> rest w w2.
Proof. unfold rest. intros (?&?&?&?) (?&?&?&?). split_and!; congruence. Qed.

Section device.
Context (C : crypto) (Hok : crypto_ok C) (side : bool) (me them : bytes) (r d : Z).
Context (Hme : length me = 32) (Hthem : length them = 32).

(** The prekey details of messages that this device, or its peer, sends. *)
Definition ours (S : sess) : bool := Bool.eqb (s_first S) side.
Definition out_of (S : sess) : option details := if ours S then Some (s_det S) else None.
Definition in_of (S : sess) : option details := if ours S then None else Some (s_det S).

Definition strel0 (Σ : list sess) (s : ss_s) (x : nat * party) : Prop :=
  exists S, Σ !! x.1 = Some S /\ srel C (s_r0 S) (s_c0 S) me them (s_ks S) s x.2.
Definition strel (Σ : list sess) (K : nat -> Prop) (s : ss_s) (x : nat * party) : Prop :=
  exists S, Σ !! x.1 = Some S /\ srel C (s_r0 S) (s_c0 S) me them (s_ks S) s x.2 /\
    1 <= p_turn x.2 /\ ss_aliceBaseKey s = Some (pub_serialize (dt_base (s_det S))) /\
    pending_ok (out_of S) s /\ (ours S = true -> ss_pendingPreKey s = None -> K x.1).
Lemma strel_strel0 Σ K s x : strel Σ K s x -> strel0 Σ s x.
Proof. intros (S & ? & ? & _). by exists S. Qed.

Definition devrel (Σ : list sess) (K : nat -> Prop) (w : world) (D : device) : Prop :=
  exists rec, session_at w r d = Ok rec /\ NoDup D.*1 /\ trusts w r them /\
    match D with
    | [] => w_sessions w !! (r, d) = None
    | _ => Forall2 (strel Σ K) (sr_states rec) D
    end.

(** Sessions only grow. *)
Definition grows (Σ Σ' : list sess) : Prop := forall n S, Σ !! n = Some S -> exists l, Σ' !! n = Some (s_more l S).
Lemma strel_grows Σ Σ' (K K' : nat -> Prop) s x : grows Σ Σ' -> (forall n, K n -> K' n) -> strel Σ K s x -> strel Σ' K' s x.
Proof using.
  intros Hg HK (S & H1 & H2 & H3 & H4 & H5 & H6). destruct (Hg _ _ H1) as [l Hl]. exists (s_more l S). split_and!; try done.
  - by apply srel_app.
  - intros Ha Hb. apply HK. by apply H6.
Qed.
Lemma devrel_grows Σ Σ' (K K' : nat -> Prop) w D : grows Σ Σ' -> (forall n, K n -> K' n) -> devrel Σ K w D -> devrel Σ' K' w D.
Proof using.
  intros Hg HK (rec & H1 & H2 & H3 & H4). exists rec. split_and!; try done. destruct D; [done|].
  eapply Forall2_impl; [done|]. intros. by eapply strel_grows.
Qed.

(** Keys of different sessions differ. *)
Definition apart (Σ : list sess) : Prop :=
  (forall n S, Σ !! n = Some S -> Forall (genuine C) (s_ks S) /\ NoDup (kp_pub <$> s_ks S) /\ details_ok (s_det S)) /\
  (forall n n' S S' l y, n <> n' -> Σ !! n = Some S -> Σ !! n' = Some S' -> 1 <= l < length (s_ks S) -> y < length (s_ks S') ->
     kp_pub (kth (s_ks S) l) <> kp_pub (kth (s_ks S') y)) /\
  (forall n n' S S', n <> n' -> Σ !! n = Some S -> Σ !! n' = Some S' -> dt_base (s_det S) <> dt_base (s_det S')).

Lemma find_foreign r0 c0 ks s p k :
  Forall (genuine C) ks -> srel C r0 c0 me them ks s p -> (forall y, y < length ks -> k <> kp_pub (kth ks y)) ->
  find_chain k (ss_receiverChains s) 0 = Ok None.
Proof using Hok Hme Hthem.
  intros Hgen (H1 & _ & _ & _ & _ & _ & H7 & _) Hk. apply find_chain_none, Forall_forall.
  intros x (j & Hj)%elem_of_list_lookup. destruct (Forall2_lookup_r _ _ _ _ _ H7 Hj) as (y & Hy & Hxy).
  assert (y ∈ kept (p_turn p)) as Hin by (by eapply elem_of_list_lookup_2). pose proof (kept_lt _ _ Hin).
  exists (kp_pub (kth ks y)). split; [eapply (crel_pub C Hok); [done| |done]; lia|]. intros He. apply (Hk y); [lia|done].
Qed.

(** ** A message at a record with several sessions *)

Definition confused (rec : sessionRecord) (D : device) (n l : nat) (m : whisperMessage) : Prop :=
  exists j s n' p, sr_states rec !! j = Some s /\ D !! j = Some (n', p) /\ (n' <> n \/ l + 9 < p_turn p) /\ mac_fits C s m.

Lemma mrecv_record Σ rec D n S w j p l i pt m :
  apart Σ -> rec_wf rec -> Forall2 (strel0 Σ) (sr_states rec) D -> NoDup D.*1 ->
  Σ !! n = Some S -> D !! j = Some (n, p) -> 1 <= l ->
  mrel C (s_r0 S) (s_c0 S) (s_ks S) them me (l, i, pt) m -> arrives (s_ks S) (p_turn p) l ->
  confused rec D n l m \/
  match iopen (l, i, pt) p with
  | Ok (q, p') => exists k w1 s s', sr_states rec !! j = Some s /\
      run (decryptWithSessionRecord C rec m) w = (Ok (q, record_after j s' rec), w1) /\ same_stores w w1 /\
      w_pos w <= k <= w_pos w1 /\ (p_turn p < l -> w_pos w1 = Datatypes.S k) /\ ss_wf s' /\
      srel C (s_r0 S) (s_c0 S) me them (if (p_turn p <? l)%nat then s_ks S ++ [kp_at C w k] else s_ks S) s' p' /\
      ss_pendingPreKey s' = None /\ ss_aliceBaseKey s' = ss_aliceBaseKey s
  | Err e => exists w1, run (decryptWithSessionRecord C rec m) w = (Err e, w1) /\ same_stores w w1
  end.
Proof using Hok Hme Hthem.
  intros (HS & Hap & _) Hwf HF Hnd HSn Hj Hl1 Hm Harr.
  destruct (HS _ _ HSn) as (Hgen & Hndk & _).
  destruct (Forall2_lookup_r _ _ _ _ _ HF Hj) as (s & Hs & (S' & HS' & Hrel)). cbn [fst snd] in HS', Hrel.
  rewrite HSn in HS'. injection HS' as <-.
  assert (forall k t, sr_states rec !! k = Some t -> ss_wf t) as Hwfs.
  { intros k t Ht. destruct Hwf as [W1 W2]. destruct k as [|k]; [by injection Ht as <-|]. exact (Forall_lookup_1 _ _ _ _ W2 Ht). }
  assert (confused rec D n l m \/ forall k t, sr_states rec !! k = Some t -> k <> j -> verdict C t m = Err EInvalidMessage) as [?|Hoth]; [|by left|].
  { apply forall_or. intros k t Ht. destruct (decide (k = j)) as [->|Hne]; [right; done|].
    destruct (Forall2_lookup_l _ _ _ _ _ HF Ht) as ([n' p'] & Hk & (S' & HS' & Hrel')). cbn [fst snd] in HS', Hrel'.
    assert (n' <> n) as Hnn.
    { intros ->. apply Hne. eapply (NoDup_lookup D.*1); [done| |]; rewrite list_lookup_fmap, ?Hk, ?Hj; done. }
    destruct (HS _ _ HS') as (Hgen' & _).
    destruct Hm as (M1 & M2 & M3 & M4 & M5 & _ & M7).
    destruct (foreign C Hok _ _ me them Hme Hthem (s_ks S') t p' m zeroKp Hgen' (Hwfs _ _ Ht) Hrel' zeroKp_ok M2) as [Hfit|Hv].
    - rewrite M3. by apply (genuine_pub_len C Hok), kth_genuine.
    - by rewrite M4.
    - pose proof (whisper_parse_length _ _ M7). lia.
    - rewrite M3. eapply find_foreign; [done|done|]. intros y Hy. eapply (Hap n n'); try done; lia.
    - left. exists k, t, n', p'. split_and!; auto.
    - right. intros _. by apply (verdict_err C t m zeroKp _ zeroKp_ok). }
  pose proof (home C Hok (s_r0 S) (s_c0 S) me them Hme Hthem (s_ks S) s p l i pt m Hgen Hndk (Hwfs _ _ Hs) Hrel Hm Harr) as Hh.
  destruct (iopen (l, i, pt) p) as [[q p']|e].
  - right. assert (verdict C s m = Ok q) as Hv.
    { pose (ek := kp_at C w 0). destruct (Hh ek (kp_at_genuine C Hok _ _)) as (s' & Hd & _).
      apply (verdict_ok C s m ek); [apply (kp_at_ok C Hok)|]. by exists s'. }
    destruct (record_success C Hok rec m w j s q Hs) as (k & w1 & s' & H1 & H2 & H3 & H4 & H5); [|done|].
    { intros k t Hk Ht. apply (Hoth k t Ht). lia. }
    destruct (Hh (kp_at C w k) (kp_at_genuine C Hok _ _)) as (s2 & Hd & Hr2 & Hp2 & Hb2 & Hf2).
    rewrite H1 in Hd. injection Hd as <-. exists k, w1, s, s'. split_and!; try done; try lia.
    + intros Hlt. apply H5. by apply Hf2.
    + by eapply decryptPure_wf, H1; eapply Hwfs.
  - destruct Hh as [Hv|[Hdrop Hfit]]; [|left; exists j, s, n, p; auto].
    right. apply (record_refuses C Hok). left. exists j, s. split_and!; try done.
    + intros k t Hk Ht. apply (Hoth k t Ht). lia.
    + intros -> k t Ht. destruct (decide (k = j)) as [->|Hne]; [|by apply (Hoth k)]. rewrite Hs in Ht. by injection Ht as <-.
Qed.

(** ** Sending *)

Lemma devrel_pos Σ K w D : D <> [] -> devrel Σ K w D -> is_Some (w_sessions w !! (r, d)) /\
  exists rec, session_at w r d = Ok rec /\ sr_fresh rec = false /\ rec_wf rec /\ NoDup D.*1 /\ trusts w r them /\ Forall2 (strel Σ K) (sr_states rec) D.
Proof using.
  destruct D as [|x D]; [done|]. intros _ (rec & H1 & H2 & H3 & H4). pose proof H4 as HF.
  apply Forall2_cons_inv_r in H4 as (s & ss & (S & _ & (_ & _ & _ & _ & _ & (c & Hc & _) & _) & _) & _ & Hst).
  assert (rec <> sr_new) as Hne. { intros ->. unfold sr_states in Hst. injection Hst as <- <-. done. }
  split.
  - unfold session_at in H1. destruct (w_sessions w !! (r, d)); [eauto|]. by injection H1 as <-.
  - exists rec. split_and!; try done.
    + destruct (sr_fresh rec) eqn:E; [|done]. by eapply session_at_fresh in H1.
    + by eapply loaded_wf.
Qed.

Lemma devrel_stored Σ K w' rec D :
  session_at w' r d = Ok rec -> D <> [] -> NoDup D.*1 -> trusts w' r them -> Forall2 (strel Σ K) (sr_states rec) D -> devrel Σ K w' D.
Proof using. intros H1 H2 H3 H4 H5. exists rec. split_and!; try done. by destruct D. Qed.

Lemma msend_run Σ K w n p D pt :
  apart Σ -> devrel Σ K w ((n, p) :: D) -> (p_sent p + 1 < 2 ^ 32)%N ->
  exists ct w' S, run (encrypt C r d pt) w = (Ok ct, w') /\ Σ !! n = Some S /\
    wrel C (s_r0 S) (s_c0 S) (s_ks S) (out_of S) me them (ct_wire ct) (p_turn p, p_sent p, pt) /\
    devrel Σ K w' ((n, Party (p_turn p) (p_sent p + 1) (p_got p) true) :: D) /\
    w_pos w' = w_pos w /\ rest w w' /\ 1 <= p_turn p /\ ((ct_wire ct).1 = false -> ours S = true -> K n).
Proof using Hok Hme Hthem.
  intros (HS & _) Hd Hsent. apply devrel_pos in Hd as (_ & rec & Hrec & _ & _ & Hnd & Ht & HF); [|done].
  apply Forall2_cons_inv_r in HF as (s & ss & Hst & HF & Heq). injection Heq as <- <-.
  pose proof Hst as (S & HSn & Hs & Hturn & Hbase & Hpend & HK). cbn [fst snd] in *.
  destruct (HS _ _ HSn) as (Hgen & Hndk & Hdet).
  assert (forall x, out_of S = Some x -> details_ok x) as Hout.
  { unfold out_of. destruct (ours S); [|done]. by intros x [= <-]. }
  set (p1 := Party (p_turn p) (p_sent p) (p_got p) (SpecConv.alone rec)).
  assert (drel C (s_r0 S) (s_c0 S) (out_of S) None me them r d (s_ks S) w p1) as Hdr.
  { exists rec. split_and!; done. }
  destruct (send C Hok (s_r0 S) (s_c0 S) (out_of S) None me them r d Hme Hthem Hout (s_ks S) w p1 pt Hgen Hdr Hsent)
    as (ct & w' & Hrun & Hw & (rec' & Hrec' & Hs' & Hp' & _) & Hpos & Hpk).
  destruct (encrypt_ok C Hok _ _ _ _ _ _ Hrun) as (rec0 & Hr0 & _ & Hst' & ->). rewrite Hrec in Hr0. injection Hr0 as <-.
  rewrite Hst' in Hrec'. injection Hrec' as <-. cbn [sr_state] in Hs', Hp'.
  exists ct. eexists. exists S. split; [exact Hrun|]. split_and!; try done.
  - eapply devrel_stored; [exact Hst'|done|done|done|]. constructor; [|done]. exists S. split_and!; done.
  - intros Hf Ho. apply HK; [done|]. destruct (ss_pendingPreKey (sr_state rec)) eqn:E; [|done].
    destruct (Hpk rec Hrec) as [Htrue _]; [by rewrite E|]. rewrite Htrue in Hf. done.
Qed.

(** ** Receiving in a session that is there *)

Lemma insert_grows Σ n S ek : Σ !! n = Some S -> grows Σ (<[n := s_more [ek] S]> Σ).
Proof using.
  intros Hn n' S' HS'. destruct (decide (n' = n)) as [->|Hne].
  - rewrite Hn in HS'. injection HS' as <-. exists [ek]. apply list_lookup_insert. by eapply lookup_lt_Some.
  - exists []. rewrite list_lookup_insert_ne by done. unfold s_more. rewrite app_nil_r, HS'. by destruct S'.
Qed.
Lemma grows_refl Σ : grows Σ Σ.
Proof using. intros n S H. exists []. unfold s_more. rewrite app_nil_r, H. by destruct S. Qed.

Definition stepped_sess (Σ : list sess) (n : nat) (S : sess) (new : bool) (ek : keypair) : list sess :=
  if new then <[n := s_more [ek] S]> Σ else Σ.
Lemma stepped_grows Σ n S new ek : Σ !! n = Some S -> grows Σ (stepped_sess Σ n S new ek).
Proof using. destruct new; [apply insert_grows|intros _; apply grows_refl]. Qed.

Lemma delete_Forall2 {A B} (P : A -> B -> Prop) l k j : Forall2 P l k -> Forall2 P (delete j l) (delete j k).
Proof using.
  intros H. revert j. induction H as [|a b l k Hab Hlk IH]; intros j; [constructor|].
  destruct j as [|j]; [done|]. cbn [delete list_delete]. constructor; [done|]. apply IH.
Qed.

Lemma mrecv_known Σ K w D n p S l i pt x :
  apart Σ -> devrel Σ K w D -> length D <= 41 -> party_of n D = Some p -> Σ !! n = Some S -> 1 <= l ->
  wrel C (s_r0 S) (s_c0 S) (s_ks S) (in_of S) them me x (l, i, pt) -> arrives (s_ks S) (p_turn p) l -> K n ->
  accident C w r d D x (n, (l, i, pt)) \/
  match iopen (l, i, pt) p with
  | Ok (q, p') => exists k w', run (receive C r d x) w = (Ok q, w') /\ rest w w' /\
      w_pos w <= k <= w_pos w' /\ (p_turn p < l -> w_pos w' = Datatypes.S k) /\
      devrel (stepped_sess Σ n S (p_turn p <? l)%nat (kp_at C w k)) K w' ((n, p') :: others_of n D)
  | Err e => exists w', run (receive C r d x) w = (Err e, w') /\ rest w w' /\ devrel Σ K w' D
  end.
Proof using Hok Hme Hthem.
  intros Hap Hd Hlen Hp HSn Hl1 (m & Hm & Hx) Harr HKn.
  destruct (party_of_lookup _ _ _ Hp) as [j Hj].
  assert (D <> []) as HDne by (by intros ->).
  destruct (devrel_pos _ _ _ _ HDne Hd) as (Hsome & rec & Hrec & Hfr & Hwf & Hnd & Ht & HF).
  destruct (Forall2_lookup_r _ _ _ _ _ HF Hj) as (s & Hs & (S' & HS' & Hsrel & Hturn & Hbase & Hpend & _)). cbn [fst snd] in *.
  rewrite HSn in HS'. injection HS' as <-.
  assert (exists w0, run (receive C r d x) w = run (decryptMsg C r d m) w0 /\ w_sessions w0 = w_sessions w /\ rest w w0 /\ trusts w0 r them /\
    w_pos w0 = w_pos w /\ w_tape w0 = w_tape w /\ carries x m) as (w0 & Hrun & Hses & Hrest0 & Ht0 & Hpos0 & Htape0 & Hcar).
  { unfold receive, carries. destruct x as [[] bs]; cbn [fst snd] in *.
    - destruct Hx as (dt & q & Hdt & Hq & <- & Hv & Hb & Hi & _). unfold in_of in Hdt. destruct (ours S); [done|]. injection Hdt as <-.
      rewrite run_bind, run_lift, Hq. eexists. split; [apply (pkmsg_belongs C) with rec; [done| |by rewrite Hi]|].
      { exists s. split. { apply elem_of_list_lookup_2 in Hs. by apply elem_of_cons in Hs. }
        rewrite Hv, Hb. split; [by apply (srel_version C _ _ _ _ _ _ p Hsrel)|done]. }
      split_and!; try done; [|eauto]. right. cbn. rewrite lookup_insert. by rewrite Hi.
    - subst bs. assert (whisper_parse (wSerialized m) = Ok m) as Hpm by (by destruct Hm as (_ & _ & _ & _ & _ & _ & ?)).
      rewrite run_bind, run_lift, Hpm. exists w. done. }
  assert (session_at w0 r d = Ok rec) as Hrec0 by (unfold session_at; by rewrite Hses).
  rewrite Hrun, (decryptMsg_record C r d w0 rec m Hrec0) by (by rewrite Hses).
  assert (Forall2 (strel0 Σ) (sr_states rec) D) as HF0 by (eapply Forall2_impl; [done|]; intros; by eapply strel_strel0).
  destruct (mrecv_record Σ rec D n S w0 j p l i pt m Hap Hwf HF0 Hnd HSn Hj Hl1 Hm Harr) as [(k & t & n' & p' & H1 & H2 & H3 & H4)|Hcase].
  { left. exists rec, m, k, t, n', p'. split_and!; done. }
  right. destruct (iopen (l, i, pt) p) as [[q p']|e] eqn:Eo.
  - destruct Hcase as (k & w1 & s2 & s' & Hs2 & -> & Hsame & Hpos & Hnew & Hwf' & Hsrel' & Hpend' & Hbase').
    rewrite Hs in Hs2. injection Hs2 as <-. cbn [fst snd].
    assert (kp_at C w0 k = kp_at C w k) as Hkp by (unfold kp_at; by rewrite Htape0). rewrite Hkp in Hsrel'.
    exists k. eexists. split; [done|].
    assert (rest w0 w1) as Hr1 by (destruct Hsame as (?&?&?&?&?&?&?&?); by split_and!).
    split. { eapply rest_trans; [done|]. done. }
    cbn [w_set_sessions w_pos]. split; [lia|]. split; [done|].
    set (ra := record_after j s' rec).
    assert (length (sr_states rec) <= 41) as Hl41 by (rewrite (Forall2_length _ _ _ HF); done).
    pose proof (states_after rec j s s' Hs Hl41) as Hst.
    assert (rec_wf ra) as Hwfa.
    { unfold ra. destruct j as [|j]; [destruct Hwf; by split|]. destruct Hwf as [W1 W2]. apply sr_promoteState_wf; [done|]. split; [done|]. by apply Forall_delete. }
    eapply devrel_stored; [by apply session_stored|done| | |].
    + cbn [fmap list_fmap fst]. rewrite (others_of_delete _ _ _ _ Hnd Hj).
      assert (n :: (delete j D).*1 ≡ₚ D.*1) as ->; [|done].
      symmetry. exact (fmap_Permutation fst _ _ (delete_Permutation D j (n, p) Hj)).
    + unfold trusts in *. cbn [w_set_sessions w_trusted]. by destruct Hsame as (_ & _ & _ & -> & _).
    + change (sr_states (SessionRecord false (sr_state ra) (sr_previous ra))) with (sr_states ra). unfold ra. rewrite Hst.
      rewrite (others_of_delete _ _ _ _ Hnd Hj). constructor.
      * unfold strel. cbn [fst snd]. exists (if (p_turn p <? l)%nat then s_more [kp_at C w k] S else S).
        assert (p_turn p <= p_turn p') as Hpt.
        { unfold iopen in Eo. destruct (_ <? _)%nat; [done|]. case_bool_decide; [done|]. destruct (_ <? _)%N; [done|].
          destruct (Nat.ltb_spec (p_turn p) l); injection Eo as <- <-; cbn [p_turn]; lia. }
        unfold stepped_sess. destruct (p_turn p <? l)%nat.
        -- split_and!; try done; [|lia| |].
           ++ apply list_lookup_insert. by eapply lookup_lt_Some.
           ++ by rewrite Hbase'.
           ++ unfold pending_ok. by rewrite Hpend'.
        -- split_and!; try done; [lia| |].
           ++ by rewrite Hbase'.
           ++ unfold pending_ok. by rewrite Hpend'.
      * apply delete_Forall2. eapply Forall2_impl; [exact HF|]. intros a b Hab. eapply strel_grows; [by apply stepped_grows| |done]. done.
  - destruct Hcase as (w1 & -> & Hsame). exists w1. split; [done|].
    assert (rest w0 w1) as Hr1 by (destruct Hsame as (?&?&?&?&?&?&?&?); by split_and!).
    split; [by eapply rest_trans|].
    eapply devrel_stored; [|done|done| |done].
    + unfold session_at. destruct Hsame as (-> & _). by rewrite Hses.
    + unfold trusts in *. by destruct Hsame as (_ & _ & _ & -> & _).
Qed.

(** ** Old sessions when a new one comes *)

Lemma archived Σ K w D rec :
  devrel Σ K w D -> session_at w r d = Ok rec -> length D <= 40 -> Forall2 (strel Σ K) (sr_previous (archiveUnlessFresh rec)) D.
Proof using Hme Hthem.
  intros Hd Hrec Hlen. destruct D as [|x D].
  - destruct Hd as (rec' & Hrec' & _ & _ & Hn). unfold session_at in Hrec. rewrite Hn in Hrec. injection Hrec as <-. constructor.
  - destruct (devrel_pos _ _ _ (x :: D) ltac:(done) Hd) as (_ & rec' & Hrec' & Hfr & _ & _ & _ & HF).
    rewrite Hrec in Hrec'. injection Hrec' as <-. unfold archiveUnlessFresh. rewrite Hfr. cbn [negb].
    unfold sr_archiveCurrentState, sr_promoteState. cbn [sr_previous].
    rewrite (proj2 (Nat.ltb_ge _ _)); [done|]. apply Forall2_length in HF. unfold sr_states in HF. rewrite HF. unfold ARCHIVED_STATES_MAX_LENGTH. lia.
Qed.
Lemma not_in_records Σ K w D rec n S :
  apart Σ -> devrel Σ K w D -> session_at w r d = Ok rec -> n ∉ D.*1 -> Σ !! n = Some S -> ~ belongs rec 3 (dt_base (s_det S)).
Proof using Hme Hthem.
  intros (_ & _ & Hap) Hd Hrec Hn HSn (s & Hin & _ & Hb). destruct D as [|x D].
  - destruct Hd as (rec' & Hrec' & _ & _ & Hno). unfold session_at in Hrec. rewrite Hno in Hrec. injection Hrec as <-.
    destruct Hin as [->|Hin]; [done|]. by apply elem_of_nil in Hin.
  - destruct (devrel_pos _ _ _ (x :: D) ltac:(done) Hd) as (_ & rec' & Hrec' & Hfr & _ & _ & _ & HF).
    rewrite Hrec in Hrec'. injection Hrec' as <-.
    assert (s ∈ sr_states rec) as (j & Hj)%elem_of_list_lookup by (by apply elem_of_cons).
    destruct (Forall2_lookup_l _ _ _ _ _ HF Hj) as ([n' p'] & Hk & (S' & HS' & _ & _ & Hb' & _)). cbn [fst] in HS'.
    rewrite Hb in Hb'. injection Hb' as Hb'. apply (Hap n n' S S'); try done.
    intros <-. apply Hn. apply elem_of_list_fmap. exists (n, p'). split; [done|]. by eapply elem_of_list_lookup_2.
Qed.

(** ** The first message of a session *)

Lemma mrecv_first Σ K w D n S i pt x idme pid :
  apart Σ -> devrel Σ K w D -> length D <= 40 -> n ∉ D.*1 -> Σ !! n = Some S -> ours S = false -> length (s_ks S) = 2 ->
  genuine C idme -> w_identity w = idme -> kp_pub idme = me -> (w_regid w < 2 ^ 32)%N ->
  holds_signed w (dt_sid (s_det S)) (kth (s_ks S) 0) -> dt_pid (s_det S) = Some pid -> holds_prekey w pid (s_otpk S) -> genuine C (s_otpk S) ->
  mkdf C (secretB C idme (kth (s_ks S) 0) (Some (s_otpk S)) them (dt_base (s_det S))) = (s_r0 S, s_c0 S) ->
  wrel C (s_r0 S) (s_c0 S) (s_ks S) (in_of S) them me x (1, i, pt) -> x.1 = true ->
  accident C w r d D x (n, (1, i, pt)) \/
  match iopen (1, i, pt) (Party 0 0 [] true) with
  | Ok (q, p') => exists k w', run (receive C r d x) w = (Ok q, w') /\
      w_pos w <= k /\ w_pos w' = Datatypes.S k /\ w_signed w' = w_signed w /\ w_identity w' = w_identity w /\ w_regid w' = w_regid w /\
      (w_prekeys w' = w_prekeys w \/ w_prekeys w' = delete pid (w_prekeys w)) /\
      devrel (stepped_sess Σ n S true (kp_at C w k)) K w' ((n, p') :: D)
  | Err e => exists w', run (receive C r d x) w = (Err e, w') /\ rest w w' /\ devrel Σ K w' D
  end.
Proof using Hok Hme Hthem.
  intros Hap Hd Hlen Hn HSn Hours Hks Gid Hid Hidme Hreg (bs1 & spr & Hs1 & Hs2 & Hs3) Hpid (bs2 & pr & Hp1 & Hp2 & Hp3) Gotpk Hk0 (m & Hm & Hx) Hx1.
  rewrite Hx1 in Hx. destruct Hx as (dt & q & Hdt & Hq & <- & Hqv & Hqb & Hqi & Hqs & Hqp & Hqr).
  unfold in_of in Hdt. rewrite Hours in Hdt. injection Hdt as <-.
  pose proof Hd as (rec & Hrec & Hnd & Ht & _). rewrite Hpid, default_Some in Hqp.
  pose proof Hap as (HS & _). destruct (HS _ _ HSn) as (Hgen & Hndk & (Dl & Dsid & Dpid & Dreg)).
  assert (genuine C (kth (s_ks S) 0)) as Gspk by (apply kth_genuine; [done|lia]).
  pose proof (not_in_records _ _ _ _ _ _ _ Hap Hd Hrec Hn HSn) as Hnb.
  assert (run (receive C r d x) w = run (decryptPkmsg C r d q) w) as ->.
  { unfold receive. by rewrite Hx1, run_bind, run_lift, Hq. }
  assert (~ belongs rec (pVersion q) (pBaseKey q)) as Hnb' by (by rewrite Hqv, Hqb).
  pose proof (run_processV3 C rec q w r d spr (kth (s_ks S) 0) Hrec Hnb') as Hp3'. rewrite Hqs, Hqp, Hid, Hqi, Hqb, Hqr in Hp3'.
  assert (step_call (CLoadSignedPreKey (dt_sid (s_det S))) w = (Ok spr, w)) as Hlspk by (cbn [step_call]; by rewrite Hs1, Hs2).
  assert (step_call (CLoadPreKey pid) w = (Ok pr, w)) as Hlpk by (cbn [step_call]; by rewrite Hp1, Hp2).
  specialize (Hp3' Hlspk Hs3 (Some (s_otpk S)) ltac:(by exists pr, (s_otpk S)) ltac:(by destruct Gid) ltac:(by destruct Gspk)
    ltac:(intros ? [= <-]; by destruct Gotpk) Hthem Dl Hreg Dreg). cbv zeta in Hp3'. rewrite Hk0 in Hp3'. cbn [fst snd] in Hp3'.
  match type of Hp3' with _ = (Ok (sr_setState ?s _, ?u), _) => set (s0 := s) in *; set (used := u) in * end.
  set (rec0 := sr_setState s0 (archiveUnlessFresh rec)) in *.
  set (w1 := w_set_trusted (<[r := them]> (w_trusted w)) w).
  assert (srel C (s_r0 S) (s_c0 S) me them (s_ks S) s0 (Party 0 0 [] true)) as Hs0.
  { assert (s_ks S = [kth (s_ks S) 0; kth (s_ks S) 1]) as -> by (destruct (s_ks S) as [|k1 [|k2 [|]]]; done).
    apply start_second; [|done]. unfold sends, s0. rewrite Hidme. split_and!; try done. eexists. split_and!; done. }
  assert (ss_wf s0) as Hwf0.
  { unfold ss_wf, s0. cbn [ss_version ss_previousCounter ss_senderChain ss_receiverChains ss_pendingKeyExchange ss_pendingPreKey ss_remoteRegId ss_localRegId].
    cbn [wfV wfM]. split_and!; try done; try lia. split; [|constructor]. cbn. lia. }
  pose proof (archive_wf _ (loaded_wf _ _ _ _ Hrec)) as [_ Hwfp].
  assert (rec_wf rec0) as Hwfr by (by split).
  pose proof (archived _ _ _ _ _ Hd Hrec Hlen) as HFa.
  assert (Forall2 (strel0 Σ) (sr_states rec0) ((n, Party 0 0 [] true) :: D)) as HF0.
  { constructor; [by exists S|]. eapply Forall2_impl; [exact HFa|]. intros; by eapply strel_strel0. }
  assert (NoDup ((n, Party 0 0 [] true) :: D).*1) as Hnd0 by (by constructor).
  assert (arrives (s_ks S) 0 1) as Harr by (by left).
  assert (run (decryptPkmsg C r d q) w =
    match run (decryptWithSessionRecord C rec0 (pMessage q)) w1 with
    | (Ok y, w2) => let w3 := w_set_sessions (<[(r, d) := sr_serialize y.2]> (w_sessions w2)) w2 in
        (Ok y.1, match used with None => w3 | Some pid => w_set_prekeys (delete pid (w_prekeys w3)) w3 end)
    | (Err e, w2) => (Err e, w2)
    end) as ->.
  { unfold decryptPkmsg.
    rewrite run_bind, run_do, load_session, Hrec, run_bind. unfold builder_process.
    rewrite run_bind, run_do, trusted_true by (by rewrite Hqi). rewrite run_bind, Hp3', run_bind, run_do. cbn [step_call]. rewrite Hqi. fold w1.
    rewrite run_ret, run_bind. cbn [fst snd].
    destruct (run (decryptWithSessionRecord C rec0 (pMessage q)) w1) as [[y|e] w2]; [|done].
    rewrite run_bind, run_do. cbn [step_call]. destruct used as [u|]; [|done].
    rewrite run_bind, run_do. done. }
  destruct (mrecv_record Σ rec0 ((n, Party 0 0 [] true) :: D) n S w1 0 (Party 0 0 [] true) 1 i pt (pMessage q) Hap Hwfr HF0 Hnd0 HSn eq_refl (le_n 1) Hm Harr)
    as [(k & t & n' & p' & H1 & H2 & H3 & H4)|Hcase].
  { left. destruct k as [|k].
    { injection H2 as <- <-. destruct H3 as [?|H3]; [done|]. cbn in H3. lia. }
    cbn in H1, H2. destruct D as [|x0 D]; [done|].
    destruct (devrel_pos _ _ _ (x0 :: D) ltac:(done) Hd) as (_ & rec' & Hrec' & Hfr & _ & _ & _ & HF).
    rewrite Hrec in Hrec'. injection Hrec' as <-.
    exists rec, (pMessage q), k, t, n', p'. split_and!; try done.
    - unfold carries. rewrite Hx1. eauto.
    - unfold archiveUnlessFresh in H1. rewrite Hfr in H1. unfold sr_archiveCurrentState, sr_promoteState in H1. cbn [sr_previous] in H1.
      rewrite (proj2 (Nat.ltb_ge _ _)) in H1; [done|]. apply Forall2_length in HF. unfold sr_states in HF. rewrite HF.
      unfold ARCHIVED_STATES_MAX_LENGTH. lia. }
  right. destruct (iopen (1, i, pt) (Party 0 0 [] true)) as [[y p']|e] eqn:Eo.
  - destruct Hcase as (k & w2 & s2 & s' & Hs2' & -> & Hsame & Hpos & Hnew & Hwf' & Hsrel' & Hpend' & Hbase').
    injection Hs2' as <-. cbn [fst snd p_turn Nat.ltb Nat.leb] in *. cbv zeta. cbn [record_after] in *.
    assert (w_pos w2 = Datatypes.S k) as Hpk by (apply Hnew; lia).
    set (ra := sr_setState s' rec0) in *.
    assert (devrel (stepped_sess Σ n S true (kp_at C w k)) K (w_set_sessions (<[(r, d) := sr_serialize ra]> (w_sessions w2)) w2) ((n, p') :: D)) as Hdv.
    { eapply devrel_stored; [apply session_stored; by split|done|by constructor| |].
      - unfold trusts. cbn [w_set_sessions w_trusted]. right. destruct Hsame as (_ & _ & _ & -> & _). cbn. by rewrite lookup_insert.
      - constructor.
        + exists (s_more [kp_at C w k] S). cbn [fst snd sr_states sr_state ra sr_setState]. split_and!; try done.
          * apply list_lookup_insert. by eapply lookup_lt_Some.
          * unfold iopen in Eo. repeat case_match; try done; injection Eo as <- <-; cbn; lia.
          * unfold pending_ok. by rewrite Hpend'.
          * change (ours (s_more [kp_at C w k] S)) with (ours S). by rewrite Hours.
        + eapply Forall2_impl; [exact HFa|]. intros a b Hab. eapply strel_grows; [by apply insert_grows| |done]. done. }
    exists k. eexists. split; [done|].
    destruct Hsame as (U1 & U2 & U3 & U4 & U5 & U6 & U7 & U8).
    assert (w_pos w <= k) as Hwk by (change (w_pos w) with (w_pos w1); lia).
    unfold used. destruct (pid =? MEDIUM_MAX_VALUE)%N.
    + split; [exact Hwk|]. split; [exact Hpk|]. split; [exact U3|]. split; [exact U5|]. split; [exact U6|]. split; [left; exact U2|]. exact Hdv.
    + split; [exact Hwk|]. split; [exact Hpk|]. split; [exact U3|]. split; [exact U5|]. split; [exact U6|].
      split; [right; cbn; by rewrite U2|]. exact Hdv.
  - destruct Hcase as (w2 & -> & Hsame). exists w2. split; [done|].
    destruct Hsame as (U1 & U2 & U3 & U4 & U5 & U6 & U7 & U8).
    split; [by split_and!|]. exists rec. split_and!; try done.
    + unfold session_at. by rewrite U1.
    + unfold trusts. rewrite U4. right. cbn. by rewrite lookup_insert.
    + destruct Hd as (rec' & Hrec' & _ & _ & Hd). rewrite Hrec in Hrec'. injection Hrec' as <-. destruct D; [by rewrite U1|done].
Qed.

(** ** A new session *)

Lemma renew_run Σ K w wP b spk pid otpk D :
  able C w -> kp_pub (w_identity w) = me -> kp_pub (w_identity wP) = them -> bundle_of C wP b spk (Some (pid, otpk)) ->
  devrel Σ K w D -> length D <= 40 -> Forall (fun x : nat * party => x.1 < length Σ) D ->
  let base := kp_at C w (w_pos w) in let ek := kp_at C w (Datatypes.S (w_pos w)) in
  let k0 := mkdf C (secretB C (w_identity wP) spk (Some otpk) me (kp_pub base)) in
  let S := Sess k0.1 k0.2 [spk; ek] side (Details (Some pid) (bu_signedPreKeyId b) (kp_pub base) (w_regid w)) otpk in
  exists w', run (processPreKeyBundle C r d b) w = (Ok tt, w') /\ rest w w' /\ w_pos w' = Datatypes.S (Datatypes.S (w_pos w)) /\
    devrel (Σ ++ [S]) K w' ((length Σ, Party 1 0 [] true) :: D).
Proof using Hok Hme Hthem.
  intros Hable Hidme Hidth Hbu Hd Hlen Hlt. cbv zeta. pose proof Hd as (rec & Hrec & Hnd & Ht & _).
  rewrite <- Hidth in Ht.
  destruct (bundle_run C Hok r d b spk (Some (pid, otpk)) w wP rec Hable Hbu Ht Hrec) as (w1 & s & Hrun & Hpos & Hst & Hs & Hpend & Hreg).
  pose proof Hable as [GA RA]. destruct Hbu as (GB & Bid & Gspk & Hspk & Bspk & Hver & Hsid & Hreg' & (Gk & Hk1 & Hpid & Hpk & Hi)).
  rewrite <- Bid in Hver, Ht.
  pose proof (run_bundle C Hok r d b (kp_pub spk) w rec Ht Hrec Bspk Hver (genuine_pub_len C Hok _ Gspk)) as Hrun2.
  rewrite Hpk, Hpid in Hrun2.
  specialize (Hrun2 ltac:(intros ? [= <-]; by apply (genuine_pub_len C Hok)) ltac:(by destruct GA) Hsid ltac:(intros ? [= <-]; done) RA Hreg').
  cbv zeta in Hrun2. rewrite Hrun in Hrun2. injection Hrun2 as Hw1.
  match type of Hw1 with _ = w_set_trusted _ (w_set_sessions (<[_ := sr_serialize (sr_setState ?t _)]> _) _) => set (s2 := t) in * end.
  exists w1. split; [done|]. split; [by subst w1|]. split; [done|].
  pose proof (archived _ _ _ _ _ Hd Hrec Hlen) as HFa.
  assert (ss_aliceBaseKey s = Some (pub_serialize (kp_pub (kp_at C w (w_pos w))))) as Hbase.
  { assert (session_at w1 r d = Ok (SessionRecord false s2 (sr_previous (archiveUnlessFresh rec)))) as Hst2.
    { subst w1. unfold session_at. cbn [w_set_trusted w_set_sessions w_set_pos w_sessions]. rewrite lookup_insert.
      rewrite StateFacts.sr_roundtrip; [done|]. pose proof (archive_wf _ (loaded_wf _ _ _ _ Hrec)) as [_ Hwfp]. split; [|done].
      unfold ss_wf, s2. cbn [sr_state sr_setState ss_version ss_previousCounter ss_senderChain ss_receiverChains ss_pendingKeyExchange ss_pendingPreKey ss_remoteRegId ss_localRegId].
      cbn [wfV wfM]. split_and!; try done; try lia.
      - split; [|constructor]. cbn. lia.
      - constructor; [|constructor]. split; [|constructor]. cbn. lia.
      - unfold pp_wf. cbn [pp_preKeyId pp_signedPreKeyId wfV wfI]. split; [done|lia]. }
    rewrite Hst in Hst2. injection Hst2 as ->. done. }
  cbn [fmap option_fmap option_map fst snd] in *.
  eapply devrel_stored; [exact Hst|done| | |].
  - cbn [fmap list_fmap fst]. constructor; [|done]. intros ((n & p) & Hn & Hin)%elem_of_list_fmap. cbn in Hn. subst n.
    rewrite Forall_forall in Hlt. apply Hlt in Hin. cbn in Hin. lia.
  - subst w1. right. cbn. rewrite lookup_insert. by rewrite Bid, Hidth.
  - change (sr_states (SessionRecord false s (sr_previous (archiveUnlessFresh rec)))) with (s :: sr_previous (archiveUnlessFresh rec)).
    constructor.
    + eexists. cbn [fst snd]. split; [apply list_lookup_middle; done|]. cbn [s_r0 s_c0 s_ks s_det dt_base]. rewrite Hidme, Hidth in Hs.
      unfold out_of, ours. cbn [s_first s_det dt_base]. rewrite eqb_reflx. split_and!; try done.
      * unfold pending_ok. rewrite Hpend. eexists. split; [done|]. cbn [dt_pid dt_base dt_sid dt_reg]. rewrite Hreg. done.
      * intros _. by rewrite Hpend.
    + eapply Forall2_impl; [exact HFa|]. intros a bb Hab. eapply strel_grows; [| |exact Hab]; [|done].
      intros n S Hn. exists []. unfold s_more. rewrite app_nil_r. rewrite lookup_app_l by (by eapply lookup_lt_Some). rewrite Hn. by destruct S.
Qed.
End device.
