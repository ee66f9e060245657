(** Without key exchange messages and with fresh keys no message key is used twice: C50. *)
From Verif Require Import PyBase Wire Protos ProtoFacts Crypto Ecc Kdf Messages State Prog Ratchet Builder Cipher Groups Helper.
From Verif Require Import ProgFacts StateFacts UtilFacts HelperFacts MsgFacts CipherFacts DecryptFacts SpecSession SessionProofs LockoutProofs SpecApi SpecKeys SpecEncrypt.
From Verif Require Import InvFacts HistoryProofs ArchiveProofs EncryptProofs SpecIso IsoProofs SpecFresh.

(** ** Positions on the tape *)

Definition draws {R} (c : call R) : bool := match c with CUrandom _ | CRandrange _ | CTimeMillis => true | _ => false end.
Definition next_pos {R} (c : call R) (pos : nat) : nat := if draws c then S pos else pos.
Lemma step_tape {R} (c : call R) w : w_tape (step_call c w).2 = w_tape w /\ w_pos (step_call c w).2 = next_pos c (w_pos w).
Proof. by destruct c. Qed.
Lemma next_pos_le {R} (c : call R) pos : pos <= next_pos c pos.
Proof. unfold next_pos. destruct (draws c); lia. Qed.
Lemma run_tape {A} (p : prog A) w : w_tape (run p w).2 = w_tape w /\ w_pos w <= w_pos (run p w).2.
Proof.
  revert w. induction p as [a|e|R c k IH]; intros w; [done..|]. cbn [run].
  pose proof (step_tape c w) as [H1 H2]. pose proof (next_pos_le c (w_pos w)). destruct (step_call c w) as [x w1]. cbn in *.
  destruct (IH x w1) as [H3 H4]. split; [congruence|lia].
Qed.
Lemma crash_tape {A} n (p : prog A) w : w_tape (run_crash n p w).2 = w_tape w /\ w_pos w <= w_pos (run_crash n p w).2.
Proof.
  revert n w. induction p as [a|e|R c k IH]; intros n w; [done..|]. destruct n as [|n]; [done|]. cbn [run_crash].
  pose proof (step_tape c w) as [H1 H2]. pose proof (next_pos_le c (w_pos w)). destruct (step_call c w) as [x w1]. cbn in *.
  destruct (IH x n w1) as [H3 H4]. split; [congruence|lia].
Qed.

(** ** What programs without session calls draw *)

Section tape.
Context (C : crypto) (Hok : crypto_ok C) (t : nat -> bytes).

Definition kp_of (n : nat) : keypair := let s := resize 32 x00 (t n) in KeyPair (genPub C (genPriv C s)) (genPriv C s).
Definition pub_of (n : nat) : bytes := kp_pub (kp_of n).
Lemma pub_of_len n : length (pub_of n) = 32.
Proof using Hok. cbn. apply (co_pub_len C Hok). apply (co_priv_len C Hok). apply resize_length. Qed.

Definition resp {R} (c : call R) (pos : nat) : res R -> Prop :=
  match c in call R return res R -> Prop with
  | CUrandom n => fun x => x = Ok (resize n x00 (t pos))
  | CLoadSession _ _ => fun x => forall rec, x = Ok rec -> loaded_inv rec
  | _ => fun _ => True
  end.
Fixpoint dspec {A} (pos : nat) (p : prog A) (Q : nat -> A -> Prop) : Prop :=
  match p with
  | Ret a => Q pos a
  | Raise _ => True
  | Call c k => forall x, resp c pos x -> dspec (next_pos c pos) (k x) Q
  end.
Lemma dspec_bind {A B} pos (p : prog A) (f : A -> prog B) Q R :
  dspec pos p Q -> (forall pos' a, pos <= pos' -> Q pos' a -> dspec pos' (f a) R) -> dspec pos (p ≫= f) R.
Proof.
  revert pos. induction p as [a|e|T c k IH]; intros pos Hp Hf; [by apply Hf|done|].
  intros x Hx. apply IH; [by apply Hp|]. intros pos' a Hle. pose proof (next_pos_le c pos). apply Hf. lia.
Qed.
Lemma dspec_catch {A} pos (p : prog A) h Q :
  dspec pos p Q -> (forall pos' e, pos <= pos' -> dspec pos' (h e) Q) -> dspec pos (catch p h) Q.
Proof.
  revert pos. induction p as [a|e|T c k IH]; intros pos Hp Hf; [done|by apply Hf|].
  intros x Hx. apply IH; [by apply Hp|]. intros pos' a Hle. pose proof (next_pos_le c pos). apply Hf. lia.
Qed.
Lemma dspec_mono {A} pos (p : prog A) (Q R : nat -> A -> Prop) :
  dspec pos p Q -> (forall pos' a, pos <= pos' -> Q pos' a -> R pos' a) -> dspec pos p R.
Proof.
  revert pos. induction p as [a|e|T c k IH]; intros pos Hp Hf; [by apply Hf|done|].
  intros x Hx. apply IH; [by apply Hp|]. intros pos' a Hle. pose proof (next_pos_le c pos). apply Hf. lia.
Qed.
Lemma dspec_top {A} pos (p : prog A) : dspec pos p (fun _ _ => True).
Proof. revert pos. induction p as [a|e|T c k IH]; intros pos; [done..|]. intros x _. apply IH. Qed.
Lemma dspec_lift {A} pos (r : res A) : dspec pos (lift r) (fun pos' a => pos' = pos /\ r = Ok a).
Proof. by destruct r. Qed.
Lemma dspec_pspec {A} (L : _ -> Prop) (P : _ -> Prop) pos (p : prog A) Q : (forall x, loaded_inv x -> L x) -> pspec L P p Q -> dspec pos p (fun _ => Q).
Proof.
  intros HL. revert pos. induction p as [a|e|T c k IH]; intros pos; [done..|]. intros [_ H] x Hx. apply IH, H.
  destruct c; cbn in *; try done. destruct x; [|done]. by apply HL, Hx.
Qed.

Lemma dspec_generate pos : dspec pos (generateKeyPair C) (fun pos' k => pos' = S pos /\ k = kp_of pos).
Proof using Hok.
  intros x ->. change (dspec (S pos) (lift (keypair_of_rand C (resize 32 x00 (t pos)))) (fun pos' k => pos' = S pos /\ k = kp_of pos)).
  unfold keypair_of_rand, c_generatePrivateKey, c_generatePublicKey.
  rewrite resize_length. cbn [Nat.eqb]. rewrite bind_ok.
  rewrite (co_priv_len C Hok) by apply resize_length. done.
Qed.

(** ** Sending keys *)

(** A state that was made for a prekey message and has not received one does not send: its
    ratchet key is the signed prekey. *)
Definition active (s : ss_s) : bool := match ss_receiverChains s, ss_aliceBaseKey s with [], Some _ => false | _, _ => true end.
Lemma active_chains s : ss_receiverChains s <> [] -> active s = true.
Proof. unfold active. by destruct (ss_receiverChains s). Qed.
Lemma active_base s : ss_aliceBaseKey s = None -> active s = true.
Proof. unfold active. intros ->. by destruct (ss_receiverChains s). Qed.
(** The sending key and the next counter of any other state. *)
Definition view (s : ss_s) : option (bytes * N) :=
  if active s then match st_getSenderRatchetKey s with Ok k => Some (k, next_index (st_senderChain s)) | _ => None end else None.

Lemma view_active s : active s = true ->
  view s = match st_getSenderRatchetKey s with Ok k => Some (k, next_index (st_senderChain s)) | _ => None end.
Proof. unfold view. by intros ->. Qed.
Lemma view_eq s s' : active s' = true -> active s = true -> ss_senderChain s' = ss_senderChain s -> view s' = view s.
Proof. intros H1 H2 H3. rewrite !view_active by done. unfold st_getSenderRatchetKey, st_senderChain. by rewrite H3. Qed.

Lemma find_chain_active key l c j : find_chain key l 0 = Ok (Some (c, j)) -> l <> [].
Proof. by destruct l. Qed.

(** A decryption keeps the sending key or takes the drawn one. *)
Lemma view_decrypted s m n pt s' :
  decryptPure C s m (kp_of n) = Ok (pt, s') ->
  active s' = true /\ ss_pendingKeyExchange s' = ss_pendingKeyExchange s /\
  (active s = true /\ ss_senderChain s' = ss_senderChain s \/
   st_hasReceiverChain (wRatchetKey m) s = Ok false /\ view s' = Some (pub_of n, 0%N)).
Proof using Hok.
  intros (Hsc & Hv & kdf & c & j & s1 & c' & Hkdf & Hstep & Hf & Ho & ->)%decryptPure_ok_inv.
  pose proof (find_chain_active _ _ _ _ Hf) as Ha.
  assert (ss_receiverChains (st_clearUnacknowledgedPreKeyMessage (st_putReceiverChain j c' s1)) <> []) as Ha'.
  { change (<[j := c']> (ss_receiverChains s1) <> []). intros E. apply Ha. apply (f_equal length) in E.
    rewrite insert_length in E. by apply nil_length_inv. }
  apply active_chains in Ha'. split; [done|].
  apply chainStep_inv in Hstep as (kdf' & c0 & j0 & _ & _ & _ & [->|(Hf0 & Hk & our & x & y & _ & _ & Hy & _ & ->)]).
  { split; [done|]. left. split; [by apply active_chains|done]. }
  split; [done|]. right. split. { unfold st_hasReceiverChain, st_getReceiverChain. by rewrite Hf0. }
  rewrite view_active by done.
  change (st_getSenderRatchetKey _) with (decodePoint (pub_serialize (pub_of n)) 0).
  rewrite decodePoint_serialize by (rewrite pub_of_len; lia).
  change (Some (pub_of n, cIndex y.2) = Some (pub_of n, 0%N)). do 2 f_equal.
  unfold rk_createChain in Hy. apply bind_ok_inv in Hy as (? & _ & Hy). destruct (bu_split2 _ _ _). by injection Hy as <-.
Qed.

Lemma dspec_getOrCreateChainKey pos s key :
  dspec pos (getOrCreateChainKey C s key)
    (fun pos' x => exists n, chainStep C s key (kp_of n) = Ok x /\ pos <= n /\ (st_hasReceiverChain key s = Ok true \/ n < pos')).
Proof using Hok.
  unfold getOrCreateChainKey.
  eapply dspec_bind; [apply dspec_lift|]. intros p1 has _ [-> Hhas]. destruct has.
  - eapply dspec_bind; [apply dspec_lift|]. intros p2 ck _ [-> Hck]. cbn.
    exists pos. split_and!; [|done|by left]. unfold chainStep. by rewrite Hhas, bind_ok, Hck.
  - eapply dspec_bind; [apply dspec_lift|]. intros p2 x _ [-> Hx].
    eapply dspec_bind; [apply dspec_generate|]. intros p3 ek _ [-> ->].
    eapply dspec_mono; [apply dspec_lift|]. intros p4 a _ [-> Ha].
    exists pos. split_and!; [|done|right; lia]. unfold chainStep. by rewrite Hhas, bind_ok, Hx, bind_ok.
Qed.
Lemma dspec_decryptWithSessionState pos s m :
  dspec pos (decryptWithSessionState C s m)
    (fun pos' x => exists n, decryptPure C s m (kp_of n) = Ok x /\ pos <= n /\ (st_hasReceiverChain (wRatchetKey m) s = Ok true \/ n < pos')).
Proof using Hok.
  unfold decryptWithSessionState.
  destruct (negb _) eqn:E1; [done|]. destruct (negb (_ =? _)%N) eqn:E2; [done|].
  eapply dspec_bind; [apply dspec_getOrCreateChainKey|]. intros p1 x Hp (n & Hn & Hle & Hor).
  eapply dspec_mono; [apply dspec_lift|]. intros p2 a _ [-> Ha]. exists n. split_and!; [|done|done].
  unfold decryptPure. by rewrite E1, E2, Hn, bind_ok.
Qed.

(** The record after a decryption, and the state that decrypted. *)
Definition opened (pos : nat) (rec : sessionRecord) (pos' : nat) (rec' : sessionRecord) : Prop :=
  exists j s n s', sr_states rec !! j = Some s /\ rec' = record_after j s' rec /\ active s' = true /\
    ss_pendingKeyExchange s' = ss_pendingKeyExchange s /\
    (view s' = view s \/ pos <= n /\ n < pos' /\ view s' = Some (pub_of n, 0%N)).
Lemma opened_of pos0 pos rec m j s pos' pt s' :
  pos0 <= pos -> sr_states rec !! j = Some s ->
  (exists n, decryptPure C s m (kp_of n) = Ok (pt, s') /\ pos <= n /\ (st_hasReceiverChain (wRatchetKey m) s = Ok true \/ n < pos')) ->
  opened pos0 rec pos' (record_after j s' rec).
Proof using Hok.
  intros Hp Hj (n & Hd%view_decrypted & Hle & Hor). destruct Hd as (Ha & Hpe & Hd). exists j, s, n, s'. split_and!; [done..|].
  destruct Hd as [[Ha' E]|[Hf Hv]]; [left; by apply view_eq|].
  destruct Hor as [Ht|Hlt]; [congruence|]. right. split_and!; [lia|done|done].
Qed.

Lemma dspec_decryptWithSessionRecord pos rec m :
  dspec pos (decryptWithSessionRecord C rec m) (fun pos' x => opened pos rec pos' x.2).
Proof using Hok.
  unfold decryptWithSessionRecord. apply dspec_catch.
  - eapply dspec_bind; [apply dspec_decryptWithSessionState|]. intros p1 [pt s'] Hle H. cbn.
    by apply (opened_of pos pos rec m 0 (sr_state rec) p1 pt s').
  - intros pos1 e Hle. case_bool_decide; [|done].
    assert (forall l i pos1, pos <= pos1 -> (forall k s, l !! k = Some s -> sr_previous rec !! (i + k) = Some s) ->
      dspec pos1 (decryptWithPrevious C rec m i l) (fun pos' x => opened pos rec pos' x.2)) as H'.
    { clear - Hok. induction l as [|s l IH]; intros i pos1 Hle Hl; cbn [decryptWithPrevious]; [done|]. apply dspec_catch.
      - eapply dspec_bind; [apply dspec_decryptWithSessionState|]. intros p1 [pt s'] _ H. cbn.
        apply (opened_of pos pos1 rec m (S i) s p1 pt s'); [done| |done]. change (sr_previous rec !! i = Some s).
        rewrite <- (Nat.add_0_r i). by apply Hl.
      - intros p1 e' Hle1. case_bool_decide; [|done]. apply IH; [lia|]. intros k s0 Hk. replace (S i + k) with (i + S k) by lia. by apply Hl. }
    by apply H'.
Qed.

(** ** The invariant *)

Context (b e : nat) (Hfresh : forall i j, b <= i -> i < j -> j < e -> pub_of i <> pub_of j).

Definition okl (U : list (bytes * N)) (pos : nat) (ks : list (bytes * N)) : Prop :=
  b <= pos /\ NoDup ks.*1 /\ (forall K n i, (K, n) ∈ U -> (K, i) ∈ ks -> (n < i)%N) /\
  (forall x m, x ∈ U ++ ks -> pos <= m -> m < e -> pub_of m <> x.1).

Lemma okl_pos U pos pos' ks : pos <= pos' -> okl U pos ks -> okl U pos' ks.
Proof. intros H (H1 & H2 & H3 & H4). split_and!; [lia|done|done|]. intros x m Hx Hm. apply H4; [done|lia]. Qed.
Lemma okl_sub U pos ks ks' : ks' ⊆+ ks -> okl U pos ks -> okl U pos ks'.
Proof.
  intros Hs (H1 & H2 & H3 & H4). split_and!; [done| | |].
  - apply (fmap_submseteq fst) in Hs. apply submseteq_Permutation in Hs as (k & Hk). rewrite Hk in H2. by apply NoDup_app in H2 as [H2 _].
  - intros K n i Hn Hi. eapply H3; [done|]. by eapply elem_of_submseteq.
  - intros x m [Hx|Hx]%elem_of_app; apply H4, elem_of_app; [by left|right; by eapply elem_of_submseteq].
Qed.
Lemma okl_fresh U pos pos' n ks i : pos <= n -> n < pos' -> pos' <= e -> okl U pos ks -> okl U pos' ((pub_of n, i) :: ks).
Proof using Hfresh.
  intros L1 L2 L3 (H1 & H2 & H3 & H4). split_and!; [lia| | |].
  - rewrite fmap_cons. apply NoDup_cons. split; [|done]. intros ([K k] & E & Hk)%elem_of_list_fmap. cbn in E.
    eapply (H4 (K, k) n); [apply elem_of_app; by right|lia|lia|done].
  - intros K k j Hk [[= -> ->]|Hj]%elem_of_cons; [|by eapply H3].
    exfalso. eapply (H4 (pub_of n, k) n); [apply elem_of_app; by left|lia|lia|done].
  - intros x m [Hx|[->|Hx]%elem_of_cons]%elem_of_app Hm Hme.
    + apply H4; [apply elem_of_app; by left|lia|done].
    + cbn. intros E. apply (Hfresh n m); [lia|lia|done|done].
    + apply H4; [apply elem_of_app; by right|lia|done].
Qed.
Lemma okl_next U pos K i j ks : (i <= j)%N -> okl U pos ((K, i) :: ks) -> okl U pos ((K, j) :: ks).
Proof.
  intros Hij (H1 & H2 & H3 & H4). split_and!; [done|done| |].
  - intros K' n k Hn [[= -> ->]|Hk]%elem_of_cons; [|eapply H3; [done|by right]].
    assert (n < i)%N by (eapply H3; [done|by left]). lia.
  - intros x m [Hx|[->|Hx]%elem_of_cons]%elem_of_app Hm Hme.
    + apply H4; [apply elem_of_app; by left|done|done].
    + apply (H4 (K, i)); [apply elem_of_app; right; by left|done|done].
    + apply H4; [apply elem_of_app; right; by right|done|done].
Qed.
Lemma okl_emit U pos K i ks : okl U pos ((K, i) :: ks) -> (K, i) ∉ U /\ okl ((K, i) :: U) pos ((K, (i + 1)%N) :: ks).
Proof.
  intros Ho. pose proof Ho as (H1 & H2 & H3 & H4). split.
  { intros Hi. assert (i < i)%N; [|lia]. eapply H3; [done|by left]. }
  split_and!; [done|done| |].
  - intros K' n k Hn Hk. apply elem_of_cons in Hn as [[= -> ->]|Hn]; apply elem_of_cons in Hk as [Hk|Hk].
    + injection Hk as ->. lia.
    + apply NoDup_cons in H2 as [H2 _]. exfalso. apply H2. apply elem_of_list_fmap. by exists (K, k).
    + injection Hk as -> ->. assert (n < i)%N by (eapply H3; [done|by left]). lia.
    + eapply H3; [done|by right].
  - intros x m [[->|Hx]%elem_of_cons|[->|Hx]%elem_of_cons]%elem_of_app Hm Hme.
    + apply (H4 (K, i)); [apply elem_of_app; right; by left|done|done].
    + apply H4; [apply elem_of_app; by left|done|done].
    + apply (H4 (K, i)); [apply elem_of_app; right; by left|done|done].
    + apply H4; [apply elem_of_app; right; by right|done|done].
Qed.

Definition keys (rec : sessionRecord) : list (bytes * N) := omap view (sr_states rec).
(** The current state is active if it can encrypt. *)
Definition ready (s : ss_s) : Prop := forall k, st_getSenderRatchetKey s = Ok k -> active s = true.
(** The ratchet keys of pending exchanges are not drawn again, and not used already unless
    they are in [P]. *)
Definition pends (U : list (bytes * N)) (P : list bytes) (pos : nat) (rec : sessionRecord) : Prop :=
  forall s k, s ∈ sr_states rec -> pending_key s = Some k ->
    (forall m, pos <= m -> m < e -> pub_of m <> k) /\ (k ∉ P -> k ∉ U.*1 /\ k ∉ (keys rec).*1).
Definition ok (U : list (bytes * N)) (P : list bytes) (pos : nat) (rec : sessionRecord) : Prop :=
  okl U pos (keys rec) /\ ready (sr_state rec) /\ pends U P pos rec.

Lemma ok_new U P pos : okl U pos [] -> ok U P pos sr_new.
Proof. intros H. split; [done|]. split; [done|]. intros s k Hs. apply elem_of_list_singleton in Hs as ->. done. Qed.
Lemma ok_reload U P pos rec : ok U P pos rec -> ok U P pos (SessionRecord false (sr_state rec) (sr_previous rec)).
Proof. done. Qed.
Lemma ok_pos U P pos pos' rec : pos <= pos' -> ok U P pos rec -> ok U P pos' rec.
Proof.
  intros H (H1 & H2 & H3). split; [by eapply okl_pos|]. split; [done|]. intros s k Hs Hk. destruct (H3 s k Hs Hk) as [H4 H5].
  split; [|done]. intros m Hm. apply H4. lia.
Qed.
(** Fewer keys and pending exchanges, and more that are used up. *)
Lemma pends_sub U P P' pos pos' rec rec' :
  pos <= pos' -> (forall k, k ∈ P -> k ∈ P') ->
  (forall s k, s ∈ sr_states rec' -> pending_key s = Some k -> exists s0, s0 ∈ sr_states rec /\ pending_key s0 = Some k) ->
  (forall k, k ∉ P' -> k ∈ (keys rec').*1 -> (forall m, pos <= m -> m < e -> pub_of m <> k) -> k ∈ (keys rec).*1) ->
  pends U P pos rec -> pends U P' pos' rec'.
Proof.
  intros Hp HP Hs Hk H s k H1 H2. destruct (Hs s k H1 H2) as (s0 & H3 & H4). destruct (H s0 k H3 H4) as [H5 H6].
  split; [intros m Hm; apply H5; lia|]. intros HnP. destruct H6 as [H6 H7]; [auto|]. split; [done|]. intros Hi. apply H7. by apply Hk.
Qed.

Lemma keys_opened rec j s s' :
  length (sr_previous rec) <= 40 -> sr_states rec !! j = Some s ->
  keys (record_after j s' rec) = omap view [s'] ++ omap view (delete j (sr_states rec)) /\
  keys rec ≡ₚ omap view [s] ++ omap view (delete j (sr_states rec)).
Proof.
  intros Hl Hj. unfold keys. rewrite (record_after_states _ _ _ _ Hl Hj), <- !omap_app. split; [done|].
  apply omap_Permutation. by apply delete_Permutation.
Qed.
Lemma record_after_state j s rec : sr_state (record_after j s rec) = s.
Proof. by destruct j. Qed.

Lemma ok_opened U P pos rec pos' rec' :
  length (sr_previous rec) <= 40 -> pos <= pos' -> pos' <= e ->
  okl U pos (keys rec) -> pends U P pos rec -> opened pos rec pos' rec' -> ok U P pos' rec'.
Proof using Hfresh.
  intros Hl Hp He Ho Hpe (j & s & n & s' & Hj & -> & Ha & Hps & Hv).
  destruct (keys_opened rec j s s' Hl Hj) as [K1 K2]. split; [|split; [by rewrite record_after_state; intros ? _|]].
  - rewrite K1. destruct Hv as [Hv|(H1 & H2 & Hv)].
    + eapply okl_pos; [done|]. eapply okl_sub; [|done]. rewrite K2. cbn. by rewrite Hv.
    + cbn. rewrite Hv. apply (okl_fresh _ pos); [done..|]. eapply okl_sub; [|done]. rewrite K2. by apply submseteq_inserts_l.
  - eapply pends_sub; [done|by intros ?| | |done].
    + intros s0 k. rewrite (record_after_states _ _ _ _ Hl Hj). intros [->|Hs0]%elem_of_cons Hk.
      * exists s. split; [by eapply elem_of_list_lookup_2|]. unfold pending_key in *. by rewrite <- Hps.
      * exists s0. split; [|done]. eapply elem_of_submseteq; [exact Hs0|]. apply sublist_submseteq, sublist_delete.
    + intros k _. rewrite K1, K2, !fmap_app. intros [Hk|Hk]%elem_of_app Hd; apply elem_of_app; [|by right].
      destruct Hv as [Hv|(H1 & H2 & Hv)]; cbn in *; [left; by rewrite <- Hv|]. rewrite Hv in Hk. apply elem_of_list_singleton in Hk as ->.
      exfalso. apply (Hd n); [lia|lia|done].
Qed.

Lemma keys_archived rec s : loaded_inv rec -> keys (sr_setState s (archiveUnlessFresh rec)) ⊆+ omap view [s] ++ keys rec.
Proof.
  intros H. unfold keys. change (sr_states (sr_setState s ?r)) with ([s] ++ sr_previous r). rewrite (archive_of_eq _ H).
  rewrite omap_app. apply submseteq_app; [done|].
  unfold archive_of. destruct (sr_fresh rec); [apply submseteq_nil_l|].
  change (sr_states rec) with (states rec). rewrite <- (take_drop 40 (states rec)) at 2. rewrite omap_app. by apply submseteq_inserts_r.
Qed.

(** ** The logic *)

(** A program loads the record of ([r], [d]), for which [IB] holds, and stores one for which
    [IA] holds. *)
Context (r d : Z).
Inductive holdsrec := Nothing | Holds (rec : sessionRecord) | Stored.
Definition after {R} (c : call R) (o : holdsrec) : res R -> holdsrec :=
  match c in call R return res R -> holdsrec with
  | CLoadSession r' d' => fun x =>
      match o with
      | Stored => Stored
      | _ => if bool_decide ((r', d') = (r, d)) then match x with Ok rec => Holds rec | Err _ => Nothing end else Nothing
      end
  | CStoreSession r' d' _ => fun _ => if bool_decide ((r', d') = (r, d)) then Stored else o
  | _ => fun _ => o
  end.
Section logic.
Context (IB : sessionRecord -> Prop) (IA : nat -> sessionRecord -> Prop).
Context (HA : forall pos pos' rec, pos <= pos' -> IA pos rec -> IA pos' rec).
Context (HA' : forall pos rec, IA pos rec -> IA pos (SessionRecord false (sr_state rec) (sr_previous rec))).
Fixpoint fspec {A} (pos : nat) (o : holdsrec) (p : prog A) : Prop :=
  match p with
  | Ret _ | Raise _ => True
  | Call c k =>
      (match c with
       | CStoreSession r' d' rec' => (r', d') = (r, d) -> pos <= e ->
           exists rec0, o = Holds rec0 /\ (IB rec0 -> IA pos rec')
       | _ => True
       end) /\
      forall x, resp c pos x -> fspec (next_pos c pos) (after c o x) (k x)
  end.

Lemma fspec_free {A} pos o (p : prog A) : nostore p -> fspec pos o p.
Proof.
  revert pos o. induction p as [a|ex|T c k IH]; intros pos o; [done..|]. intros [Hc Hk].
  split; [by destruct c|]. intros x _. by apply IH.
Qed.
Lemma fspec_bind {A B} pos o (p : prog A) (f : A -> prog B) Q :
  nosession p -> dspec pos p Q -> (forall pos' a, pos <= pos' -> Q pos' a -> fspec pos' o (f a)) -> fspec pos o (p ≫= f).
Proof.
  revert pos. induction p as [a|ex|T c k IH]; intros pos Hn Hp Hf; [by apply Hf|done|]. destruct Hn as [Hc Hk].
  split; [by destruct c|]. intros x Hx. replace (after c o x) with o by (by destruct c).
  apply IH; [done|by apply Hp|]. intros pos' a Hle. pose proof (next_pos_le c pos). apply Hf. lia.
Qed.
Lemma fspec_load {B} pos (f : sessionRecord -> prog B) :
  (forall rec, loaded_inv rec -> fspec pos (Holds rec) (f rec)) -> fspec pos Nothing (do (CLoadSession r d) ≫= f).
Proof.
  intros Hf. split; [done|]. intros [rec|ex] Hx; [|done]. cbn. rewrite bool_decide_true by done. apply Hf. by apply Hx.
Qed.
Lemma fspec_store {B} pos rec0 rec' (f : unit -> prog B) :
  (pos <= e -> IB rec0 -> IA pos rec') -> nostore (f tt) ->
  fspec pos (Holds rec0) (do (CStoreSession r d rec') ≫= f).
Proof.
  intros H Hf. split; [intros _ Hp; exists rec0; eauto|]. intros [[]|ex] _; [|done]. cbn. by apply fspec_free.
Qed.
Lemma fspec_catch {A} pos o (p : prog A) h : fspec pos o p -> (forall ex, nostore (h ex)) -> fspec pos o (catch p h).
Proof.
  intros Hp Hh. revert pos o Hp. induction p as [a|ex|T c k IH]; intros pos o Hp; [done|apply fspec_free, Hh|].
  destruct Hp as [Hc Hk]. split; [done|]. intros x Hx. apply IH. by apply Hk.
Qed.

(** *** Soundness *)

Definition at_before (w : world) : Prop := forall rec, session_at w r d = Ok rec -> IB rec.
Definition at_after (w : world) : Prop := forall rec, session_at w r d = Ok rec -> IA (w_pos w) rec.
Definition keeping (w : world) (o : holdsrec) : Prop :=
  match o with Nothing => at_before w | Holds rec => at_before w /\ IB rec | Stored => at_after w end.
Lemma keeping_step w w' o : w_sessions w' !! (r, d) = w_sessions w !! (r, d) -> w_pos w <= w_pos w' -> keeping w o -> keeping w' o.
Proof using HA.
  intros Hs Hp. assert (session_at w' r d = session_at w r d) as E by (unfold session_at; cbn; by rewrite Hs).
  assert (at_before w -> at_before w') as Hb by (intros H rec; rewrite E; apply H).
  destruct o; cbn; [done|intros [H1 H2]; split; [|done]; by apply Hb|]. intros H rec. rewrite E. intros Hrec. eapply HA; [done|]. by apply H.
Qed.

Lemma fspec_step {A R} (c : call R) (k : res R -> prog A) o w :
  w_tape w = t -> stored_ok loaded_inv w -> call_ok record_inv c -> fspec (w_pos w) o (Call c k) ->
  keeping w o -> w_pos w <= e ->
  let x := (step_call c w).1 in let w' := (step_call c w).2 in
  keeping w' (after c o x) /\ fspec (w_pos w') (after c o x) (k x).
Proof using HA HA'.
  intros Ht Hw Hc [Hs Hk] Hh Hp. cbv zeta.
  pose proof (step_tape c w) as [_ Hpos]. pose proof (next_pos_le c (w_pos w)) as Hle.
  assert (resp c (w_pos w) (step_call c w).1) as Hx.
  { destruct c; try done; cbn; [|by rewrite Ht]. intros rec. intros H. by apply (Hw recipient device). }
  split; [|by rewrite Hpos; apply Hk].
  destruct c; try (eapply keeping_step; [done|rewrite Hpos; exact Hle|exact Hh]); cbn [step_call snd] in *.
  - (* load *)
    set (x := (step_call (CLoadSession recipient device) w).1) in *. cbn [after].
    assert (o = Stored \/ at_before w) as [->|Hb] by (destruct o; cbn in Hh; [by right|right; by destruct Hh|by left]); [done|].
    assert (keeping w (if bool_decide ((recipient, device) = (r, d)) then match x with Ok rec => Holds rec | Err _ => Nothing end else Nothing)) as Hk'.
    { case_bool_decide as E; [|done]. injection E as -> ->. destruct x eqn:E; [|done]. split; [done|]. apply Hb. by rewrite <- E. }
    destruct o; [exact Hk'..|done].
  - (* store *)
    cbn [after]. case_bool_decide as E.
    + injection E as -> ->. destruct (Hs eq_refl Hp) as (rec0 & -> & Hu). destruct Hh as [_ Hh].
      intros rec Hrec. rewrite session_stored in Hrec by (by apply Hc). injection Hrec as <-. apply HA'. by apply Hu.
    + apply (keeping_step w); [|done|exact Hh]. cbn [w_set_sessions w_sessions]. by rewrite lookup_insert_ne.
  - apply (keeping_step w); [done|cbn; lia|exact Hh].
  - apply (keeping_step w); [done|cbn; lia|exact Hh].
  - apply (keeping_step w); [done|cbn; lia|exact Hh].
Qed.

Lemma fspec_run {A} (p : prog A) P o w :
  w_tape w = t -> stored_ok loaded_inv w -> pspec loaded_inv record_inv p P -> fspec (w_pos w) o p ->
  keeping w o -> w_pos (run p w).2 <= e -> at_before (run p w).2 \/ at_after (run p w).2.
Proof using HA HA'.
  revert o w. induction p as [a|ex|R c k IH]; intros o w Ht Hw Hp Hf Hh He.
  1,2: destruct o; cbn in *; [by left|left; by destruct Hh|by right].
  destruct Hp as [Hc Hp].
  destruct (step_ok loaded_inv record_inv loaded_inv_new ltac:(by intros ? []) record_inv_fresh c w Hw Hc) as [Hr Hw'].
  pose proof (run_tape (Call c k) w) as [_ Hm].
  destruct (fspec_step c k o w Ht Hw Hc Hf Hh ltac:(lia)) as (Hh' & Hf'). pose proof (step_tape c w) as [Ht' _].
  cbn [run] in *. destruct (step_call c w) as [x w']. cbn [fst snd] in *. eapply IH; [congruence|done|by apply Hp|done..].
Qed.
Lemma fspec_crash {A} n (p : prog A) P o w :
  w_tape w = t -> stored_ok loaded_inv w -> pspec loaded_inv record_inv p P -> fspec (w_pos w) o p ->
  keeping w o -> w_pos (run_crash n p w).2 <= e -> at_before (run_crash n p w).2 \/ at_after (run_crash n p w).2.
Proof using HA HA'.
  revert n o w. induction p as [a|ex|R c k IH]; intros n o w Ht Hw Hp Hf Hh He.
  1,2: destruct n; destruct o; cbn in *; [by left|left; by destruct Hh|by right|by left|left; by destruct Hh|by right].
  destruct n as [|n]; [destruct o; cbn in *; [by left|left; by destruct Hh|by right]|]. destruct Hp as [Hc Hp].
  destruct (step_ok loaded_inv record_inv loaded_inv_new ltac:(by intros ? []) record_inv_fresh c w Hw Hc) as [Hr Hw'].
  pose proof (crash_tape (S n) (Call c k) w) as [_ Hm].
  destruct (fspec_step c k o w Ht Hw Hc Hf Hh ltac:(lia)) as (Hh' & Hf'). pose proof (step_tape c w) as [Ht' _].
  cbn [run_crash] in *. destruct (step_call c w) as [x w']. cbn [fst snd] in *. eapply IH; [congruence|done|by apply Hp|done..].
Qed.
End logic.

(** *** The calls *)

Lemma dspec_and {A} pos (p : prog A) Q R : dspec pos p Q -> dspec pos p R -> dspec pos p (fun pos' a => Q pos' a /\ R pos' a).
Proof. revert pos. induction p as [a|ex|T c k IH]; intros pos H1 H2; [done..|]. intros x Hx. apply IH; auto. Qed.

Local Notation keeps U P p0 := (fspec (ok U P p0) (ok U P)).
Lemma fspec_decryptMsg U P p0 pos m : p0 <= pos -> keeps U P p0 pos Nothing (decryptMsg C r d m).
Proof using Hfresh Hok.
  intros Hp0. unfold decryptMsg. eapply fspec_bind; [by apply nosession_do|apply dspec_top|]. intros p1 [] Hp1 _; [|done].
  apply fspec_load. intros rec Hrec.
  eapply fspec_bind; [apply nosession_decryptWithSessionRecord|apply dspec_decryptWithSessionRecord|]. intros p2 x Hp Hx.
  apply fspec_store; [|done]. intros He (Ho & _ & Hpe)%(ok_pos _ _ _ p1); [|lia]. eapply ok_opened; [by apply Hrec|done..].
Qed.

Lemma bob_chains s x1 x2 x3 x4 x5 x6 s' :
  initializeSessionAsBob C s x1 x2 x3 x4 x5 x6 = Ok s' -> ss_receiverChains s' = ss_receiverChains s /\ ss_pendingKeyExchange s' = ss_pendingKeyExchange s /\ ss_aliceBaseKey s' = ss_aliceBaseKey s.
Proof.
  intros H. unfold initializeSessionAsBob in H. do 4 (apply bind_ok_inv in H as (? & _ & H)).
  destruct (calculateDerivedKeys C _) as [rk ck]. apply bind_ok_inv in H as (s2 & H2 & [= <-]).
  by apply bind_ok_inv in H2 as (? & _ & [= <-]).
Qed.
(** No key and no pending exchange is new. *)
Definition shrinks (rec rec' : sessionRecord) : Prop :=
  keys rec' ⊆+ keys rec /\
  forall s k, s ∈ sr_states rec' -> pending_key s = Some k -> exists s0, s0 ∈ sr_states rec /\ pending_key s0 = Some k.
Lemma states_archived rec s s0 : loaded_inv rec -> s0 ∈ sr_states (sr_setState s (archiveUnlessFresh rec)) -> s0 = s \/ s0 ∈ sr_states rec.
Proof.
  intros H. change (sr_states (sr_setState s ?r)) with ([s] ++ sr_previous r). rewrite (archive_of_eq _ H).
  intros [->%elem_of_list_singleton|Hs]%elem_of_app; [by left|right]. unfold archive_of in Hs. destruct (sr_fresh rec); [by apply elem_of_nil in Hs|].
  apply elem_of_take in Hs as (n & Hn & _). by eapply elem_of_list_lookup_2.
Qed.
Lemma dspec_processV3 pos rec m : loaded_inv rec ->
  dspec pos (processV3 C rec m) (fun _ x => shrinks rec x.1).
Proof.
  intros Hrec. unfold processV3. destruct (sr_hasSessionState _ _ _); [cbn; split; [reflexivity|eauto]|].
  eapply dspec_bind; [apply dspec_top|]. intros p1 spr _ _.
  eapply dspec_bind; [apply dspec_top|]. intros p2 spk _ _.
  eapply dspec_bind; [apply dspec_top|]. intros p3 id _ _.
  eapply dspec_bind; [apply dspec_top|]. intros p4 otpk _ _.
  eapply dspec_bind; [apply dspec_lift|]. intros p5 s _ [_ Hs%bob_chains]. rewrite archived_new in Hs by done. destruct Hs as (Hs & Hp & _).
  eapply dspec_bind; [apply dspec_top|]. intros p6 reg _ _.
  eapply dspec_bind; [apply dspec_lift|]. intros p7 s1 _ [_ Hs1].
  eapply dspec_bind; [apply dspec_lift|]. intros p8 s2 _ [_ Hs2]. cbn [dspec fst].
  apply bind_ok_inv in Hs2 as (? & _ & [= <-]). apply bind_ok_inv in Hs1 as (? & _ & [= <-]).
  split.
  - etrans; [by apply keys_archived|].
    match goal with |- omap view [?s0] ++ _ ⊆+ _ => assert (view s0 = None) as E end; [|cbn; by rewrite E].
    unfold view, active. by change (ss_receiverChains _) with (ss_receiverChains s); rewrite Hs.
  - intros s0 k Hs0 Hk. apply states_archived in Hs0 as [->|Hs0]; [|eauto|done]. exfalso.
    unfold pending_key in Hk. change (ss_pendingKeyExchange _) with (ss_pendingKeyExchange s) in Hk. by rewrite Hp in Hk.
Qed.
Lemma dspec_builder_process pos rec m : loaded_inv rec ->
  dspec pos (builder_process C r rec m) (fun _ x => record_inv x.1 /\ shrinks rec x.1).
Proof.
  intros Hrec. apply dspec_and.
  - eapply dspec_pspec; [|by apply spec_builder_process]. done.
  - unfold builder_process. eapply dspec_bind; [apply dspec_top|]. intros p1 [] _ _; [|done].
    eapply dspec_bind; [by apply dspec_processV3|]. intros p2 x _ Hx.
    eapply dspec_bind; [apply dspec_top|]. intros p3 u _ _. done.
Qed.
Lemma nosession_builder_process rec m : nosession (builder_process C r rec m).
Proof.
  unfold builder_process. apply nosession_bind; [by apply nosession_do|]. intros []; [|done].
  apply nosession_bind; [apply nosession_processV3|]. intros x. apply nosession_bind; [by apply nosession_do|done].
Qed.
Lemma fspec_decryptPkmsg U P p0 pos m : p0 <= pos -> keeps U P p0 pos Nothing (decryptPkmsg C r d m).
Proof using Hfresh Hok.
  intros Hp0. unfold decryptPkmsg. apply fspec_load. intros rec Hrec.
  eapply fspec_bind; [apply nosession_builder_process|by apply dspec_builder_process|]. intros p1 x Hp1 (Hx1 & Hx2 & Hx3).
  eapply fspec_bind; [apply nosession_decryptWithSessionRecord|apply dspec_decryptWithSessionRecord|]. intros p2 y Hp Hy.
  apply fspec_store.
  - intros He (Ho & _ & Hpe)%(ok_pos _ _ _ pos); [|lia]. eapply ok_opened; [by apply Hx1|exact Hp|done| | |done].
    + eapply okl_pos; [done|]. by eapply okl_sub.
    + eapply pends_sub; [done|by intros ?|done| |done]. intros k _ Hk _. eapply elem_of_submseteq; [exact Hk|]. by apply fmap_submseteq.
  - destruct (x.2); [|done]. apply nostore_bind; [by apply nostore_do|done].
Qed.

Lemma dspec_asAlice pos s x1 x2 x3 x4 x5 x6 : ss_receiverChains s = [] ->
  dspec pos (initializeSessionAsAlice C s x1 x2 x3 x4 x5 x6)
    (fun pos' s' => exists n, pos <= n /\ n < pos' /\ ss_receiverChains s' <> [] /\ view s' = Some (pub_of n, 0%N) /\
       ss_pendingKeyExchange s' = ss_pendingKeyExchange s).
Proof using Hok.
  intros Hs. unfold initializeSessionAsAlice.
  eapply dspec_bind; [apply dspec_generate|]. intros p1 ek _ [-> ->].
  eapply dspec_mono; [apply dspec_lift|]. intros p2 s' _ [-> H]. do 4 (apply bind_ok_inv in H as (? & _ & H)).
  destruct (calculateDerivedKeys C _) as [rk ck].
  apply bind_ok_inv in H as (y & Hy & H). apply bind_ok_inv in H as (s1 & H1 & H). apply bind_ok_inv in H as (s2 & H2 & [= <-]).
  exists pos. split; [lia|]. split; [lia|].
  apply bind_ok_inv in H1 as (c1 & _ & [= <-]). apply bind_ok_inv in H2 as (c2 & Hc2 & [= <-]).
  apply ch_putChainKey_inv in Hc2 as [-> _].
  match goal with |- ss_receiverChains ?s0 <> [] /\ _ => assert (ss_receiverChains s0 <> []) as Ha end.
  { cbn [ss_receiverChains ss_set_senderChain st_setRootKey ss_set_rootKey ss_set_receiverChains].
    rewrite Hs. done. }
  split; [done|]. split; [|done]. rewrite view_active by (by apply active_chains).
  change (st_getSenderRatchetKey _) with (decodePoint (pub_serialize (pub_of pos)) 0).
  rewrite decodePoint_serialize by (rewrite pub_of_len; lia).
  change (Some (pub_of pos, cIndex y.2) = Some (pub_of pos, 0%N)). do 2 f_equal.
  unfold rk_createChain in Hy. apply bind_ok_inv in Hy as (? & _ & Hy). destruct (bu_split2 _ _ _). by injection Hy as <-.
Qed.
(** A new state that sends with a drawn key. *)
Lemma ok_started U P pos0 pos rec n s :
  loaded_inv rec -> pos0 <= n -> n < pos -> pos <= e -> active s = true -> pending_key s = None -> view s = Some (pub_of n, 0%N) ->
  ok U P pos0 rec -> ok U P pos (sr_setState s (archiveUnlessFresh rec)).
Proof using Hfresh.
  intros Hrec Hn1 Hn2 He Ha Hp Hv (Ho & _ & Hpe). split; [|split].
  - eapply okl_sub; [by apply keys_archived|]. cbn. rewrite Hv. by apply (okl_fresh _ pos0 _ n).
  - by intros k _.
  - eapply pends_sub; [|by intros ?| | |done]; [lia| |].
    + intros s0 k Hs0 Hk. apply states_archived in Hs0 as [->|Hs0]; [congruence|eauto|done].
    + intros k _ Hk Hd. pose proof (fmap_submseteq fst _ _ (keys_archived rec s Hrec)) as Hs.
      eapply elem_of_submseteq in Hs; [|exact Hk]. cbn in Hs. rewrite Hv in Hs. cbn in Hs. apply elem_of_cons in Hs as [->|?]; [|done].
      exfalso. apply (Hd n); [lia|lia|done].
Qed.
Lemma fspec_bundle U P p0 pos x : p0 <= pos -> keeps U P p0 pos Nothing (processPreKeyBundle C r d x).
Proof using Hfresh Hok.
  intros Hp0. unfold processPreKeyBundle.
  eapply fspec_bind; [by apply nosession_do|apply dspec_top|]. intros p1 [] Hp1 _; [|done].
  destruct (bu_signedPreKey x) as [spk|]; [|done].
  eapply fspec_bind; [by apply nosession_lift|apply dspec_top|]. intros p2 [] Hp2 _; [|done].
  apply fspec_load. intros rec Hrec.
  eapply fspec_bind; [|apply dspec_top|]. { unfold generateKeyPair. apply nosession_bind; [by apply nosession_do|intros; apply nosession_lift]. }
  intros p3 base Hp3 _.
  eapply fspec_bind; [by apply nosession_do|apply dspec_top|]. intros p4 id Hp4 _. cbv zeta.
  eapply fspec_bind; [apply nosession_asAlice|apply dspec_asAlice; by rewrite archived_new|]. intros p5 s Hp5 (n & Hn1 & Hn2 & Ha & Hv & Hpk).
  eapply fspec_bind; [apply nosession_lift|apply dspec_lift|]. intros p6 s1 _ [-> Hs1].
  eapply fspec_bind; [by apply nosession_do|apply dspec_top|]. intros p7 reg Hp7 _.
  eapply fspec_bind; [apply nosession_lift|apply dspec_lift|]. intros p8 s2 _ [-> Hs2].
  eapply fspec_bind; [apply nosession_lift|apply dspec_lift|]. intros p9 s3 _ [-> Hs3].
  assert (ss_receiverChains s3 = ss_receiverChains s /\ ss_senderChain s3 = ss_senderChain s /\ ss_pendingKeyExchange s3 = ss_pendingKeyExchange s) as (E1 & E2 & E3).
  { apply bind_ok_inv in Hs3 as (? & _ & [= <-]). apply bind_ok_inv in Hs2 as (? & _ & [= <-]).
    apply bind_ok_inv in Hs1 as (? & _ & Hs1). by apply bind_ok_inv in Hs1 as (? & _ & [= <-]). }
  set (s4 := st_setAliceBaseKey _ s3).
  assert (active s4 = true) as Hact by (apply active_chains; change (ss_receiverChains s3 <> []); congruence).
  apply fspec_store; [|by apply nostore_do]. intros He. eapply (ok_started _ _ _ _ _ n); [done|lia|lia|done|done| |].
  - unfold pending_key. change (ss_pendingKeyExchange s4) with (ss_pendingKeyExchange s3). rewrite E3, Hpk. by rewrite archived_new.
  - rewrite <- Hv. apply view_eq; [done|by apply active_chains|done].
Qed.

(** A new pending exchange with a drawn key. *)
Lemma ok_pending U P pos0 pos rec s n :
  ss_receiverChains s = ss_receiverChains (sr_state rec) -> ss_senderChain s = ss_senderChain (sr_state rec) ->
  ss_aliceBaseKey s = ss_aliceBaseKey (sr_state rec) -> pending_key s = Some (pub_of n) ->
  pos0 <= n -> n < pos -> pos <= e -> ok U P pos0 rec -> ok U P pos (sr_setState s rec).
Proof using Hfresh.
  intros E1 E2 E2' Hp Hb Hn He Ho. pose proof Ho as ((Hb0 & _ & _ & Hd) & _ & _). apply (ok_pos _ _ _ pos) in Ho as (H1 & H2 & H3); [|lia].
  assert (st_getSenderRatchetKey s = st_getSenderRatchetKey (sr_state rec)) as E3 by (unfold st_getSenderRatchetKey, st_senderChain; by rewrite E2).
  assert (active s = active (sr_state rec)) as E5 by (unfold active; by rewrite E1, E2').
  assert (view s = view (sr_state rec)) as E4 by (unfold view, st_senderChain; by rewrite E5, E2, E3).
  assert (keys (sr_setState s rec) = keys rec) as Ek.
  { unfold keys in *. change (sr_states (sr_setState s rec)) with ([s] ++ sr_previous rec).
    change (sr_states rec) with ([sr_state rec] ++ sr_previous rec). rewrite !omap_app. cbn. by rewrite E4. }
  split; [by rewrite Ek|split].
  - intros k. change (sr_state (sr_setState s rec)) with s. rewrite E3, E5. apply H2.
  - intros s0 k Hs0 Hk. change (s0 ∈ [s] ++ sr_previous rec) in Hs0. apply elem_of_app in Hs0 as [->%elem_of_list_singleton|Hs0].
    + rewrite Hp in Hk. injection Hk as <-. split; [intros m Hm Hme E; apply (Hfresh n m); [lia|lia|done|done]|].
      intros _. rewrite Ek. split; intros ([K i] & E & Hx)%elem_of_list_fmap; apply (Hd (K, i) n); try done; try lia; apply elem_of_app; [by left|by right].
    + unfold pends in H3. rewrite Ek. apply (H3 s0); [by right|done].
Qed.
Lemma nosession_generate : nosession (generateKeyPair C).
Proof. unfold generateKeyPair. apply nosession_bind; [by apply nosession_do|intros; apply nosession_lift]. Qed.
Lemma pending_set q base rat id s s' : length (kp_pub rat) = 32 -> st_setPendingKeyExchange q base rat id s = Ok s' ->
  ss_receiverChains s' = ss_receiverChains s /\ ss_senderChain s' = ss_senderChain s /\ ss_aliceBaseKey s' = ss_aliceBaseKey s /\
  pending_key s' = Some (kp_pub rat).
Proof. intros Hl Hs. apply bind_ok_inv in Hs as (? & _ & [= <-]). split_and!; try done. cbn. by rewrite take_ge by lia. Qed.
Lemma fspec_initKx U P p0 pos : p0 <= pos -> keeps U P p0 pos Nothing (processInitKeyExchangeMessage C r d).
Proof using Hok Hfresh.
  intros Hp0. unfold processInitKeyExchangeMessage, rethrow. apply fspec_catch; [|by intros ex; destruct (isInvalidKey ex)].
  eapply fspec_bind; [by apply nosession_do|apply dspec_top|]. intros p1 q Hp1 _. cbv zeta.
  eapply fspec_bind; [apply nosession_generate|apply dspec_top|]. intros p2 base Hp2 _.
  eapply fspec_bind; [apply nosession_generate|apply dspec_generate|]. intros p3 rat _ [-> ->].
  eapply fspec_bind; [by apply nosession_do|apply dspec_top|]. intros p4 id Hp4 _.
  eapply fspec_bind; [|apply dspec_top|].
  { unfold calculateSignature. apply nosession_bind; [by apply nosession_do|intros; apply nosession_lift]. }
  intros p5 sig Hp5 _. apply fspec_load. intros rec Hrec.
  eapply fspec_bind; [apply nosession_lift|apply dspec_lift|]. intros p6 s _ [-> Hs].
  apply pending_set in Hs as (E1 & E2 & E3 & E4); [|apply pub_of_len].
  apply fspec_store; [|apply nostore_lift]. intros He. eapply (ok_pending _ _ p0 _ _ _ p2); [done|done|done|exact E4|lia|lia|done].
Qed.

Lemma keys_current rec k i : view (sr_state rec) = Some (k, i) -> keys rec = (k, i) :: omap view (sr_previous rec).
Proof. intros H. unfold keys, sr_states. cbn. by rewrite H. Qed.
(** The current state encrypted. *)
Lemma ok_advanced U P pos rec s k :
  st_getSenderRatchetKey (sr_state rec) = Ok k -> s = advanced C (sr_state rec) -> ok U P pos rec ->
  let i := next_index (st_senderChain (sr_state rec)) in
  (k, i) ∉ U /\ ok ((k, i) :: U) P pos (sr_setState s rec) /\ ok U P pos (sr_setState s rec).
Proof.
  intros Hk -> (Ho & Hr & Hpe). cbv zeta. set (i := next_index (st_senderChain (sr_state rec))). pose proof (Hr k Hk) as Ha.
  assert (view (sr_state rec) = Some (k, i)) as Hv by (rewrite view_active by done; by rewrite Hk).
  assert (view (advanced C (sr_state rec)) = Some (k, (i + 1)%N)) as Hv'.
  { rewrite view_active by done. change (st_getSenderRatchetKey _) with (st_getSenderRatchetKey (sr_state rec)). by rewrite Hk. }
  pose proof (keys_current _ _ _ Hv) as Ekr. rewrite Ekr in Ho.
  assert (keys (sr_setState (advanced C (sr_state rec)) rec) = (k, (i + 1)%N) :: omap view (sr_previous rec)) as Ek.
  { by apply (keys_current (sr_setState (advanced C (sr_state rec)) rec)). }
  assert (ready (advanced C (sr_state rec))) as Hr' by (intros ? _; exact Ha).
  assert (forall s0 k0, s0 ∈ sr_states (sr_setState (advanced C (sr_state rec)) rec) -> pending_key s0 = Some k0 ->
    (forall m, pos <= m -> m < e -> pub_of m <> k0) /\ (k0 ∉ P -> k0 ∉ U.*1 /\ k0 <> k /\ k0 ∉ (omap view (sr_previous rec)).*1)) as Hps.
  { intros s0 k0 Hs0 Hk0. change (s0 ∈ [advanced C (sr_state rec)] ++ sr_previous rec) in Hs0.
    assert (exists s1, s1 ∈ sr_states rec /\ pending_key s1 = Some k0) as (s1 & H1 & H2).
    { apply elem_of_app in Hs0 as [->%elem_of_list_singleton|Hs0]; [exists (sr_state rec); split; [by left|done]|exists s0; split; [by right|done]]. }
    destruct (Hpe s1 k0 H1 H2) as [H3 H4]. split; [done|]. intros HnP. destruct (H4 HnP) as [H5 H6]. rewrite Ekr, fmap_cons, not_elem_of_cons in H6.
    destruct H6. done. }
  destruct (okl_emit _ _ _ _ _ Ho) as [H1 H2]. split_and!; [done| |].
  - split; [by rewrite Ek|]. split; [done|]. intros s0 k0 Hs0 Hk0. destruct (Hps s0 k0 Hs0 Hk0) as [H3 H4]. split; [done|].
    intros HnP. destruct (H4 HnP) as (H5 & H6 & H7). rewrite Ek, !fmap_cons, !not_elem_of_cons. done.
  - split; [|split; [done|]].
    + rewrite Ek. apply (okl_next _ _ _ i); [lia|done].
    + intros s0 k0 Hs0 Hk0. destruct (Hps s0 k0 Hs0 Hk0) as [H3 H4]. split; [done|].
      intros HnP. destruct (H4 HnP) as (H5 & H6 & H7). rewrite Ek, !fmap_cons, !not_elem_of_cons. done.
Qed.
Lemma fspec_encrypt U P p0 pos pt : p0 <= pos -> keeps U P p0 pos Nothing (encrypt C r d pt).
Proof using Hok.
  intros Hp0. unfold encrypt. apply fspec_load. intros rec Hrec.
  eapply fspec_bind; [apply nosession_lift|apply dspec_lift|]. intros p1 [ct s] _ [-> Hs].
  apply fspec_store; [|done]. intros He Ho%(ok_pos _ _ _ pos); [|lia].
  apply (encryptWithState_inv C Hok) in Hs as (rk & local & remote & _ & Hrk & _ & _ & _ & _ & _ & _ & _ & _ & Es & _).
  by apply (ok_advanced U P pos rec s rk).
Qed.

(** A key exchange message: the new state sends with a drawn key or with that of the pending
    exchange, which is then used up. *)
Lemma pending_ratchet s k : st_hasPendingKeyExchange s = true -> st_getPendingKeyExchangeRatchetKey s = Ok k -> pending_key s = Some (kp_pub k).
Proof.
  unfold st_hasPendingKeyExchange, st_getPendingKeyExchangeRatchetKey, st_pendingKeyExchange, pending_key.
  destruct (ss_pendingKeyExchange s) as [p|]; [|done]. intros _ H. apply bind_ok_inv in H as (q & Hq%decodePoint_ok_inv & [= <-]).
  destruct Hq as (x & Hx & ->). rewrite default_Some in Hx. destruct (px_ratchetKey p); [|done]. rewrite default_Some in Hx. by subst.
Qed.
Lemma bob_view s x1 x2 x3 x4 x5 x6 s' : length (kp_pub x3) <= 32 -> ss_aliceBaseKey s = None ->
  initializeSessionAsBob C s x1 x2 x3 x4 x5 x6 = Ok s' -> view s' = Some (kp_pub x3, 0%N).
Proof.
  intros Hl Hn H. pose proof (bob_chains _ _ _ _ _ _ _ _ H) as (_ & _ & Hb). rewrite view_active by (apply active_base; congruence).
  unfold initializeSessionAsBob in H. do 4 (apply bind_ok_inv in H as (? & _ & H)).
  destruct (calculateDerivedKeys C _) as [rk ck] eqn:E. apply bind_ok_inv in H as (s2 & H2 & [= <-]).
  apply bind_ok_inv in H2 as (c & Hc & [= <-]). apply ch_putChainKey_inv in Hc as [-> _].
  change (st_getSenderRatchetKey _) with (decodePoint (pub_serialize (kp_pub x3)) 0).
  rewrite decodePoint_serialize by done. change (Some (kp_pub x3, cIndex ck) = Some (kp_pub x3, 0%N)). do 2 f_equal.
  unfold calculateDerivedKeys in E. destruct (bu_split2 _ _ _). by injection E as _ <-.
Qed.

Lemma dspec_initializeSession pos s oi ob orat tb tr ti : s = st_new -> length (kp_pub orat) <= 32 ->
  dspec pos (initializeSession C s oi ob orat tb tr ti)
    (fun pos' s' => active s' = true /\ pending_key s' = None /\
      (view s' = Some (kp_pub orat, 0%N) \/ exists n, pos <= n /\ n < pos' /\ view s' = Some (pub_of n, 0%N))).
Proof using Hok.
  intros -> Hl. unfold initializeSession. eapply dspec_bind; [apply dspec_lift|]. intros p1 [] _ [-> _].
  - eapply dspec_mono; [by apply dspec_asAlice|]. intros p2 s' _ (n & H1 & H2 & H3 & H4 & H5).
    split; [by apply active_chains|]. split; [unfold pending_key; by rewrite H5|]. right. exists n. done.
  - eapply dspec_mono; [apply dspec_lift|]. intros p2 s' _ [-> Hs]. pose proof (bob_chains _ _ _ _ _ _ _ _ Hs) as (_ & H2 & H3).
    split; [apply active_base; by rewrite H3|]. split; [unfold pending_key; by rewrite H2|]. left. eapply (bob_view st_new); [done|done|exact Hs].
Qed.
(** The pending exchange is used. *)
Lemma ok_finished U P pos0 pos rec k s :
  loaded_inv rec -> pos0 <= pos -> active s = true -> pending_key s = None -> view s = Some (k, 0%N) ->
  pending_key (sr_state rec) = Some k -> k ∉ P -> ok U P pos0 rec -> ok U (k :: P) pos (sr_setState s (archiveUnlessFresh rec)).
Proof.
  intros Hrec Hp Ha Hps Hv Hk HnP (Ho & _ & Hpe). destruct (Hpe (sr_state rec) k) as [Hd Hu]; [by left|done|]. destruct (Hu HnP) as [HU HK].
  split; [|split; [by intros ? _|]].
  - eapply okl_sub; [by apply keys_archived|]. cbn. rewrite Hv. apply (okl_pos U pos0 pos) in Ho; [|done]. destruct Ho as (H1 & H2 & H3 & H4).
    split_and!; [done| | |].
    + cbn. by apply NoDup_cons.
    + intros K n i Hn [[= -> ->]|Hi]%elem_of_cons; [|by eapply H3]. exfalso. apply HU. apply elem_of_list_fmap. by exists (k, n).
    + intros x m [Hx|[->|Hx]%elem_of_cons]%elem_of_app Hm Hme.
      * apply H4; [apply elem_of_app; by left|done|done].
      * apply Hd; [lia|done].
      * apply H4; [apply elem_of_app; by right|done|done].
  - eapply pends_sub; [done| | | |done].
    + intros k' Hk'. by right.
    + intros s0 k' Hs0 Hk'. apply states_archived in Hs0 as [->|Hs0]; [congruence|eauto|done].
    + intros k' [Hne _]%not_elem_of_cons Hk' _. pose proof (fmap_submseteq fst _ _ (keys_archived rec s Hrec)) as Hs.
      eapply elem_of_submseteq in Hs; [|exact Hk']. cbn in Hs. rewrite Hv in Hs. cbn in Hs. by apply elem_of_cons in Hs as [->|?].
Qed.
Lemma ok_more U P P' pos rec : (forall k, k ∈ P -> k ∈ P') -> ok U P pos rec -> ok U P' pos rec.
Proof. intros H (H1 & H2 & H3). split; [done|]. split; [done|]. eapply pends_sub; [done|exact H|eauto|auto|done]. Qed.

(** What holds before a key exchange message is processed, and after. *)
Definition before_kx (U : list (bytes * N)) (P : list bytes) (o : option bytes) (p0 : nat) (rec : sessionRecord) : Prop :=
  ok U P p0 rec /\ pending_key (sr_state rec) = o.
Definition after_kx (U : list (bytes * N)) (P : list bytes) (o : option bytes) : nat -> sessionRecord -> Prop :=
  ok U (option_list o ++ P).
Lemma ok_exchanged U P q p0 pos rec orat s :
  (forall k, q = Some k -> k ∉ P) -> loaded_inv rec -> p0 <= pos -> pos <= e -> active s = true -> pending_key s = None ->
  (view s = Some (kp_pub orat, 0%N) \/ exists n, p0 <= n /\ n < pos /\ view s = Some (pub_of n, 0%N)) ->
  (pending_key (sr_state rec) = Some (kp_pub orat) \/ exists n, p0 <= n /\ n < pos /\ orat = kp_of n) ->
  before_kx U P q p0 rec -> after_kx U P q pos (sr_setState s (archiveUnlessFresh rec)).
Proof using Hfresh.
  intros Hq Hrec Hp He Ha Hps Hv Hor [Ho <-]. unfold after_kx.
  assert ((exists n, p0 <= n /\ n < pos /\ view s = Some (pub_of n, 0%N)) ->
    ok U (option_list (pending_key (sr_state rec)) ++ P) pos (sr_setState s (archiveUnlessFresh rec))) as Hdrawn.
  { intros (n & H1 & H2 & H3). eapply (ok_started _ _ p0 _ _ n); [done..|]. eapply ok_more; [|done]. intros k Hk. apply elem_of_app. by right. }
  destruct Hv as [Hv|Hv]; [|by apply Hdrawn].
  destruct Hor as [Hk|(n & H1 & H2 & ->)]; [|apply Hdrawn; exists n; split_and!; [done|done|exact Hv]].
  rewrite Hk. cbn. by eapply (ok_finished _ _ p0); [done|done|done|done|done|done|apply Hq|].
Qed.
Lemma decoded_len pub priv k : stored_keypair pub priv = Ok k -> length (kp_pub k) <= 32.
Proof. intros H. apply bind_ok_inv in H as (q & Hq%decodePoint_length & [= <-]). done. Qed.
Lemma fspec_initiate U P q p0 pos m : p0 <= pos -> (forall k, q = Some k -> k ∉ P) ->
  fspec (before_kx U P q p0) (after_kx U P q) pos Nothing (processInitiate C r d m).
Proof using Hok Hfresh.
  intros Hp0 Hq. unfold processInitiate. apply fspec_load. intros rec Hrec.
  eapply fspec_bind; [apply nosession_lift|apply dspec_top|]. intros p1 [] Hp1 _; [|done].
  eapply (fspec_bind _ _ p1 _ _ _ (fun pos' ours => length (kp_pub ours.1.2) <= 32 /\
    (pending_key (sr_state rec) = Some (kp_pub ours.1.2) \/ exists n, p1 <= n /\ n < pos' /\ ours.1.2 = kp_of n))).
  { destruct (st_hasPendingKeyExchange _); [apply nosession_lift|].
    apply nosession_bind; [by apply nosession_do|]. intros i. apply nosession_bind; [apply nosession_generate|]. intros x.
    apply nosession_bind; [apply nosession_generate|]. intros y. done. }
  { destruct (st_hasPendingKeyExchange _) eqn:Epk.
    - eapply dspec_mono; [apply dspec_lift|]. intros p2 ours _ [_ H].
      apply bind_ok_inv in H as (i & _ & H). apply bind_ok_inv in H as (x & _ & H). apply bind_ok_inv in H as (y & Hy & [= <-]).
      split; [by eapply decoded_len|]. left. by apply pending_ratchet.
    - eapply dspec_bind; [apply dspec_top|]. intros p2 i Hp2 _. eapply dspec_bind; [apply dspec_top|]. intros p3 x Hp3 _.
      eapply dspec_bind; [apply dspec_generate|]. intros p4 y _ [-> ->]. cbn [dspec fst snd]. split; [change (length (pub_of p3) <= 32); rewrite pub_of_len; lia|].
      right. exists p3. split_and!; [lia|lia|done]. }
  intros p2 [[[oi ob] orat] flags] Hp2 [Hl Hor]. cbn [fst snd] in *. cbv zeta.
  eapply fspec_bind; [apply nosession_initializeSession|apply dspec_initializeSession; [by rewrite archived_new|done]|].
  intros p3 s Hp3 (Ha & Hps & Hv). apply fspec_store.
  - intros He. eapply ok_exchanged; [done|done|lia|done|done|done| |].
    + destruct Hv as [Hv|(n & H1 & H2 & H3)]; [left; exact Hv|right; exists n; split_and!; [lia|lia|done]].
    + destruct Hor as [Ho|(n & H1 & H2 & H3)]; [by left|right; exists n; split_and!; [lia|lia|done]].
  - apply nostore_bind; [by apply nostore_do|]. intros _. apply nostore_bind; [|intros; apply nostore_lift].
    unfold calculateSignature. apply nostore_bind; [by apply nostore_do|intros; apply nostore_lift].
Qed.
Lemma fspec_response U P q p0 pos m : p0 <= pos -> (forall k, q = Some k -> k ∉ P) ->
  fspec (before_kx U P q p0) (after_kx U P q) pos Nothing (processResponse C r d m).
Proof using Hok Hfresh.
  intros Hp0 Hq. unfold processResponse. apply fspec_load. intros rec Hrec. cbv zeta.
  destruct (negb (st_hasPendingKeyExchange (sr_state rec)) || _) eqn:E; [by destruct (kx_isResponseForSimultaneousInitiate m)|].
  apply orb_false_iff in E as [Epk%negb_false_iff _].
  eapply fspec_bind; [apply nosession_lift|apply dspec_top|]. intros p1 ob Hp1 _.
  eapply fspec_bind; [apply nosession_lift|apply dspec_lift|]. intros p2 orat _ [-> Hrat].
  eapply fspec_bind; [apply nosession_lift|apply dspec_top|]. intros p3 oi Hp3 _.
  eapply fspec_bind; [apply nosession_initializeSession|apply dspec_initializeSession; [by rewrite archived_new|by eapply decoded_len]|].
  intros p4 s Hp4 (Ha & Hps & Hv).
  eapply fspec_bind; [apply nosession_lift|apply dspec_top|]. intros p5 [] Hp5 _; [|done].
  apply fspec_store; [|by apply nostore_do]. intros He. eapply ok_exchanged; [done|done|lia|done|done|done| |].
  - destruct Hv as [Hv|(n & H1 & H2 & H3)]; [left; exact Hv|right; exists n; split_and!; [lia|lia|done]].
  - left. by apply pending_ratchet.
Qed.
Lemma fspec_then {A B} IB IA pos o (p : prog A) (b0 : B) : fspec IB IA pos o p -> fspec IB IA pos o (p ≫= (fun _ => Ret b0)).
Proof.
  revert pos o. induction p as [a|ex|T c k IH]; intros pos o Hp; [done..|].
  destruct Hp as [Hc Hk]. split; [done|]. intros x Hx. apply IH. by apply Hk.
Qed.
Lemma fspec_map {A B} IB IA pos o (p : prog A) (f : A -> B) : fspec IB IA pos o p -> fspec IB IA pos o (p ≫= (fun a => Ret (f a))).
Proof.
  revert pos o. induction p as [a|ex|T c k IH]; intros pos o Hp; [done..|].
  destruct Hp as [Hc Hk]. split; [done|]. intros x Hx. apply IH. by apply Hk.
Qed.
Lemma fspec_kx U P q p0 pos m : p0 <= pos -> (forall k, q = Some k -> k ∉ P) ->
  fspec (before_kx U P q p0) (after_kx U P q) pos Nothing (processKeyExchangeMessage C r d m).
Proof using Hok Hfresh.
  intros Hp0 Hq. unfold processKeyExchangeMessage.
  eapply fspec_bind; [by apply nosession_do|apply dspec_top|]. intros p1 [] Hp1 _; [|done].
  destruct (kx_isInitiate m).
  - apply (fspec_map _ _ _ _ _ Some). apply fspec_initiate; [lia|done].
  - apply (fspec_map _ _ _ _ _ (fun _ => None)). apply fspec_response; [lia|done].
Qed.

Lemma fspec_confined {A} IB IA (P : forall R, call R -> Prop) pos o (p : prog A) :
  (forall R (c : call R), P R c -> match c with CStoreSession r' d' _ => (r', d') <> (r, d) | _ => True end) ->
  confined P p -> fspec IB IA pos o p.
Proof.
  intros HP. revert pos o. induction p as [a|ex|T c k IH]; intros pos o; [done..|]. intros [Hc Hk]. split; [|intros; by apply IH].
  apply HP in Hc. destruct c; try done.
Qed.
Lemma fspec_other {A} IB IA pos o (p : prog A) r' d' : peerCall C r' d' A p -> (r', d') <> (r, d) -> fspec IB IA pos o p.
Proof.
  intros Hp%peer_confined Hne. eapply fspec_confined; [|exact Hp]. intros R c. destruct c; try done. cbn. by intros ->.
Qed.
Lemma fspec_group {A} IB IA pos o (p : prog A) n : groupCall C n A p -> fspec IB IA pos o p.
Proof.
  intros Hp%group_confined. eapply fspec_confined; [|exact Hp]. intros R c. by destruct c.
Qed.

Lemma fspec_api U P p0 pos c : p0 <= pos -> (forall m, c <> AKx r d m) -> keeps U P p0 pos Nothing (api C c).
Proof using Hfresh Hok.
  intros Hp0 Hc. destruct c as [r' d' x|r' d'|r' d' m|r' d' pt|r' d' m|r' d' m|n|n m|n pt|n x]; cbn [api].
  - destruct (decide ((r', d') = (r, d))) as [[= -> ->]|Hne]; [by apply fspec_bundle|]. eapply fspec_other; [constructor|done].
  - apply fspec_then. destruct (decide ((r', d') = (r, d))) as [[= -> ->]|Hne]; [by apply fspec_initKx|]. eapply fspec_other; [constructor|done].
  - apply fspec_then. destruct (decide ((r', d') = (r, d))) as [[= -> ->]|Hne]; [by destruct (Hc m)|]. eapply fspec_other; [constructor|done].
  - apply fspec_then. destruct (decide ((r', d') = (r, d))) as [[= -> ->]|Hne]; [by apply fspec_encrypt|]. eapply fspec_other; [constructor|done].
  - apply fspec_then. destruct (decide ((r', d') = (r, d))) as [[= -> ->]|Hne]; [by apply fspec_decryptMsg|]. eapply fspec_other; [constructor|done].
  - apply fspec_then. destruct (decide ((r', d') = (r, d))) as [[= -> ->]|Hne]; [by apply fspec_decryptPkmsg|]. eapply fspec_other; [constructor|done].
  - apply fspec_then. eapply fspec_group. constructor.
  - eapply fspec_group. constructor.
  - apply fspec_then. eapply fspec_group. constructor.
  - apply fspec_then. eapply fspec_group. constructor.
Qed.

(** *** Histories *)

Definition at_ok (U : list (bytes * N)) (P : list bytes) (w : world) : Prop := forall rec, session_at w r d = Ok rec -> ok U P (w_pos w) rec.
Lemma at_ok_from U P w0 w : w_pos w0 <= w_pos w -> at_before (ok U P (w_pos w0)) w \/ at_after (ok U P) w -> at_ok U P w.
Proof. intros Hp [H|H] rec Hrec; [|by apply H]. eapply ok_pos; [done|]. by apply H. Qed.
Lemma at_ok_same U P w w' : w_sessions w' !! (r, d) = w_sessions w !! (r, d) -> w_pos w <= w_pos w' -> at_ok U P w -> at_ok U P w'.
Proof. intros Hs Hp H rec. unfold session_at. cbn. rewrite Hs. intros Hrec. eapply ok_pos; [done|]. by apply H. Qed.

Lemma quiet_keeps U P w w' :
  quiet C r d w w' -> w_tape w = t -> stored_ok loaded_inv w -> at_ok U P w ->
  w_tape w' = t /\ stored_ok loaded_inv w' /\ w_pos w <= w_pos w' /\ (w_pos w' <= e -> at_ok U P w').
Proof using Hfresh Hok.
  intros Hq Ht Hw Ha. destruct Hq as [c Hc|c n Hc|m|m|m].
  - pose proof (run_tape (api C c) w) as [H1 H2]. split_and!; [congruence| |done|].
    + eapply (step_keeps C); [apply step_call_ends|done].
    + intros He. apply (at_ok_from _ _ w); [done|].
      eapply fspec_run; [intros ???; apply ok_pos|intros ??; apply ok_reload|done|done|apply spec_api|by apply fspec_api|exact Ha|done].
  - pose proof (crash_tape n (api C c) w) as [H1 H2]. split_and!; [congruence| |done|].
    + eapply (step_keeps C); [apply step_call_dies|done].
    + intros He. apply (at_ok_from _ _ w); [done|].
      eapply fspec_crash; [intros ???; apply ok_pos|intros ??; apply ok_reload|done|done|apply spec_api|by apply fspec_api|exact Ha|done].
  - split_and!; done.
  - split_and!; done.
  - split_and!; done.
Qed.
Lemma kx_keeps U P w w' :
  kx_step C r d w w' -> w_tape w = t -> stored_ok loaded_inv w -> at_ok U P w ->
  w_tape w' = t /\ stored_ok loaded_inv w' /\ w_pos w <= w_pos w' /\
  (w_pos w' <= e -> (forall k, pending_at w r d = Some k -> k ∉ P) -> at_ok U (option_list (pending_at w r d) ++ P) w').
Proof using Hfresh Hok.
  intros Hq Ht Hw Ha.
  assert (at_before (before_kx U P (pending_at w r d) (w_pos w)) w) as Hb.
  { intros rec Hrec. split; [by apply Ha|]. unfold pending_at. by rewrite Hrec. }
  assert (forall m, (forall k, pending_at w r d = Some k -> k ∉ P) ->
    fspec (before_kx U P (pending_at w r d) (w_pos w)) (after_kx U P (pending_at w r d)) (w_pos w) Nothing (api C (AKx r d m))) as Hf.
  { intros m HP. apply fspec_then. by apply fspec_kx. }
  assert (forall w2, w_pos w <= w_pos w2 -> at_before (before_kx U P (pending_at w r d) (w_pos w)) w2 \/ at_after (after_kx U P (pending_at w r d)) w2 ->
    at_ok U (option_list (pending_at w r d) ++ P) w2) as Hend.
  { intros w2 Hp [H|H]; [|done]. intros rec Hrec. destruct (H rec Hrec) as [H1 _]. eapply ok_pos; [done|]. eapply ok_more; [|done].
    intros k Hk. apply elem_of_app. by right. }
  destruct Hq as [m|m n].
  - pose proof (run_tape (api C (AKx r d m)) w) as [H1 H2]. split_and!; [congruence| |done|].
    + eapply (step_keeps C); [apply step_call_ends|done].
    + intros He HP. apply Hend; [done|].
      eapply fspec_run; [intros ???; apply ok_pos|intros ??; apply ok_reload|done|done|apply spec_api|by apply Hf|exact Hb|done].
  - pose proof (crash_tape n (api C (AKx r d m)) w) as [H1 H2]. split_and!; [congruence| |done|].
    + eapply (step_keeps C); [apply step_call_dies|done].
    + intros He HP. apply Hend; [done|].
      eapply fspec_crash; [intros ???; apply ok_pos|intros ??; apply ok_reload|done|done|apply spec_api|by apply Hf|exact Hb|done].
Qed.
End tape.

(** The ratchet key and the counter a ciphertext shows. *)
Definition key_of (c : ciphertextMessage) : bytes * N := (wRatchetKey (inner c), wCounter (inner c)).

Section fresh.
Context (C : crypto) (Hok : crypto_ok C) (r d : Z) (w : world).

Lemma exchanges_pos l P w' : exchanges C r d w l P w' -> w_pos w <= w_pos w'.
Proof.
  assert (forall w1 w2, kx_step C r d w1 w2 -> w_pos w1 <= w_pos w2) as Hkx by (intros ?? []; [apply run_tape|apply crash_tape]).
  induction 1 as [|l P w1 pt c w2 _ IH Hr|l P w1 w2 _ IH Hq|l P w1 w2 _ IH Hq _|l P w1 w2 _ IH Hq _]; [done| | | |].
  - pose proof (run_tape (encrypt C r d pt) w1) as [_ H]. rewrite Hr in H. cbn in H. lia.
  - assert (w_pos w1 <= w_pos w2); [|lia]. destruct Hq as [c Hc|c n Hc|m|m|m]; try done; [apply run_tape|apply crash_tape].
  - specialize (Hkx _ _ Hq). lia.
  - specialize (Hkx _ _ Hq). lia.
Qed.
Lemma exchanges_keeps e l P w' :
  stored_ok loaded_inv w -> w_sessions w !! (r, d) = None ->
  (forall i j, w_pos w <= i -> i < j -> j < e -> pub_of C (w_tape w) i <> pub_of C (w_tape w) j) ->
  exchanges C r d w l P w' -> w_pos w' <= e ->
  w_tape w' = w_tape w /\ stored_ok loaded_inv w' /\ at_ok C (w_tape w) (w_pos w) e r d (key_of <$> l) P w' /\ NoDup (key_of <$> l).
Proof using Hok.
  intros Hw Hn Hf Hs.
  induction Hs as [|l P w1 pt c w2 Hs IH Hr|l P w1 w2 Hs IH Hq|l P w1 w2 Hs IH Hq Hsame|l P w1 w2 Hs IH Hq HP]; intros He.
  - split_and!; [done|done| |constructor]. intros rec. unfold session_at. rewrite Hn. intros [= <-].
    apply ok_new. split_and!; [done|constructor|by intros ????%not_elem_of_nil|by intros ??[]%not_elem_of_nil].
  - pose proof (run_tape (encrypt C r d pt) w1) as [H1 H2]. rewrite Hr in H1, H2. cbn in H1, H2.
    destruct IH as (T & W & A & D); [lia|].
    apply (encrypt_ok C Hok) in Hr as (rec & E1 & E2 & E3 & E4).
    pose proof (encryptWithState_inv C Hok _ _ _ _ E2) as (rk & local & remote & _ & Hrk & _ & _ & _ & K1 & _ & K2 & _).
    destruct (ok_advanced C (w_tape w) (w_pos w) e (key_of <$> l) P (w_pos w1) rec _ rk Hrk eq_refl (A rec E1)) as (F1 & F2 & _).
    cbv zeta in *. rewrite <- K2, <- K1 in F1, F2.
    split_and!; [congruence| | |].
    + rewrite E4. apply (stored_put loaded_inv record_inv ltac:(by intros ? []) record_inv_fresh); [done|].
      pose proof (W _ _ _ E1) as [Hi _]. 
      pose proof (encryptWithState_inv C Hok _ _ _ _ E2) as (? & ? & ? & _ & _ & Hlt & _).
      pose proof Hi as ([Hwf _] & _ & [Hsi _]%Forall_cons). apply record_inv_set; [done|by apply advanced_wf|].
      destruct Hsi as (S1 & S2 & S3 & S4). split_and!; try done. destruct S4 as [S4|[_ S4]]; [by left|].
      apply encryptWithState_chain in E2. unfold st_hasSenderChain in E2. by rewrite S4 in E2.
    + intros rec'. rewrite E3. intros [= <-]. rewrite fmap_cons. apply (ok_pos _ _ _ _ _ _ (w_pos w1)); [done|]. exact F2.
    + rewrite fmap_cons. apply NoDup_cons. done.
  - assert (w_pos w1 <= w_pos w2) as Hle. { destruct Hq as [c Hc|c n Hc|m|m|m]; try done; [apply run_tape|apply crash_tape]. }
    destruct IH as (T & W & A & D); [lia|].
    destruct (quiet_keeps C Hok (w_tape w) (w_pos w) e Hf r d _ _ _ _ Hq T W A) as (T' & W' & _ & A'). split_and!; auto.
  - assert (w_pos w1 <= w_pos w2) as Hle. { destruct Hq as [c|c n]; [apply run_tape|apply crash_tape]. }
    destruct IH as (T & W & A & D); [lia|].
    destruct (kx_keeps C Hok (w_tape w) (w_pos w) e Hf r d _ _ _ _ Hq T W A) as (T' & W' & _ & _). split_and!; auto.
    by eapply at_ok_same.
  - assert (w_pos w1 <= w_pos w2) as Hle. { destruct Hq as [c|c n]; [apply run_tape|apply crash_tape]. }
    destruct IH as (T & W & A & D); [lia|].
    destruct (kx_keeps C Hok (w_tape w) (w_pos w) e Hf r d _ _ _ _ Hq T W A) as (T' & W' & _ & A'). split_and!; auto.
Qed.

Lemma exchanges_nodup l P w' :
  reachable C w -> w_sessions w !! (r, d) = None -> exchanges C r d w l P w' -> fresh_between C w w' ->
  NoDup ((fun c => (wRatchetKey (inner c), wCounter (inner c))) <$> l).
Proof using Hok.
  intros Hw Hn Hs Hf. eapply (exchanges_keeps (w_pos w') l P); [by eapply reachable_inv|done|exact Hf|done|done].
Qed.

(** Without key exchange messages. *)
Lemma sends_exchanges l w' : sends C r d w l w' -> exchanges C r d w l [] w'.
Proof. induction 1; [constructor|by eapply ex_sent|by eapply ex_other]. Qed.
Lemma sends_pos l w' : sends C r d w l w' -> w_pos w <= w_pos w'.
Proof. intros H%sends_exchanges. by eapply exchanges_pos. Qed.
Lemma sends_keeps e l w' :
  stored_ok loaded_inv w -> w_sessions w !! (r, d) = None ->
  (forall i j, w_pos w <= i -> i < j -> j < e -> pub_of C (w_tape w) i <> pub_of C (w_tape w) j) ->
  sends C r d w l w' -> w_pos w' <= e ->
  w_tape w' = w_tape w /\ stored_ok loaded_inv w' /\ at_ok C (w_tape w) (w_pos w) e r d (key_of <$> l) [] w' /\ NoDup (key_of <$> l).
Proof using Hok. intros Hw Hn Hf Hs%sends_exchanges. by apply exchanges_keeps. Qed.
Lemma sends_nodup l w' :
  reachable C w -> w_sessions w !! (r, d) = None -> sends C r d w l w' -> fresh_between C w w' ->
  NoDup ((fun c => (wRatchetKey (inner c), wCounter (inner c))) <$> l).
Proof using Hok. intros Hw Hn Hs%sends_exchanges. by eapply exchanges_nodup. Qed.
End fresh.
