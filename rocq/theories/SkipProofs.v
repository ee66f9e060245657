(** Skipped message keys of a session (C82). *)
From Verif Require Import PyBase Wire Protos ProtoFacts Crypto Ecc Kdf Messages State Prog Ratchet Builder Cipher Groups Helper.
From Verif Require Import ProgFacts StateFacts UtilFacts HelperFacts MsgFacts CipherFacts DecryptFacts SpecUtil SpecSession SessionProofs SpecApi SpecKeys SpecEncrypt SpecRatchet SpecSkip.
From Verif Require Import PoolFacts InvFacts HistoryProofs KeyProofs EncryptProofs ChainInv SetupInv TotalProofs RatchetProofs.

Section skip.
Context (C : crypto) (Hok : crypto_ok C).

(** Whoever knows the keys of a message number can make the message. *)
Lemma message_exists key local remote R n pt :
  length R = 32 -> (n < 2 ^ 32)%N ->
  exists m, whisper_parse (wSerialized m) = Ok m /\ wRatchetKey m = R /\ wVersion m = 3%N /\ wCounter m = n /\
    sealed C remote local (keys_of C 3 key) m pt.
Proof using Hok.
  intros HR Hn. pose proof (keys_of_eq C Hok 3 key 0) as Hk.
  destruct (ck_messageKeys_lengths C Hok (ChainKey (N.of_nat (first_block 3)) key 0)) as (L1 & L2 & L3).
  set (mk := ck_messageKeys C _) in *.
  destruct (aes_roundtrip C Hok (mCipher mk) (mIv mk) pt L1 L3) as (body & _ & Hb2 & k & Hb3 & Hb4).
  assert (body <> []) as Hne by (intros ->; cbn in Hb3; lia).
  pose proof (whisper_create_ok C 3 (mMac mk) R n 0 body remote local Hn eq_refl) as Hc. cbv zeta in Hc.
  match type of Hc with _ = Ok ?x => exists x; set (m := x) in * end.
  pose proof (whisper_roundtrip C Hok _ _ _ _ _ _ _ _ _ (or_intror eq_refl) (Nat.eq_le_incl _ _ HR) Hne Hc) as Hp.
  pose proof (whisper_create_inv' C Hok _ _ _ _ _ _ _ _ _ Hc) as (W1 & W2 & W3 & W4 & Hauth).
  split_and!; try done. unfold sealed. rewrite W2, W4, <- Hk. split; [done|]. by apply cbc_plain_iff.
Qed.

(** A chain with a given number of keys, in the current state. *)
Definition holds (w : world) (r d : Z) (R : bytes) (n : N) (k : nat) : Prop :=
  exists rec c, session_at w r d = Ok rec /\ is_Some (w_sessions w !! (r, d)) /\ is_Some (ss_senderChain (sr_state rec)) /\
    receiving (sr_state rec) R c /\ next_index c = n /\ length (ch_messageKeys c) = k.

Lemma skip_step w r d R n k :
  reachable C w -> holds w r d R n k -> (n + 2002 < 2 ^ 32)%N ->
  exists w', reads C r d 1 w w' /\ holds w' r d R (n + 2001) (k + N.to_nat 2000).
Proof using Hok.
  intros Hw (rec & c & Hrec & Hin & [sc Hsc] & Hrc & Hn & Hk) Hlt.
  pose proof (reachable_fit C Hok _ _ _ _ Hw Hrec) as [Hfit _]%Forall_cons.
  destruct Hfit as ((Hset & _) & Hx & Hv & Hwf). destruct (Hset _ Hsc) as (Hl & Hr & _).
  destruct (encoded_decode _ Hl) as [local Hlo%decode_iff]. destruct (encoded_decode _ Hr) as [remote Hre%decode_iff].
  assert (st_getSessionVersion (sr_state rec) = 3%N) as Hv3.
  { apply fit_version; [done|]. unfold st_hasSenderChain. by rewrite Hsc. }
  assert (length R = 32) as HR.
  { destruct Hrc as (l1 & l2 & Hl12 & (t & Ht & ->) & _). unfold sJ in Hx. rewrite Hl12 in Hx.
    apply Forall_app in Hx as [_ [(q & Hq & Hq2) _]%Forall_cons]. rewrite Ht in Hq2. injection Hq2 as ->. by rewrite take_ge by lia. }
  destruct (message_exists (stepped C (next_key c) (N.to_nat 2000)) local remote R (n + 2000) [] HR ltac:(lia)) as (m & Hp & M1 & M2 & M3 & Ha & Hb).
  assert (opens C (sr_state rec) m []) as Ho.
  { exists 3%N, (keys_of C 3 (stepped C (next_key c) (N.to_nat 2000))), local, remote. split_and!; try done.
    - by apply version_of_iff.
    - by right.
    - rewrite M1, M3. replace (N.to_nat 2000) with (N.to_nat (n + 2000 - next_index c)) by (f_equal; lia). apply key_stepped; [done|lia].
    - by rewrite M2 in Ha. }
  destruct (msg_accepted C Hok w r d _ m [] rec Hp Hin Hrec Hwf ltac:(lia) Ho) as [w' Hrun].
  exists w'. split. { by eapply reads_one; [exact Hp|exact Hrun|constructor]. }
  pose proof (msg_effect C Hok _ _ _ _ _ _ Hw Hrun) as (rec0 & rec' & i & s & e & Hrec0 & Hrec' & (Hi & _ & Hbefore & s' & Hto & Hvs & Hst) & _).
  rewrite Hrec in Hrec0. injection Hrec0 as <-.
  assert (i = 0) as ->.
  { destruct i as [|i]; [done|]. exfalso. specialize (Hbefore 0 (sr_state rec) ltac:(lia) eq_refl).
    destruct (state_accepts C Hok (sr_state rec) m [] _ w Hp Hwf ltac:(lia) Ho) as [s0 Hs0].
    specialize (Hbefore w). rewrite Hs0 in Hbefore. done. }
  injection Hi as <-. cbn in Hst. assert (sr_state rec' = s') as Es by (by injection Hst).
  assert (is_Some (w_sessions w' !! (r, d))) as Hin'.
  { unfold session_at in Hrec'. destruct (w_sessions w' !! (r, d)) eqn:E; [by eexists|]. exfalso. injection Hrec' as <-. cbn in Es. subst s'.
    destruct Hto as [l1 c0 l2 c' Hl12|]; [|done]. by destruct l1. }
  exists rec', (ChS (ch_ratchetKey c) (ch_ratchetKeyPrivate c)
         (Some (CkS (Some (n + 2000 + 1)%N) (Some (stepped C (next_key c) (N.to_nat (n + 2000 + 1 - next_index c))))))
         (ch_messageKeys c ++
          map (fun i => stored_key C 3 (next_index c + N.of_nat i) (stepped C (next_key c) i))
              (seq 0 (N.to_nat (n + 2000 - next_index c))))).
  rewrite Es. destruct Hto as [l1 c0 l2 c' Hl12 Hc0 Hl1 Hread|c' ? ? ? Hno].
  2:{ exfalso. eapply receiving_exclusive; [exact Hrc|]. change (no_receiving (sr_state rec) (wRatchetKey m)) in Hno. by rewrite M1 in Hno. }
  assert (c0 = c) as ->.
  { destruct Hrc as (k1 & k2 & Hk12 & Hck & Hk1). rewrite M1 in *.
    assert (receiving (sr_state rec) R c0) as [j1 Hj1]%receiving_iff by (by exists l1, l2).
    assert (receiving (sr_state rec) R c) as [j2 Hj2]%receiving_iff by (by exists k1, k2). congruence. }
  split_and!; [done|done|cbn; rewrite Hsc; by eexists| |cbn; lia|].
  - destruct Hread as [|Hread]; [lia|]. rewrite M2, M3 in *. exists l1, l2. cbn [ss_receiverChains]. split_and!; [done| |by rewrite M1 in Hl1].
    rewrite M1 in Hc0. exact Hc0.
  - cbn [ch_messageKeys]. rewrite app_length, map_length, seq_length. lia.
Qed.

Lemma reads_app r d n k w1 w2 w3 : reads C r d n w1 w2 -> reads C r d k w2 w3 -> reads C r d (n + k) w1 w3.
Proof. induction 1; [done|]. intros Hk. cbn. econstructor; eauto. Qed.
Lemma reads_reachable r d n w w' : reachable C w -> reads C r d n w w' -> reachable C w'.
Proof.
  intros Hw H. induction H as [|n w bs m pt w1 w2 Hp Hr H IH]; [done|]. apply IH. apply (reachable_step C _ _ Hw).
  replace w1 with (run (api C (AMsg r d m)) w).2; [constructor|]. cbn [api]. by rewrite run_bind, Hr.
Qed.

Lemma skip_many r d R k : forall w n j,
  reachable C w -> holds w r d R n j -> (n + 2001 * N.of_nat k + 1 < 2 ^ 32)%N ->
  exists w', reads C r d k w w' /\ holds w' r d R (n + 2001 * N.of_nat k) (j + k * N.to_nat 2000).
Proof using Hok.
  induction k as [|k IH]; intros w n j Hw Hh Hlt.
  { exists w. split; [constructor|]. by rewrite N.mul_0_r, N.add_0_r, Nat.add_0_r. }
  destruct (skip_step w r d R n j Hw Hh ltac:(lia)) as (w1 & H1 & Hh1).
  destruct (IH w1 _ _ (reads_reachable _ _ _ _ _ Hw H1) Hh1 ltac:(lia)) as (w2 & H2 & Hh2).
  exists w2. split; [exact (reads_app _ _ _ _ _ _ _ H1 H2)|].
  replace (n + 2001 * N.of_nat (S k))%N with (n + 2001 + 2001 * N.of_nat k)%N by lia.
  replace (j + S k * N.to_nat 2000) with (j + N.to_nat 2000 + k * N.to_nat 2000) by lia. done.
Qed.

Lemma skipped_unbounded w r d rec R c k :
  reachable C w -> session_at w r d = Ok rec -> is_Some (ss_senderChain (sr_state rec)) -> receiving (sr_state rec) R c ->
  (next_index c + 2001 * N.of_nat k + 1 < 2 ^ 32)%N ->
  exists w' rec' c', reads C r d k w w' /\ session_at w' r d = Ok rec' /\ receiving (sr_state rec') R c' /\
    length (ch_messageKeys c') = length (ch_messageKeys c) + k * N.to_nat 2000.
Proof using Hok.
  intros Hw Hrec Hsc Hrc Hlt.
  destruct (skip_many r d R k w (next_index c) (length (ch_messageKeys c)) Hw) as (w' & Hreads & (rec' & c' & H1 & _ & _ & H2 & _ & H3)); [|done|].
  - exists rec, c. split_and!; try done. unfold session_at in Hrec. destruct (w_sessions w !! (r, d)); [by eexists|].
    injection Hrec as <-. destruct Hrc as (l1 & l2 & E & _). by destruct l1.
  - by exists w', rec', c'.
Qed.

(** The stored keys of a chain have different numbers below that of the chain. *)
Lemma skipped_distinct w r d rec s c :
  reachable C w -> session_at w r d = Ok rec -> s ∈ states rec -> c ∈ ss_receiverChains s ->
  NoDup ((fun k => default 0%N (mk_index k)) <$> ch_messageKeys c) /\
  Forall (fun k => (default 0 (mk_index k) < next_index c)%N) (ch_messageKeys c).
Proof using.
  intros Hw Hrec Hs Hc. apply (reachable_inv C) in Hw. destruct (Hw _ _ _ Hrec) as [(_ & _ & Hi) _].
  rewrite Forall_forall in Hi. destruct (Hi s Hs) as (_ & Hch & _). rewrite Forall_forall in Hch. destruct (Hch c Hc) as [H1 H2].
  split; [done|]. apply (Forall_impl _ _ _ H2). intros k. unfold mk_idx, ch_idx, next_index. by destruct (ch_chainKey c).
Qed.
End skip.
