(** The lemmas behind C76. *)
From Verif Require Import PyBase Wire Protos ProtoFacts Crypto Ecc Kdf Messages State Prog Builder Cipher Groups.
From Verif Require Import ProgFacts StateFacts UtilFacts HelperFacts MsgFacts SpecUtil SpecSession SpecKeys KeyProofs SpecGroup SpecApi SpecGroupHist GroupFacts GroupProofs GroupHistProofs GroupPool GroupHistProofs2 SpecGroupStep GroupEffects.

Section errors.
Context (C : crypto) (Hok : crypto_ok C).

(** ** Decrypting *)

Lemma verify_cases m pub : let bs := gSerialized m in
  sk_verifySignature C m pub =
  if decide (length pub = 32 /\ 64 <= length bs) then
    if (verify C pub (take (length bs - 64) bs) (drop (length bs - 64) bs) =? 0)%Z then Ok tt else Err EInvalidMessage
  else Err EValueError.
Proof using.
  intros bs. unfold sk_verifySignature, bu_split2, SIGNATURE_LENGTH. fold bs.
  unfold verifySignature, c_verifySignature. destruct (decide (length pub = 32 /\ 64 <= length bs)) as [[H1 H2]|H].
  - replace (zlen bs - 64)%Z with (Z.of_nat (length bs - 64)) by (unfold zlen; lia).
    replace (Z.of_nat (length bs - 64) + 64)%Z with (Z.of_nat (length bs)) by lia.
    rewrite py_slice_prefix, py_slice_nonneg by lia. rewrite Nat2Z.id, (take_ge (drop _ _)) by (rewrite drop_length; lia).
    rewrite H1, drop_length. replace (length bs - (length bs - 64)) with 64 by lia. cbn [Nat.eqb andb]. rewrite bind_ok.
    by destruct (_ =? 0)%Z.
  - assert (((length pub =? 32) && (length (py_slice bs (zlen bs - 64) (zlen bs - 64 + 64)) =? 64))%nat = false) as ->; [|done].
    apply andb_false_iff. destruct (Nat.eqb_spec (length pub) 32) as [E|E]; [right|by left].
    apply Nat.eqb_neq. pose proof (py_slice_length_le bs (zlen bs - 64) (zlen bs - 64 + 64)). lia.
Qed.

Lemma getSenderKey_err s n e : (n < 2 ^ 32)%N -> getSenderKey C s n = Err e ->
  (e = EDuplicateMessage /\ ~ holds_group_key s n) \/
  (e = EValueError /\ (chain_at s <= n)%N /\ (n + 1 = 2 ^ 32)%N).
Proof using Hok.
  intros Hn. unfold getSenderKey. rewrite chain_at_iter. destruct (N.ltb_spec n (chain_at s)) as [Hlt|Hge].
  - destruct (sks_hasSenderMessageKey n s) eqn:Hh.
    + apply has_key_kept in Hh. unfold sks_removeSenderMessageKey.
      destruct (take_senderMessageKey n (st_senderMessageKeys s)) as [[x r]|] eqn:Et; [done|]. exfalso.
      unfold kept in Hh. revert Et Hh. generalize (st_senderMessageKeys s). clear. intros l. induction l as [|x l IH]; [set_solver|].
      cbn [take_senderMessageKey]. unfold smk_hasIteration. destruct (N.eqb_spec (default 0%N (smk_iteration x)) n) as [E|E]; [done|].
      destruct (take_senderMessageKey n l) as [[? ?]|]; [done|]. intros _. rewrite fmap_cons, elem_of_cons. intros [->|H]; [done|]. by apply IH.
    + intros [= <-]. left. split; [done|]. intros [H|H]; [lia|]. apply has_key_kept in H. congruence.
  - destruct (Z.ltb_spec 2000 (Z.of_N (chain_at s) - Z.of_N n)); [lia|].
    rewrite (skip_exact C Hok) by (rewrite chain_at_iter; lia). rewrite bind_ok. cbn [fst snd]. rewrite chain_at_iter.
    unfold sks_setSenderChainKey. cbn [sck_next scIteration].
    replace (chain_at s + N.of_nat (N.to_nat (n - chain_at s)))%N with n by lia.
    destruct (set_u32 (n + 1)) as [x|e'] eqn:Eu; [done|]. apply set_u32_err in Eu as [-> Hu].
    intros [= <-]. right. split; [done|]. lia.
Qed.
Lemma getSenderKey_last s n : (chain_at s <= n)%N -> (n + 1 = 2 ^ 32)%N -> getSenderKey C s n = Err EValueError.
Proof using Hok.
  intros Hc Hn. destruct (getSenderKey C s n) as [[k s']|e] eqn:E.
  - apply (getSenderKey_iff C Hok) in E as (seed & Hr & _); [|lia]. destruct Hr; lia.
  - apply getSenderKey_err in E as [[-> H]|[-> _]]; [|done|lia]. destruct H. by left.
Qed.

Lemma find_state_answering id rec s : answering rec id s <-> exists i, find_state id rec 0 = Ok (i, s).
Proof using.
  split.
  - intros (l1 & l2 & -> & Hk & Hf). exists (length l1). apply find_state_iff. by exists l1, l2.
  - intros (i & (l1 & l2 & -> & _ & Hk & Hf)%find_state_iff). by exists l1, l2.
Qed.

Lemma genuine_iff pub bs : genuine_for C pub bs <->
  length pub = 32 /\ 64 <= length bs /\ (verify C pub (take (length bs - 64) bs) (drop (length bs - 64) bs) = 0)%Z.
Proof using. unfold genuine_for, verifies. rewrite drop_length. split; intros (H1 & H2 & H3); split_and!; try done; lia. Qed.

Lemma sk_parse_err bs e : sk_msg_parse bs = Err e -> (bs = [] /\ e = EAssertionError) \/ (bs <> [] /\ e = EInvalidMessage).
Proof using.
  destruct bs as [|b bs]; cbn [sk_msg_parse]; [intros [= <-]; by left|]. unfold res_rethrow. case_match; [done|]. intros [= <-]. by right.
Qed.

(** The verdict about a message. *)
Lemma groupOpen_err rec bs e : rec <> [] -> Forall keyed rec -> groupOpen C rec bs = Err e -> group_refuses C rec bs (keyToInvalid e).
Proof using Hok.
  intros Hne Hk. unfold groupOpen. destruct (sk_msg_parse bs) as [m|e1] eqn:Hm.
  2:{ intros [= <-]. destruct (sk_parse_err _ _ Hm) as [[-> ->]|[Hb ->]].
      - by apply refuse_empty.
      - apply refuse_unreadable; [done..|]. intros m Hm'. congruence. }
  rewrite bind_ok. pose proof (sk_parse_inv _ _ Hm) as (Hser & _ & _ & Hit).
  destruct (find_state (gKeyId m) rec 0) as [[i s]|e1] eqn:Hf.
  2:{ intros [= <-]. rewrite (find_state_err _ _ _ _ Hf). eapply refuse_unknown; [done..|]. apply Forall_forall.
      intros x Hx E. revert Hf. clear -Hx E. generalize 0. induction rec as [|y rec IH]; intros i; [by apply elem_of_nil in Hx|].
      cbn [find_state]. change (sks_getKeyId y) with (key_id y). destruct (N.eqb_spec (key_id y) (gKeyId m)); [done|].
      apply elem_of_cons in Hx as [->|Hx]; [done|]. by apply IH. }
  rewrite bind_ok. cbn [fst snd]. assert (answering rec (gKeyId m) s) as Ha by (apply find_state_answering; eauto).
  assert (exists pub, identity_of (signing_public s) pub) as [pub Hp].
  { destruct Ha as (l1 & l2 & -> & _). apply Forall_app in Hk as [_ [(k & priv & Hs & _) _]%Forall_cons].
    exists (take 32 k), k. unfold signing_public. by rewrite Hs. }
  rewrite (proj2 (public_iff s pub) Hp), bind_ok. assert (checked_with rec m s pub) as Hc by done.
  rewrite verify_cases, Hser. cbv zeta. case_decide as Hd.
  2:{ intros [= <-]. eapply refuse_length; [done..|]. destruct (Nat.eq_dec (length pub) 32); [right; lia|by left]. }
  destruct Hd as [D1 D2]. case_match eqn:Hv.
  2:{ intros [= <-]. eapply refuse_forged; [done..|]. intros (_ & _ & H)%genuine_iff. apply Z.eqb_neq in Hv. done. }
  apply Z.eqb_eq in Hv. assert (genuine_for C pub bs) as Hg by (by apply genuine_iff). rewrite bind_ok.
  destruct (getSenderKey C s (gIteration m)) as [[k s']|e1] eqn:Hs.
  2:{ intros [= <-]. apply getSenderKey_err in Hs as [[-> H]|(-> & H1 & H2)]; [| |done].
      - by eapply refuse_used.
      - by eapply refuse_last. }
  rewrite bind_ok. cbn [fst snd]. apply (getSenderKey_iff C Hok) in Hs as (seed & Hr & ->); [|done].
  rewrite (mk_sender_okm C Hok). cbn [smCipher smIv]. destruct (aes_decrypt _ _ _ _) as [pt|e1] eqn:Hd; [done|].
  intros [= <-]. eapply refuse_garbled; [done..|]. intros pt Hpt. apply cbc_plain_iff in Hpt. congruence.
Qed.

Lemma refuses_groupOpen rec bs e : group_refuses C rec bs e -> rec <> [] -> exists e', groupOpen C rec bs = Err e' /\ e = keyToInvalid e'.
Proof using Hok.
  intros H Hne. unfold groupOpen.
  destruct H as [?|_ ->|_ Hb Hm|m _ Hm Hu|m s pub Hm [Ha Hp] Hl|m s pub Hm [Ha Hp] L1 L2 Hg|m s pub Hm [Ha Hp] Hg Hh|m s pub Hm [Ha Hp] Hg H1 H2|m s pub seed s' Hm [Ha Hp] Hg Hr Hb];
    [done|by eexists| | |try (pose proof (sk_parse_inv _ _ Hm) as (Hser & _ & _ & Hit); rewrite Hm, bind_ok; apply find_state_answering in Ha as [i Hi]; rewrite Hi, bind_ok;
      cbn [fst snd]; rewrite (proj2 (public_iff s pub) Hp), bind_ok, verify_cases, Hser; cbv zeta)..].
  - destruct (sk_msg_parse bs) as [m|e] eqn:E; [by destruct (Hm m)|]. destruct (sk_parse_err _ _ E) as [[? _]|[_ ->]]; [done|]. by eexists.
  - rewrite Hm, bind_ok, find_state_none; [by eexists|]. by rewrite Forall_forall in Hu.
  - rewrite decide_False by lia. by eexists.
  - rewrite decide_True by done. rewrite (proj2 (Z.eqb_neq _ _)); [by eexists|]. intros H. apply Hg. by apply genuine_iff.
  - apply genuine_iff in Hg as (G1 & G2 & G3). rewrite decide_True, G3 by done. cbn [Z.eqb]. rewrite bind_ok, getSenderKey_lost by done. by eexists.
  - apply genuine_iff in Hg as (G1 & G2 & G3). rewrite decide_True, G3 by done. cbn [Z.eqb]. rewrite bind_ok, getSenderKey_last by done. by eexists.
  - apply genuine_iff in Hg as (G1 & G2 & G3). rewrite decide_True, G3 by done. cbn [Z.eqb]. rewrite bind_ok.
    rewrite (proj2 (getSenderKey_iff C Hok s (gIteration m) (mk_senderMessageKey C (gIteration m) seed) s' Hit)) by eauto.
    rewrite bind_ok. cbn [fst snd]. rewrite (mk_sender_okm C Hok). cbn [smCipher smIv].
    destruct (aes_decrypt _ _ _ _) as [pt|e1] eqn:Hd; [by apply cbc_plain_iff, Hb in Hd|]. by eexists.
Qed.

(** ** Encrypting *)

Lemma group_encrypt_fails w name pt s rec :
  senderkey_at w name = Ok (s :: rec) -> length (signing_private s) <> 32 \/ (2 ^ 32 <= chain_at s + 1)%N ->
  exists n, run (group_encrypt C name pt) w = (Err EValueError, w_set_pos n w).
Proof using Hok.
  intros Hr Hn. pose proof (senderkey_wf _ _ _ Hr) as [Hw Hws]%Forall_cons. destruct (chain_bound s Hw) as [Hc Hid].
  unfold group_encrypt. rewrite run_rethrow, run_bind, run_do, load_senderkey, Hr. rewrite run_bind, run_lift. cbn [first_state].
  rewrite (sck_message_okm C Hok). cbn [smCipher smIv smIteration]. change (scKey (sks_getSenderChainKey s)) with (chain_key s).
  set (seed := group_seed C (chain_key s)).
  assert (length (take 16 (group_okm C seed)) = 16 /\ length (take 32 (drop 16 (group_okm C seed))) = 32) as [L1 L2].
  { pose proof (mk_senderMessageKey_lengths C Hok 0 seed) as [A B]. rewrite (mk_sender_okm C Hok) in A, B. done. }
  destruct (aes_roundtrip C Hok (take 32 (drop 16 (group_okm C seed))) (take 16 (group_okm C seed)) pt L2 L1) as (ct & He & Hd & _).
  rewrite run_bind, run_lift, He. rewrite run_bind, run_lift.
  change (scIteration (sks_getSenderChainKey s)) with (chain_at s). change (sks_getKeyId s) with (key_id s).
  rewrite sk_tosign_ok by lia. rewrite run_bind. change (sks_getSigningKeyPrivate s) with (signing_private s).
  destruct (Nat.eq_dec (length (signing_private s)) 32) as [E|E].
  - rewrite run_calculateSignature by done. rewrite run_bind, run_lift. unfold sks_setSenderChainKey. cbn [sck_next scIteration].
    change (scIteration (sks_getSenderChainKey s)) with (chain_at s). destruct (set_u32 (chain_at s + 1)) as [x|e] eqn:Eu.
    + apply set_u32_inv in Eu as [_ Hu]. lia.
    + apply set_u32_err in Eu as [-> _]. by eexists.
  - unfold calculateSignature. rewrite run_bind, run_do. cbn [step_call]. rewrite run_lift. unfold calculateSignature_with, c_calculateSignature.
    rewrite resize_length, (proj2 (Nat.eqb_neq _ _) E). cbn [Nat.eqb andb]. by eexists.
Qed.

(** ** What is stored *)

Lemma group_readable w n : group_reachable C w -> exists rec, senderkey_at w n = Ok rec /\ Forall keyed rec.
Proof using Hok.
  apply group_reachable_good.
  - intros s s' Ha (k & priv & Hs & Hp). exists k, priv. by rewrite (adv_sig _ _ Ha).
  - intros id it ck pub s (_ & _ & ->)%sks_create_inv. by exists pub, None.
  - intros id it ck r kp s Hr Hkp (_ & _ & ->)%sks_create_inv. exists (kp_pub kp), (Some (kp_priv kp)). split; [done|]. intros p [= <-].
    unfold keypair_of_rand in Hkp. apply bind_ok_inv in Hkp as (priv & Hpriv & Hkp). apply bind_ok_inv in Hkp as (pub & _ & ->%Ok_inj). cbn [kp_priv].
    unfold c_generatePrivateKey in Hpriv. case_match; [|done]. injection Hpriv as <-. by apply (co_priv_len C Hok).
Qed.

(** ** C76 *)

Lemma group_decrypt_refuses w name bs e w' : group_reachable C w ->
  run (group_decrypt C name bs) w = (Err e, w') <->
  w' = w /\ exists rec, senderkey_at w name = Ok rec /\ group_refuses C rec bs e.
Proof using Hok.
  intros Hr. destruct (group_readable w name Hr) as (rec & Hs & Hk). rewrite run_group_decrypt, Hs. split.
  - intros H. assert (w' = w /\ group_refuses C rec bs e) as [-> ?]; [|eauto].
    destruct rec as [|s0 r] eqn:Er; [injection H as <- <-; split; [done|by apply refuse_none]|]. rewrite <- Er in *.
    destruct (groupOpen C rec bs) as [x|e1] eqn:Ho; [done|]. injection H as <- <-. split; [done|].
    apply groupOpen_err; [by subst|done|done].
  - intros (-> & rec' & [= <-] & Hf). destruct rec as [|s0 r] eqn:Er.
    + inversion Hf as [| | | |m s pub _ [(l1 & l2 & Hl & _) _]|m s pub _ [(l1 & l2 & Hl & _) _]|m s pub _ [(l1 & l2 & Hl & _) _]|m s pub _ [(l1 & l2 & Hl & _) _]|m s pub seed s' _ [(l1 & l2 & Hl & _) _]];
        try done; by destruct l1.
    + rewrite <- Er in *. destruct (refuses_groupOpen rec bs e Hf) as (e' & Ho & ->); [by subst|]. by rewrite Ho.
Qed.

Lemma keyed_private s : keyed s ->
  ssk_private (default ssk_empty (st_senderSigningKey s)) = None \/ length (signing_private s) = 32.
Proof using.
  intros (k & priv & Hs & Hp). unfold signing_private. rewrite Hs. cbn [default ssk_private]. destruct priv as [p|]; [right|by left].
  by apply Hp.
Qed.

Lemma group_encrypt_refused w name pt e : group_reachable C w ->
  (exists w', run (group_encrypt C name pt) w = (Err e, w')) <->
  exists rec, senderkey_at w name = Ok rec /\ send_refused rec e.
Proof using Hok.
  intros Hr. destruct (group_readable w name Hr) as (rec & Hs & Hk). destruct rec as [|s rec].
  - unfold group_encrypt. rewrite run_rethrow, run_bind, run_do, load_senderkey, Hs. cbn [run lift first_state rethrow]. split.
    + intros (w' & H). exists []. split; [done|]. cbn in H. injection H as <- _. constructor.
    + intros (rec & [= <-] & H). inversion H. subst. by eexists.
  - apply Forall_cons in Hk as [Hk _]. pose proof (senderkey_wf _ _ _ Hs) as [Hw _]%Forall_cons. destruct (chain_bound s Hw) as [Hc _]. split.
    + intros (w' & H). exists (s :: rec). split; [done|].
      assert (length (signing_private s) <> 32 \/ (2 ^ 32 <= chain_at s + 1)%N) as Hd.
      { destruct (Nat.eq_dec (length (signing_private s)) 32); [right|by left]. apply N.nlt_ge. intros Hlt.
        destruct (group_encrypt_runs C Hok w name pt s rec Hs) as (bs & w2 & Hx & _); [done|done|congruence]. }
      destruct (group_encrypt_fails w name pt s rec Hs Hd) as [n Hf]. rewrite H in Hf. injection Hf as -> ->.
      destruct Hd as [Hd|Hd]; [|apply send_last; lia]. destruct (keyed_private s Hk) as [Hp|Hp]; [by apply send_no_private|done].
    + intros (rec' & Hs' & H). rewrite Hs in Hs'. injection Hs' as <-.
      assert ((length (signing_private s) <> 32 \/ (2 ^ 32 <= chain_at s + 1)%N) /\ e = EValueError) as [Hd ->].
      { inversion H; subst; split; try done; [left|right; lia]. unfold signing_private.
        match goal with E : ssk_private _ = None |- _ => rewrite E end. done. }
      destruct (group_encrypt_fails w name pt s rec Hs Hd) as [n Hf]. eauto.
Qed.

Lemma group_encrypt_failed w name pt e w' : group_reachable C w ->
  run (group_encrypt C name pt) w = (Err e, w') -> exists n, w' = w_set_pos n w.
Proof using Hok.
  intros Hr H. destruct (group_readable w name Hr) as (rec & Hs & Hk). destruct rec as [|s rec].
  - unfold group_encrypt in H. rewrite run_rethrow, run_bind, run_do, load_senderkey, Hs in H. cbn in H. injection H as _ <-.
    exists (w_pos w). by destruct w.
  - destruct (decide (length (signing_private s) <> 32 \/ (2 ^ 32 <= chain_at s + 1)%N)) as [Hd|Hd].
    + destruct (group_encrypt_fails w name pt s rec Hs Hd) as [k Hf]. rewrite H in Hf. injection Hf as _ ->. eauto.
    + destruct (group_encrypt_runs C Hok w name pt s rec Hs) as (bs & w2 & Hx & _); [| |congruence].
      * destruct (Nat.eq_dec (length (signing_private s)) 32); [done|]. destruct Hd. by left.
      * apply N.lt_nge. intros Hge. destruct Hd. by right.
Qed.

Lemma group_create_total w name : group_reachable C w -> exists m w', run (group_create C name) w = (Ok m, w').
Proof using Hok.
  intros Hr. destruct (group_readable w name Hr) as (rec & Hs & Hk). destruct rec as [|s rec].
  - destruct (group_create_first C Hok w name Hs) as (m & w' & H & _). eauto.
  - apply Forall_cons in Hk as [(k & priv & Hss & _) _].
    destruct (group_create_again C w name s rec (take 32 k) Hs) as (m & H & _); [|eauto].
    exists k. unfold signing_public. by rewrite Hss.
Qed.

Lemma group_process_total w name b m : group_reachable C w -> skd_msg_parse b = Ok m ->
  exists w', run (group_process name m) w = (Ok tt, w').
Proof using Hok.
  intros Hr Hm. destruct (group_readable w name Hr) as (rec & Hs & Hk).
  assert (dId m < 2 ^ 32 /\ dIteration m < 2 ^ 32)%N as [H1 H2] by (by apply skd_parse_inv in Hm as (_ & ? & ? & _)).
  destruct (group_process_runs w name m rec Hs H1 H2) as (w' & H & _). eauto.
Qed.
End errors.
