(** Group histories, continued: the lemmas behind C53 to C58. *)
From Verif Require Import PyBase Wire Protos ProtoFacts Crypto Ecc Kdf Messages State Prog Builder Cipher Groups.
From Verif Require Import ProgFacts StateFacts UtilFacts MsgFacts HelperFacts SpecSession SpecGroup SpecApi SpecCrash CrashProofs GroupFacts GroupProofs GroupSched SpecGroupHist GroupHistProofs GroupPool.

Section hist.
Context (C : crypto).

(** ** C53 *)

Lemma group_encrypt_ok (Hok : crypto_ok C) n pt w b w' :
  run (group_encrypt C n pt) w = (Ok b, w') ->
  exists s rec s' m, senderkey_at w n = Ok (s :: rec) /\ senderkey_at w' n = Ok (s' :: rec) /\ adv s s' /\
    chain_at s' = (chain_at s + 1)%N /\ sk_msg_parse b = Ok m /\ gKeyId m = state_id s /\ gIteration m = chain_at s.
Proof using.
  unfold group_encrypt. rewrite run_rethrow. case_match eqn:E. destruct r as [b'|e]; [|done]. intros [= -> ->].
  apply run_bind_ok in E as (rec & w1 & E1 & E). rewrite run_do, load_senderkey in E1. injection E1 as E1 <-.
  apply run_bind_ok in E as (s & w1 & E2 & E). rewrite run_lift in E2. injection E2 as E2 <-.
  destruct rec as [|s1 rec]; [done|]. injection E2 as ->.
  apply run_bind_ok in E as (ct & w1 & E2 & E). rewrite run_lift in E2. injection E2 as _ <-.
  apply run_bind_ok in E as (h & w1 & E2 & E). rewrite run_lift in E2. injection E2 as E2 <-.
  apply run_bind_ok in E as (sig & w1 & E3 & E).
  apply run_bind_ok in E as (s' & w2 & E4 & E). rewrite run_lift in E4. injection E4 as E4 <-.
  rewrite run_bind, run_do in E. cbn [step_call run] in E. injection E as <- <-.
  pose proof (run_readonly _ w (readonly_calculateSignature C (sks_getSigningKeyPrivate s) h)) as Hs. rewrite E3 in Hs. cbn [snd] in Hs.
  assert (w_senderkeys w1 = w_senderkeys w) as Hw by apply Hs.
  assert (scIteration (sck_next C (sks_getSenderChainKey s)) = chain_at s + 1)%N as Hn by done.
  apply adv_set_chain in E4 as (A & Hc & Hk); [|lia]. rewrite Hn in Hc.
  change (sk_tosign (sks_getKeyId s) (chain_at s) ct = Ok h) in E2. apply sk_tosign_inv in E2 as (B1 & B2 & ->).
  assert (length sig = 64) as Hsig.
  { unfold calculateSignature in E3. apply run_bind_ok in E3 as (rnd & w2 & R1 & R2). rewrite run_lift in R2. injection R2 as R2 _.
    unfold calculateSignature_with, c_calculateSignature in R2. case_match; [|done]. injection R2 as <-.
    match goal with H : _ && _ = true |- _ => apply andb_true_iff in H as [L1%Nat.eqb_eq L2%Nat.eqb_eq] end. by apply (co_sign_len C Hok). }
  exists s, rec, s'. eexists. split_and!; [done| |done|done|by apply sk_parse_signed|done|done].
  rewrite senderkey_stored; [done|]. cbn [put_state insert list_insert]. apply senderkey_wf in E1 as [? ?]%Forall_cons.
  apply Forall_cons. split; [|done]. by eapply adv_wf.
Qed.

Lemma group_iterations_increase (Hok : crypto_ok C) n w p1 b1 w1 w2 p2 b2 w3 :
  run (group_encrypt C n p1) w = (Ok b1, w1) -> later C w1 w2 -> run (group_encrypt C n p2) w2 = (Ok b2, w3) ->
  exists m1 m2, sk_msg_parse b1 = Ok m1 /\ sk_msg_parse b2 = Ok m2 /\
    gKeyId m1 = gKeyId m2 /\ (gIteration m1 < gIteration m2)%N.
Proof using.
  intros H1 Hl H2. apply (group_encrypt_ok Hok) in H1 as (s & rec & s1 & m1 & R0 & R1 & A1 & C1 & P1 & I1 & N1).
  apply (group_encrypt_ok Hok) in H2 as (s2 & rec2 & s3 & m2 & R2 & R3 & A2 & C2 & P2 & I2 & N2).
  destruct (later_moves C _ _ _ _ Hl R1) as (rec' & R2' & Hm). rewrite R2 in R2'. injection R2' as <-.
  destruct (rtc_moves_lookup _ _ 0 s1 Hm eq_refl) as (x & [= <-] & A).
  exists m1, m2. split_and!; [done..| |].
  - rewrite I1, I2. unfold state_id. by rewrite (adv_id _ _ A), (adv_id _ _ A1).
  - rewrite N1, N2. pose proof (adv_chain _ _ A). lia.
Qed.

(** ** C54, C55 *)

Lemma lookup_answering rec i s id :
  rec !! i = Some s -> state_id s = id -> (forall j x, j < i -> rec !! j = Some x -> state_id x <> id) -> answering rec id s.
Proof using.
  intros Hi Hid Hb. exists (take i rec), (drop (S i) rec). split; [by rewrite take_drop_middle|]. split; [done|].
  apply Forall_forall. intros x (j & Hj)%elem_of_list_lookup. apply lookup_take_Some in Hj as [Hj Hlt]. by eapply Hb.
Qed.

(** What remains after a successful decrypt, for ever. *)
Lemma group_decrypt_after n w b pt w1 w2 :
  group_reachable C w -> run (group_decrypt C n b) w = (Ok pt, w1) -> later C w1 w2 ->
  exists m rec s i pub, sk_msg_parse b = Ok m /\ senderkey_at w2 n = Ok rec /\ rec !! i = Some s /\
    state_id s = gKeyId m /\ (forall j x, j < i -> rec !! j = Some x -> state_id x <> gKeyId m) /\
    sks_getSigningKeyPublic s = Ok pub /\ sk_verifySignature C m pub = Ok tt /\ ~ holds_group_key s (gIteration m).
Proof using.
  intros Hr H Hl. rewrite run_group_decrypt in H. destruct (group_reachable_ok C w n Hr) as (rec & Hs & Hst).
  rewrite Hs in H. destruct rec as [|s0 rest] eqn:Hrec; [done|]. rewrite <- Hrec in *.
  assert (exists x, groupOpen C rec b = Ok x /\ w1 = w_set_senderkeys (<[n := skr_serialize x.2]> (w_senderkeys w)) w) as (x & Ho & ->).
  { destruct (groupOpen C rec b) as [x|]; [|done]. injection H as <- <-. eauto. }
  unfold groupOpen in Ho. apply bind_ok_inv in Ho as (m & Hm & Ho). apply bind_ok_inv in Ho as ([i s] & Hi & Ho). cbn [fst snd] in Ho.
  apply bind_ok_inv in Ho as (pub & Hp & Ho). apply bind_ok_inv in Ho as ([] & Hv & Ho). apply bind_ok_inv in Ho as ([k s'] & Hk & Ho).
  apply bind_ok_inv in Ho as (p & _ & ->%Ok_inj). cbn [fst snd put_state] in Hl.
  apply find_state_some in Hi as (j & -> & Hj & Hid & Hfst). rewrite Nat.add_0_l in Hl.
  apply getSenderKey_adv in Hk as (A & Hno & _ & _).
  assert (Forall st_wf (<[j:=s']> rec)) as Hwf.
  { apply (moves_wf rec); [by eapply moves_put|]. by eapply senderkey_wf. }
  destruct (later_moves C _ _ n _ Hl (senderkey_stored w n _ Hwf)) as (rec2 & R2 & Hm2).
  destruct (rtc_moves_lookup _ _ j s' Hm2) as (s2 & Hs2 & A2); [by apply list_lookup_insert; eapply lookup_lt_Some|].
  pose proof (adv_trans _ _ _ A A2) as A3.
  exists m, rec2, s2, j, pub. split_and!; [done|done|done| | | |done|].
  - unfold state_id. rewrite (adv_id _ _ A3). done.
  - intros j' y Hlt Hy. assert (is_Some (rec !! j')) as [y0 Hy0].
    { apply lookup_lt_is_Some. apply lookup_lt_Some in Hj. lia. }
    destruct (rtc_moves_lookup _ _ j' y0 Hm2) as (y' & Hy' & Ay); [by rewrite list_lookup_insert_ne by lia|].
    assert (y' = y) as -> by congruence. unfold state_id. rewrite (adv_id _ _ Ay). by eapply Hfst.
  - unfold sks_getSigningKeyPublic. by rewrite (adv_sig _ _ A3).
  - intros Hh. apply Hno; [|by eapply adv_holds]. by eapply Forall_lookup_1 in Hst.
Qed.

Lemma find_state_lookup k l i s : l !! i = Some s -> state_id s = k ->
  (forall j x, j < i -> l !! j = Some x -> state_id x <> k) -> find_state k l 0 = Ok (i, s).
Proof using.
  intros Hi Hk Hb. rewrite <- (take_drop_middle l i s Hi).
  assert (i < length l) as Hlt by (by eapply lookup_lt_Some).
  rewrite find_state_app.
  - cbn [find_state]. unfold state_id in Hk. unfold sks_getKeyId. rewrite Hk, N.eqb_refl, take_length. f_equal. f_equal. lia.
  - intros x (j & Hj)%elem_of_list_lookup. apply lookup_take_Some in Hj as [Hj Hl]. by eapply Hb.
Qed.

Lemma group_decrypted_once n w b pt w1 w2 :
  group_reachable C w -> run (group_decrypt C n b) w = (Ok pt, w1) -> later C w1 w2 ->
  run (group_decrypt C n b) w2 = (Err EDuplicateMessage, w2).
Proof using.
  intros Hr H Hl. destruct (group_decrypt_after n w b pt w1 w2 Hr H Hl) as (m & rec & s & i & pub & Hm & Hs & Hi & Hid & Hb & Hp & Hv & Hn).
  rewrite run_group_decrypt, Hs. destruct rec as [|s0 rest] eqn:E; [done|]. rewrite <- E in *.
  unfold groupOpen. rewrite Hm, bind_ok. rewrite (find_state_lookup _ _ i s) by done. rewrite bind_ok. cbn [fst snd].
  rewrite Hp, bind_ok, Hv, bind_ok. rewrite getSenderKey_lost by done. done.
Qed.

(** The same for any other message with the key id and iteration of the first. *)
Lemma group_iteration_once n w b b' m m' pt w1 w2 :
  group_reachable C w -> run (group_decrypt C n b) w = (Ok pt, w1) -> later C w1 w2 ->
  sk_msg_parse b = Ok m -> sk_msg_parse b' = Ok m' -> gKeyId m' = gKeyId m -> gIteration m' = gIteration m ->
  exists e, run (group_decrypt C n b') w2 = (Err e, w2).
Proof using.
  intros Hr H Hl Hm0 Hm' Ek Ei. destruct (group_decrypt_after n w b pt w1 w2 Hr H Hl) as (m1 & rec & s & i & pub & Hm & Hs & Hi & Hid & Hb & Hp & Hv & Hn).
  assert (m1 = m) as -> by congruence.
  rewrite run_group_decrypt, Hs. destruct rec as [|s0 rest] eqn:E; [done|]. rewrite <- E in *.
  unfold groupOpen. rewrite Hm', bind_ok. rewrite (find_state_lookup _ _ i s) by (by rewrite ?Ek). rewrite bind_ok. cbn [fst snd].
  rewrite Hp, bind_ok. destruct (sk_verifySignature C m' pub) as [[]|e] eqn:Ev.
  - rewrite bind_ok, Ei, getSenderKey_lost by done. eauto.
  - by exists (keyToInvalid e).
Qed.

Lemma group_erased n w b pt w1 w2 :
  group_reachable C w -> run (group_decrypt C n b) w = (Ok pt, w1) -> later C w1 w2 ->
  exists m rec s, sk_msg_parse b = Ok m /\ senderkey_at w2 n = Ok rec /\ answering rec (gKeyId m) s /\
    ~ holds_group_key s (gIteration m).
Proof using.
  intros Hr H Hl. destruct (group_decrypt_after n w b pt w1 w2 Hr H Hl) as (m & rec & s & i & pub & Hm & Hs & Hi & Hid & Hb & Hp & Hv & Hn).
  exists m, rec, s. split_and!; [done|done| |done]. by eapply lookup_answering.
Qed.
End hist.
