(** A conversation goes on whatever else the devices do. *)
From Verif Require Import PyBase Wire Protos ProtoFacts Crypto Ecc Kdf Messages State Prog Ratchet Builder Cipher Groups Helper.
From Verif Require Import ProgFacts StateFacts UtilFacts HelperFacts MsgFacts CipherFacts DecryptFacts SpecUtil SpecSession SessionProofs HandshakeFacts.
From Verif Require Import InvFacts HistoryProofs SpecKeys KeyProofs SpecEncrypt EncryptProofs SpecApi SpecIso IsoProofs SpecBeside BesideProofs TotalProofs2.
From Verif Require Import Sched SpecConv ConvFacts ConvProofs ConvNet ConvStart KxProofs SpecBusy.

(** ** What other activity leaves alone *)

Section aside.
Context (C : crypto) (r d : Z).

(** The session of the peer device and the own identity stay, and the random source only
    goes forward. *)
Definition kept (w w' : world) : Prop :=
  w_sessions w' !! (r, d) = w_sessions w !! (r, d) /\ w_identity w' = w_identity w /\ w_regid w' = w_regid w /\ later w w'.
Lemma kept_refl w : kept w w.
Proof. unfold kept. split_and!; try done; apply later_refl. Qed.
Lemma kept_trans w1 w2 w3 : kept w1 w2 -> kept w2 w3 -> kept w1 w3.
Proof. intros (A1 & A2 & A3 & A4) (B1 & B2 & B3 & B4). split_and!; [congruence..|]. by eapply later_trans. Qed.
Lemma kept_unchanged w w' : later w w' -> unchanged w w' -> kept w w'.
Proof. intros Hl (H1 & _ & _ & _ & H2 & H3 & _). unfold kept. by rewrite H1. Qed.

Definition skips (R : Type) (c : call R) : Prop := match c with CStoreSession r' d' _ => (r', d') <> (r, d) | _ => True end.
Lemma skips_step {R} (c : call R) w : skips R c -> kept w (step_call c w).2.
Proof.
  intros Hc. destruct c; cbn [step_call snd]; try apply kept_refl; unfold kept, later; cbn; split_and!; try done; try lia.
  cbn in Hc. by rewrite lookup_insert_ne by congruence.
Qed.
Lemma skips_run {A} (p : prog A) w : confined skips p -> kept w (run p w).2.
Proof.
  revert w. induction p as [a|e|R c k IH]; intros w Hp; [apply kept_refl..|]. destruct Hp as [Hc Hk].
  pose proof (skips_step c w Hc) as H. cbn [run]. destruct (step_call c w) as [x w1]. eapply kept_trans; [exact H|]. by apply IH.
Qed.
Lemma skips_crash {A} n (p : prog A) w : confined skips p -> kept w (run_crash n p w).2.
Proof.
  revert n w. induction p as [a|e|R c k IH]; intros n w Hp; [apply kept_refl..|]. destruct Hp as [Hc Hk].
  destruct n as [|n]; [apply kept_refl|].
  pose proof (skips_step c w Hc) as H. cbn [run_crash]. destruct (step_call c w) as [x w1]. eapply kept_trans; [exact H|]. by apply IH.
Qed.
Lemma aside_skips c : aside r d c -> confined skips (api C c).
Proof. intros Hc. apply api_confined. destruct c; cbn in Hc; intros R [] Hx; cbn in *; try done; congruence. Qed.

(** Responses that are refused change nothing. *)
Lemma response_err m w e w' : run (processResponse C r d m) w = (Err e, w') -> unchanged w w'.
Proof.
  intros Hrun. unfold processResponse in Hrun. rewrite run_bind, run_do, load_session in Hrun.
  destruct (session_at w r d) as [rec|e0]; [|injection Hrun as _ <-; apply unchanged_refl]. cbv zeta in Hrun.
  destruct (_ || _); [destruct (kx_isResponseForSimultaneousInitiate m); [done|injection Hrun as _ <-; apply unchanged_refl]|].
  rewrite run_bind, run_lift in Hrun.
  destruct (st_getPendingKeyExchangeBaseKey _) as [kb|e0]; [|injection Hrun as _ <-; apply unchanged_refl].
  rewrite run_bind, run_lift in Hrun.
  destruct (st_getPendingKeyExchangeRatchetKey _) as [kr|e0]; [|injection Hrun as _ <-; apply unchanged_refl].
  rewrite run_bind, run_lift in Hrun.
  destruct (st_getPendingKeyExchangeIdentityKey _) as [ki|e0]; [|injection Hrun as _ <-; apply unchanged_refl].
  rewrite run_bind in Hrun.
  destruct (run (initializeSession _ _ _ _ _ _ _ _) w) as [[s|e0] w1] eqn:Ein;
    apply run_readonly_eq in Ein; try apply readonly_initializeSession; apply unchanged_same in Ein.
  2: { by injection Hrun as _ <-. }
  rewrite run_bind, run_lift in Hrun.
  destruct (verifySignature _ _ _ _) as [[]|e0]; [|by injection Hrun as _ <-..].
  rewrite run_bind, run_do in Hrun. cbn [step_call] in Hrun. rewrite run_do in Hrun. done.
Qed.

Lemma takes_kept c w e w' : takes C r d w c -> run (api C c) w = (Err e, w') -> kept w w'.
Proof.
  intros Ht Hrun. assert (later w w') as Hl by (by eapply run_stream').
  destruct c; cbn [takes api] in *; try done.
  - injection Ht as -> ->. apply kept_unchanged; [done|]. by eapply (bundle_err C).
  - destruct Ht as [[= -> ->] Ht]. apply kept_unchanged; [done|].
    apply run_bind_err in Hrun as [Hrun|(a & w1 & _ & Hrun)]; [|done].
    assert (Hex := Hrun). unfold processKeyExchangeMessage in Hex. rewrite run_bind, run_do in Hex.
    destruct (trusted_cases w r (xIdentityKey m)) as [[Htr E]|[_ E]]; rewrite E in Hex; [|injection Hex as _ <-; apply unchanged_refl].
    destruct (kx_isInitiate m) eqn:Ei.
    + eapply (kx_bad_signature_unchanged C r d m w); [by left| |exact Hrun]. apply Ht; [|done]. by rewrite <- kx_initiate_bit.
    + apply run_bind_err in Hex as [Hex|(a & w1 & _ & Hex)]; [|done]. by eapply response_err.
  - injection Ht as -> ->. apply kept_unchanged; [done|].
    apply run_bind_err in Hrun as [Hrun|(a & w1 & _ & Hrun)]; [|done]. by eapply (decryptMsg_err C).
  - injection Ht as -> ->.
    apply run_bind_err in Hrun as [Hrun|(a & w1 & _ & Hrun)]; [|done].
    apply (decryptPkmsg_err C) in Hrun as [Hu|(_ & (H1 & H2 & H3 & H4 & H5 & _) & _)]; [by apply kept_unchanged|].
    unfold kept. rewrite H1. done.
Qed.

Lemma meanwhile_kept w w' : meanwhile C r d w w' -> kept w w'.
Proof.
  intros [c Hc|c n Hc|c e w1 Hc Hr|m|m|m].
  - by apply skips_run, aside_skips.
  - by apply skips_crash, aside_skips.
  - by eapply takes_kept.
  - unfold kept. split_and!; try done; apply later_refl.
  - unfold kept. split_and!; try done; apply later_refl.
  - unfold kept. split_and!; try done; apply later_refl.
Qed.
End aside.

(** ** The network *)

Lemma busy_later C rA dA rB dB good l n es n' : busy C rA dA rB dB good l n es n' -> later (n_A n) (n_A n') /\ later (n_B n) (n_B n').
Proof.
  induction 1 as [n|a l n e n1 es n' Ha _ [H1 H2]|l n w es n' Hm _ [H1 H2]|l n w es n' Hm _ _ [H1 H2]].
  - split; apply later_refl.
  - apply act_later in Ha as [H3 H4]. split; by eapply later_trans.
  - split; [|done]. cbn [n_A] in H1. eapply later_trans; [|exact H1]. apply (meanwhile_kept C rB dB) in Hm. apply Hm.
  - split; [done|]. cbn [n_B] in H2. eapply later_trans; [|exact H2]. apply (meanwhile_kept C rA dA) in Hm. apply Hm.
Qed.

Section net.
Context (C : crypto) (Hok : crypto_ok C) (rA dA rB dB : Z).
Context (r0 c0 ida idb : bytes) (det : option details).
Context (Ha : length ida = 32) (Hb : length idb = 32).
Context (Hdet : forall x, det = Some x -> details_ok x).
Context (F : world -> Prop) (k0 : keypair).
Context (Hfirst : forall ks w x i pt,
  Forall (genuine C) ks -> NoDup (kp_pub <$> ks) -> length ks = 2 -> kth ks 0 = k0 -> F w ->
  wrel C r0 c0 ks det ida idb x (1%nat, i, pt) -> x.1 = true ->
  if (2000 <? i)%N then exists w', run (receive C rA dA x) w = (Err EInvalidMessage, w') /\ F w'
  else exists w', run (receive C rA dA x) w = (Ok pt, w') /\
    drel C r0 c0 None det idb ida rA dA (ks ++ [kp_at C w (w_pos w)]) w' (Party 2 0 [(1%nat, i)] true) /\
    w_pos w' = S (w_pos w)).
Context (Hsilent : forall w, F w -> forall pt, run (encrypt C rA dA pt) w = (Err EIndexError, w)).
Context (good : world -> Prop).
Context (Hgood : forall w, good w -> is_Some det -> trusts w rA ida).
Context (HF : forall w w', F w -> kept rA dA w w' -> good w' -> F w').

Lemma kept_session r d w w' : kept r d w w' -> session_at w' r d = session_at w r d.
Proof using. intros (H & _). unfold session_at. by rewrite H. Qed.

Lemma kept_A ks n c w : kept rB dB (n_A n) w -> nrel C rA dA rB dB r0 c0 ida idb det F k0 ks n c ->
  nrel C rA dA rB dB r0 c0 ida idb det F k0 ks (Net w (n_B n) (n_fromA n) (n_fromB n)) c.
Proof using.
  intros Hk (Hgen & (pa & Epa & HA) & HB & Hrest). pose proof (kept_session _ _ _ _ Hk) as Hs.
  split_and!; [done| |..]; cbn [n_A n_B n_fromA n_fromB].
  - exists pa. split; [done|]. destruct HA as (rec & H1 & H2 & H3 & H4 & _). exists rec. rewrite Hs. split_and!; try done.
  - destruct (c_B c); [done|]. destruct HB as (H1 & H2 & H3 & H4 & rec & H5 & H6). split_and!; try done. exists rec. by rewrite Hs.
  - apply Hrest.
  - apply Hrest.
  - apply Hrest.
  - apply Hrest.
  - apply Hrest.
  - apply Hrest.
  - apply Hrest.
  - apply Hrest.
Qed.
Lemma kept_B ks n c w : kept rA dA (n_B n) w -> good w -> nrel C rA dA rB dB r0 c0 ida idb det F k0 ks n c ->
  nrel C rA dA rB dB r0 c0 ida idb det F k0 ks (Net (n_A n) w (n_fromA n) (n_fromB n)) c.
Proof using Hgood HF.
  intros Hk Hg (Hgen & (pa & Epa & HA) & HB & Hrest). pose proof (kept_session _ _ _ _ Hk) as Hs.
  split_and!; [done| |..]; cbn [n_A n_B n_fromA n_fromB].
  - by exists pa.
  - destruct (c_B c).
    + destruct HB as (rec & H1 & H2 & H3 & H4 & H5). exists rec. rewrite Hs. split_and!; try done.
      intros dt Hdt. destruct (H5 dt Hdt) as [H6 _]. split; [done|]. apply Hgood; [done|]. by rewrite Hdt.
    + destruct HB as (H1 & H2 & H3 & H4 & H5). split_and!; try done. by eapply HF.
  - apply Hrest.
  - apply Hrest.
  - apply Hrest.
  - apply Hrest.
  - apply Hrest.
  - apply Hrest.
  - apply Hrest.
  - apply Hrest.
Qed.

Lemma busy_net l n es n' : busy C rA dA rB dB good l n es n' -> forall ks c,
  nrel C rA dA rB dB r0 c0 ida idb det F k0 ks n c -> fresh C ks n n' ->
  (sent_of (c_A c) + N.of_nat (length l) < 2 ^ 32)%N -> (sent_of (c_B c) + N.of_nat (length l) < 2 ^ 32)%N ->
  as_expected l es c.
Proof using Hok Ha Hb Hdet Hfirst Hsilent Hgood HF.
  induction 1 as [n|a l n e n1 es n' Ea Hrest IH|l n w es n' Hm Hrest IH|l n w es n' Hm Hg Hrest IH]; intros ks c Hn Hfr HsA HsB.
  - done.
  - cbn [as_expected]. destruct (iact a c) as [x c1] eqn:Ei.
    destruct (busy_later _ _ _ _ _ _ _ _ _ _ Hrest) as [HlA HlB]. cbn [length] in HsA, HsB.
    destruct (step_net C Hok rA dA rB dB r0 c0 ida idb det Ha Hb Hdet F k0 Hfirst Hsilent a ks n c e n1 n' x c1 Hn Ea Ei HlA HlB Hfr)
      as [(-> & pt & ->)|(Hx & ks1 & Hn1 & Hfr1 & H1 & H2)]; [lia|lia| |].
    { right. eauto. }
    assert (as_expected l es c1) as Hl by (apply (IH ks1 c1 Hn1 Hfr1); lia).
    destruct x; cbn [matches] in Hx; try done.
    destruct Hx as [ex ->]. left. eauto.
  - apply (meanwhile_kept C rB dB) in Hm. apply (IH ks c); [by apply kept_A| |done|done].
    destruct (busy_later _ _ _ _ _ _ _ _ _ _ Hrest) as [HlA HlB]. unfold fresh in *. cbn [n_A n_B] in *.
    eapply fresh_rest; [|exact HlA| |exact HlB|exact Hfr]; [apply Hm|apply later_refl].
  - apply (meanwhile_kept C rA dA) in Hm. apply (IH ks c); [by apply kept_B| |done|done].
    destruct (busy_later _ _ _ _ _ _ _ _ _ _ Hrest) as [HlA HlB]. unfold fresh in *. cbn [n_A n_B] in *.
    eapply fresh_rest; [|exact HlA| |exact HlB|exact Hfr]; [apply later_refl|apply Hm].
Qed.
End net.

(** ** Matching sessions *)

Lemma busy_swap C rA dA rB dB l n es n' : busy C rA dA rB dB anything l n es n' ->
  busy C rB dB rA dA anything (swap_act <$> l) (swap_net n) es (swap_net n').
Proof.
  induction 1 as [n|a l n e n1 es n' Ea _ IH|l n w es n' Hm _ IH|l n w es n' Hm Hg _ IH].
  - apply busy_end.
  - cbn [fmap list_fmap]. eapply busy_talk; [|exact IH]. by apply act_swap.
  - eapply busy_B; [exact Hm|done|]. exact IH.
  - eapply busy_A; [exact Hm|]. exact IH.
Qed.

Section start.
Context (C : crypto) (Hok : crypto_ok C).

Lemma busy_matching rA dA rB dB wA wB recA recB ida idb ka kb l es n' :
  session_at wA rB dB = Ok recA -> session_at wB rA dA = Ok recB ->
  matching C (sr_state recA) (sr_state recB) ida idb ka kb ->
  busy C rA dA rB dB anything l (Net wA wB [] []) es n' ->
  NoDup ([kp_pub ka; kp_pub kb] ++ drawn C wA (n_A n') ++ drawn C wB (n_B n')) ->
  (N.of_nat (length l) < 2 ^ 32)%N ->
  as_expected l es (Conv (Some (first_party recA)) (Some (second_party recB)) [] []).
Proof using Hok.
  intros HrA HrB (Gka & Gkb & La & Lb & PA & PB & root & chain & SB & RB & SA & c & RA & C1 & C2 & C3) Hplay Hnd Hlen.
  apply (busy_net C Hok rA dA rB dB root chain ida idb None La Lb ltac:(done) (fun _ => False) kb ltac:(done) ltac:(done)
    anything ltac:(by intros ? ? []) ltac:(done) l _ _ _ Hplay [kb; ka]); try done.
  - unfold nrel. cbn [n_A n_B n_fromA n_fromB c_A c_B c_fromA c_fromB turn_of p_turn first_party second_party].
    split_and!; try done.
    + constructor; [done|]. constructor; [done|]. constructor.
    + eexists. split; [done|]. exists recA. split_and!; try done.
      * by eapply (start_first C Hok).
      * unfold pending_ok. by rewrite PA.
    + exists recB. split_and!; try done.
      * by apply start_second.
      * unfold pending_ok. by rewrite PB.
    + by exists 0%nat.
    + by exists 0%nat.
    + by left.
  - unfold fresh. cbn [n_A n_B fmap list_fmap]. eapply NoDup_Permutation_proper; [|exact Hnd]. apply perm_swap.
Qed.

Lemma busy_conversation rA dA rB dB wA wB recA recB ida idb ka kb c l es n' :
  session_at wA rB dB = Ok recA -> session_at wB rA dA = Ok recB ->
  joined_conv C recA recB ida idb ka kb c ->
  busy C rA dA rB dB anything l (Net wA wB [] []) es n' ->
  NoDup ([kp_pub ka; kp_pub kb] ++ drawn C wA (n_A n') ++ drawn C wB (n_B n')) ->
  (N.of_nat (length l) < 2 ^ 32)%N ->
  as_expected l es c.
Proof using Hok.
  intros HA HB [[Hm ->]|[Hm ->]] Hplay Hnd Hlen.
  - by eapply busy_matching.
  - apply expected_swap. apply busy_swap in Hplay.
    eapply (busy_matching rB dB rA dA wB wA recB recA idb ida kb ka); try done.
    + cbn [swap_net n_A n_B]. eapply NoDup_Permutation_proper; [|exact Hnd].
      rewrite (Permutation_app_comm (drawn C wB _)). apply perm_swap.
    + by rewrite fmap_length.
Qed.

Lemma busy_from_bundle rA dA rB dB b spk i otpk wA wB rec l es n' wA1 :
  able C wA -> able C wB -> bundle_of C wB b spk (Some (i, otpk)) ->
  trusts wA rB (kp_pub (w_identity wB)) -> session_at wA rB dB = Ok rec ->
  trusts wB rA (kp_pub (w_identity wA)) -> w_sessions wB !! (rA, dA) = None ->
  run (processPreKeyBundle C rB dB b) wA = (Ok tt, wA1) ->
  busy C rA dA rB dB (still_open rA dA (kp_pub (w_identity wA)) (bu_signedPreKeyId b) spk i otpk) l (Net wA1 wB [] []) es n' ->
  NoDup ([kp_pub spk] ++ drawn C wA (n_A n') ++ drawn C wB (n_B n')) ->
  (N.of_nat (length l) < 2 ^ 32)%N ->
  exists recA, session_at wA1 rB dB = Ok recA /\ as_expected l es (Conv (Some (first_party recA)) None [] []).
Proof using Hok.
  intros HA HB Hbu HtA HrA HtB HnB Hrun Hplay Hnd Hlen.
  destruct (bundle_run C Hok rB dB b spk (Some (i, otpk)) wA wB rec HA Hbu HtA HrA) as (w1 & s & Hrun' & Hpos & Hst & Hs & Hpend & Hreg).
  rewrite Hrun in Hrun'. injection Hrun' as <-.
  cbn [fmap option_fmap option_map fst snd] in *.
  set (base := kp_at C wA (w_pos wA)) in *. set (ek := kp_at C wA (S (w_pos wA))) in *.
  set (k0 := mkdf C _) in *.
  destruct Hbu as (GB & Bid & Gspk & (bs1 & spr & Hs1 & Hs2 & Hs3) & Bspk & Hver & Hsid & Hbreg & Gotpk & (bs2 & pr & Hp1 & Hp2 & Hp3) & Hpid & Hpk & Hi).
  assert (genuine C ek) as Gek by (apply (kp_at_genuine C Hok)).
  assert (genuine C base) as Gbase by (apply (kp_at_genuine C Hok)).
  destruct HA as [GA RA]. destruct HB as [_ RB].
  assert (details_ok (Details (Some i) (bu_signedPreKeyId b) (kp_pub base) (w_regid wA))) as Hdet.
  { split_and!; try done. by apply (genuine_pub_len C Hok). }
  eexists. split; [exact Hst|].
  apply (busy_net C Hok rA dA rB dB k0.1 k0.2 (kp_pub (w_identity wA)) (kp_pub (w_identity wB))
    (Some (Details (Some i) (bu_signedPreKeyId b) (kp_pub base) (w_regid wA)))
    ltac:(by apply (genuine_pub_len C Hok)) ltac:(by apply (genuine_pub_len C Hok)) ltac:(by intros ? [= <-])
    (ready rA dA (kp_pub (w_identity wA)) (w_identity wB) spk otpk (bu_signedPreKeyId b) i) spk) with (ks := [spk; ek])
    (good := still_open rA dA (kp_pub (w_identity wA)) (bu_signedPreKeyId b) spk i otpk) (n := Net wA1 wB [] []) (n' := n'); try done.
  - intros ks w x j pt Hgen Hnd' Hl Hk0 HF Hw Hx.
    apply (first_delivery C Hok rA dA (kp_pub (w_identity wA)) (w_identity wB) spk otpk (bu_signedPreKeyId b) i (kp_pub base) (w_regid wA) k0.1 k0.2); try done.
    all: by apply (genuine_pub_len C Hok).
  - intros w (Hn & _) pt. by apply no_session_encrypt.
  - by intros w [H _] _.
  - intros w w' (H1 & _ & H3 & H4 & _) (K1 & K2 & K3 & _) [T1 T2]. rewrite H1 in K1.
    destruct (T2 K1) as [(bs & spr' & A1 & A2 & A3) (bs' & pr' & B1 & B2 & B3)].
    unfold ready. split_and!; try done; [congruence|by rewrite K3|..].
    + exists spr'. split; [|done]. cbn [step_call]. by rewrite A1, A2.
    + exists pr'. split; [|done]. cbn [step_call]. by rewrite B1, B2.
  - unfold nrel. cbn [n_A n_B n_fromA n_fromB c_A c_B c_fromA c_fromB turn_of p_turn first_party].
    split_and!; try done.
    + constructor; [done|]. constructor; [done|]. constructor.
    + eexists. split; [done|]. eexists. split; [exact Hst|]. split_and!; try done.
      unfold pending_ok. cbn [sr_state]. rewrite Hpend. eexists. split; [done|]. split; [done|]. by rewrite Hreg.
    + unfold ready. split_and!; try done.
      * exists spr. split; [|done]. cbn [step_call]. by rewrite Hs1, Hs2.
      * exists pr. split; [|done]. cbn [step_call]. by rewrite Hp1, Hp2.
    + eexists. split; [exact Hst|]. cbn [sr_state]. rewrite Hpend. eauto.
    + by exists 0%nat.
    + by exists 0%nat.
    + by left.
  - unfold fresh. cbn [n_A n_B fmap list_fmap].
    destruct (busy_later _ _ _ _ _ _ _ _ _ _ Hplay) as [HlA _]. cbn [n_A] in HlA.
    pose proof (run_stream' _ _ _ _ Hrun) as Hst1.
    rewrite (drawn_split C wA wA1 (n_A n')) in Hnd by done.
    assert (drawn C wA wA1 = [kp_pub base; kp_pub ek]) as E.
    { unfold drawn. rewrite Hpos. by replace (S (S (w_pos wA)) - w_pos wA)%nat with 2%nat by lia. }
    rewrite E in Hnd. cbn [app] in Hnd |- *. apply NoDup_cons in Hnd as [Hn1 Hnd]. apply NoDup_cons in Hnd as [_ Hnd].
    constructor; [|done]. intros Hin. apply Hn1. by right.
Qed.
End start.
