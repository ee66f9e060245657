(** Conversations with nothing left open (C01). *)
From Verif Require Import PyBase Wire Protos ProtoFacts Crypto Ecc Kdf Messages State Prog Ratchet Builder Cipher Helper.
From Verif Require Import ProgFacts StateFacts UtilFacts HelperFacts MsgFacts CipherFacts DecryptFacts SpecUtil SpecSession SessionProofs HandshakeFacts.
From Verif Require Import InvFacts HistoryProofs SpecKeys KeyProofs SpecEncrypt EncryptProofs Sched SpecConv ConvFacts ConvProofs ConvNet ConvStart KxProofs SpecMany ManyFacts SpecExact.

Section device.
Context (C : crypto) (Hok : crypto_ok C) (r0 c0 : bytes) (out inn : option details) (me them : bytes) (r d : Z).
Context (Hme : length me = 32) (Hthem : length them = 32).

Lemma recv_dropped ks w p l i pt x :
  Forall (genuine C) ks -> NoDup (kp_pub <$> ks) -> drel C r0 c0 out inn me them r d ks w p -> wrel C r0 c0 ks inn them me x (l, i, pt) ->
  l + 9 < p_turn p -> p_alone p = true ->
  odd_mac C w r d (Some p) x (l, i, pt) \/ exists w', run (receive C r d x) w = (Err EInvalidMessage, w').
Proof using Hok Hme Hthem.
  intros Hgen Hnd Hd (m & Hm & Hx) Hdrop Hal.
  pose proof Hd as (rec & Hrec & Hs & Hp & Ha & Hin).
  assert (exists w0, run (receive C r d x) w = run (decryptMsg C r d m) w0 /\ w_sessions w0 = w_sessions w /\ carries x m) as (w0 & Hrun & Hses & Hcar).
  { unfold receive, carries. destruct x as [[] bs]; cbn [fst snd] in *.
    - destruct Hx as (dt & q & Hdt & Hq & Hqm & Hv & Hb & Hi & _). rewrite <- Hqm. rewrite run_bind, run_lift, Hq.
      destruct (Hin dt Hdt) as [Hbase Htr]. eexists. split; [|split; [|eauto]].
      + apply (pkmsg_belongs C) with rec; [done| |by rewrite Hi].
        exists (sr_state rec). split; [by left|]. rewrite Hv, Hb. split; [by apply (srel_version C r0 c0 me them ks _ p)|done].
      + done.
    - subst bs.
      assert (whisper_parse (wSerialized m) = Ok m) as Hwp by (by destruct Hm as (_ & _ & _ & _ & _ & _ & ?)).
      rewrite run_bind, run_lift, Hwp. exists w. done. }
  assert (session_at w0 r d = Ok rec) as Hrec0 by (unfold session_at in *; by rewrite Hses).
  assert (is_Some (w_sessions w0 !! (r, d))) as Hst by (rewrite Hses; by eapply drel_stored).
  rewrite Hrun, (decryptMsg_record C r d w0 rec m Hrec0 Hst).
  pose proof (loaded_wf _ _ _ _ Hrec) as [Hwf _].
  destruct (foreign C Hok r0 c0 me them Hme Hthem ks (sr_state rec) p m (kp_at C w0 (w_pos w0)) Hgen Hwf Hs) as [Hf|He].
  - apply (kp_at_ok C Hok).
  - by destruct Hm as (_ & ? & _).
  - destruct Hm as (Hl' & _ & -> & _). by apply (genuine_pub_len C Hok), kth_genuine.
  - by destruct Hm as (_ & _ & _ & -> & ? & _).
  - destruct Hm as (_ & _ & _ & _ & _ & _ & Hwp). pose proof (whisper_parse_length _ _ Hwp). lia.
  - destruct Hm as (Hl' & _ & -> & _). apply (find_new C Hok r0 c0 me them ks Hgen Hnd (sr_state rec) p l Hs Hl'). rewrite kept_elem. lia.
  - left. exists rec, m, p. split_and!; done.
  - right. destruct (record_err C Hok rec m w0 EInvalidMessage He) as (w1 & -> & _); [right; congruence|]. eauto.
Qed.
End device.

Definition alone_of (o : option party) : Prop := match o with Some p => p_alone p = true | None => True end.
Lemma iact_alone a c : alone_of (c_A c) -> alone_of (c_B c) -> alone_of (c_A (iact a c).2) /\ alone_of (c_B (iact a c).2).
Proof.
  intros HA HB. destruct a as [pt|pt|i|i]; cbn [iact].
  - destruct (c_A c); done.
  - destruct (c_B c); done.
  - destruct (c_fromB c !! i) as [[[l j] q]|]; [|done]. unfold ideliver, ireceive. destruct (c_A c) as [p|]; cbn [alone_of] in *;
      repeat (case_match; simplify_eq/=; try done).
  - destruct (c_fromA c !! i) as [[[l j] q]|]; [|done]. unfold ideliver, ireceive. destruct (c_B c) as [p|]; cbn [alone_of] in *;
      repeat (case_match; simplify_eq/=; try done).
Qed.
Lemma ireceive_unknown l i pt p p' : p_alone p = true -> ireceive (l, i, pt) p = (SUnknown, p') -> l + 9 < p_turn p.
Proof.
  intros Ha. unfold ireceive. rewrite Ha. destruct (Nat.ltb_spec (l + 9) (p_turn p)); [done|]. repeat case_match; done.
Qed.

Section net.
Context (C : crypto) (Hok : crypto_ok C) (rA dA rB dB : Z).
Context (r0 c0 ida idb : bytes) (det : option details).
Context (Ha : length ida = 32) (Hb : length idb = 32).
Context (Hdet : forall x, det = Some x -> details_ok x).
Context (F : world -> Prop) (k0 : keypair).
Context (Hfirst : forall ks w x i pt,
  Forall (genuine C) ks -> NoDup (kp_pub <$> ks) -> length ks = 2 -> kth ks 0 = k0 -> F w ->
  wrel C r0 c0 ks det ida idb x (1%nat, i, pt) -> x.1 = true ->
  if (2000 <? i)%N then exists w', run (receive C rA dA x) w = (Err EInvalidMessage, w') /\ F w'
  else exists w', run (receive C rA dA x) w = (Ok pt, w') /\
    drel C r0 c0 None det idb ida rA dA (ks ++ [kp_at C w (w_pos w)]) w' (Party 2 0 [(1%nat, i)] true) /\
    w_pos w' = S (w_pos w)).
Context (Hsilent : forall w, F w -> forall pt, run (encrypt C rA dA pt) w = (Err EIndexError, w)).

Local Notation nrel := (nrel C rA dA rB dB r0 c0 ida idb det F k0).

Lemma unknown_act a ks n c e n1 c1 :
  nrel ks n c -> NoDup (kp_pub <$> ks) -> alone_of (c_A c) -> alone_of (c_B c) ->
  act C rA dA rB dB a n = (e, n1) -> iact a c = (SUnknown, c1) ->
  odd C rA dA rB dB a n c \/ e = Raised EInvalidMessage.
Proof using Hok Ha Hb.
  intros (Hgen & (pa & Epa & HA) & HB & HfA & HfB & _) Hnd AA AB Hact Hiact.
  destruct a as [pt|pt|i|i]; cbn [act iact] in Hact, Hiact.
  - by rewrite Epa in Hiact.
  - destruct (c_B c); done.
  - destruct (c_fromB c !! i) as [[[l j] q]|] eqn:Em; [|done].
    destruct (Forall2_lookup_r _ _ _ _ _ HfB Em) as (y & Ey & Hy). rewrite Ey in Hact.
    rewrite Epa in *. cbn [ideliver alone_of] in *. destruct (ireceive (l, j, q) pa) as [x' p'] eqn:Ei. injection Hiact as -> <-.
    apply ireceive_unknown in Ei; [|done].
    destruct (recv_dropped C Hok r0 c0 det None ida idb rB dB Ha Hb ks (n_A n) pa l j q y Hgen Hnd HA Hy Ei AA) as [Ho|[w' Hrun]].
    + left. exists y, (l, j, q). split_and!; try done. by rewrite Epa.
    + right. rewrite Hrun in Hact. by injection Hact as <- <-.
  - destruct (c_fromA c !! i) as [[[l j] q]|] eqn:Em; [|done].
    destruct (Forall2_lookup_r _ _ _ _ _ HfA Em) as (y & Ey & Hy). rewrite Ey in Hact.
    destruct (c_B c) as [pb|] eqn:Epb; cbn [ideliver alone_of] in *.
    + destruct (ireceive (l, j, q) pb) as [x' p'] eqn:Ei. injection Hiact as -> <-.
      apply ireceive_unknown in Ei; [|done].
      destruct (recv_dropped C Hok r0 c0 None det idb ida rA dA Hb Ha ks (n_B n) pb l j q y Hgen Hnd HB Hy Ei AB) as [Ho|[w' Hrun]].
      * left. exists y, (l, j, q). split_and!; try done. by rewrite Epb.
      * right. rewrite Hrun in Hact. by injection Hact as <- <-.
    + destruct (ireceive (l, j, q) (Party 0 0 [] true)) as [x' p'] eqn:Ei. injection Hiact as -> <-.
      apply ireceive_unknown in Ei; [|done]. cbn in Ei. lia.
Qed.

Lemma play_exact l : forall ks n c es n',
  nrel ks n c -> play C rA dA rB dB l n = (es, n') -> fresh C ks n n' -> alone_of (c_A c) -> alone_of (c_B c) ->
  (sent_of (c_A c) + N.of_nat (length l) < 2 ^ 32)%N -> (sent_of (c_B c) + N.of_nat (length l) < 2 ^ 32)%N ->
  exactly C rA dA rB dB l n c.
Proof using Hok Ha Hb Hdet Hfirst Hsilent.
  induction l as [|a l IH]; intros ks n c es n' Hn Hplay Hfr AA AB HsA HsB; cbn [play exactly] in *; [done|].
  destruct (act C rA dA rB dB a n) as [e n1] eqn:Ea. destruct (play C rA dA rB dB l n1) as [es1 n2] eqn:Ep.
  injection Hplay as <- <-. pose proof (iact_alone a c AA AB) as [AA1 AB1]. destruct (iact a c) as [x c1] eqn:Ei. cbn [fst snd] in *.
  destruct (play_later _ _ _ _ _ _ _ _ _ Ep) as [HlA HlB]. cbn [length] in HsA, HsB.
  assert (NoDup (kp_pub <$> ks)) as Hnd by (by apply NoDup_app in Hfr as [? _]).
  destruct (step_net C Hok rA dA rB dB r0 c0 ida idb det Ha Hb Hdet F k0 Hfirst Hsilent a ks n c e n1 n2 x c1 Hn Ea Ei HlA HlB Hfr)
    as [(-> & pt & ->)|(Hm & ks1 & Hn1 & Hfr1 & H1 & H2)]; [lia|lia| |].
  { destruct (unknown_act a ks n c _ n1 c1 Hn Hnd AA AB Ea Ei) as [?|?]; [by left|done]. }
  assert (exactly C rA dA rB dB l n1 c1) as Hrest by (apply (IH ks1 n1 c1 es1 n2 Hn1 Ep Hfr1 AA1 AB1); lia).
  destruct x; cbn [matches refusal] in *; try by (right; split).
  destruct (unknown_act a ks n c _ n1 c1 Hn Hnd AA AB Ea Ei) as [?| ->]; [by left|by right].
Qed.
End net.

Section start.
Context (C : crypto) (Hok : crypto_ok C).

Lemma conversation_exact rA dA rB dB wA wB recA recB ida idb ka kb l es n' :
  session_at wA rB dB = Ok recA -> session_at wB rA dA = Ok recB -> alone recA = true -> alone recB = true ->
  matching C (sr_state recA) (sr_state recB) ida idb ka kb ->
  play C rA dA rB dB l (Net wA wB [] []) = (es, n') ->
  NoDup ([kp_pub ka; kp_pub kb] ++ drawn C wA (n_A n') ++ drawn C wB (n_B n')) ->
  (N.of_nat (length l) < 2 ^ 32)%N ->
  exactly C rA dA rB dB l (Net wA wB [] []) (Conv (Some (first_party recA)) (Some (second_party recB)) [] []).
Proof using Hok.
  intros HrA HrB AA AB (Gka & Gkb & La & Lb & PA & PB & root & chain & SB & RB & SA & c & RA & C1 & C2 & C3) Hplay Hnd Hlen.
  apply (play_exact C Hok rA dA rB dB root chain ida idb None La Lb ltac:(done) (fun _ => False) kb ltac:(done) ltac:(done) l [kb; ka]
    (Net wA wB [] []) _ es n'); try done.
  - unfold nrel. cbn [n_A n_B n_fromA n_fromB c_A c_B c_fromA c_fromB turn_of p_turn first_party second_party].
    split_and!; try done.
    + constructor; [done|]. constructor; [done|]. constructor.
    + eexists. split; [done|]. exists recA. split_and!; try done.
      * by eapply start_first.
      * unfold pending_ok. by rewrite PA.
    + exists recB. split_and!; try done.
      * by apply start_second.
      * unfold pending_ok. by rewrite PB.
    + by exists 0%nat.
    + by exists 0%nat.
    + by left.
  - unfold fresh. cbn [n_A n_B fmap list_fmap]. eapply NoDup_Permutation_proper; [|exact Hnd]. apply perm_swap.
Qed.

Lemma exactly_swap rA dA rB dB l : forall n c,
  exactly C rB dB rA dA (swap_act <$> l) (swap_net n) (swap_conv c) -> exactly C rA dA rB dB l n c.
Proof using.
  induction l as [|a l IH]; intros n c; cbn [exactly fmap list_fmap]; [done|].
  destruct (act C rA dA rB dB a n) as [e n1] eqn:E. rewrite (act_swap _ _ _ _ _ _ _ _ _ E), iact_swap. cbn [fst snd].
  intros [H|[H1 H2]]; [left; by destruct a|right]. split; [done|]. by apply IH.
Qed.

Lemma joined_exact rA dA rB dB wA wB recA recB ida idb ka kb c l es n' :
  session_at wA rB dB = Ok recA -> session_at wB rA dA = Ok recB -> alone recA = true -> alone recB = true ->
  joined_conv C recA recB ida idb ka kb c ->
  play C rA dA rB dB l (Net wA wB [] []) = (es, n') ->
  NoDup ([kp_pub ka; kp_pub kb] ++ drawn C wA (n_A n') ++ drawn C wB (n_B n')) ->
  (N.of_nat (length l) < 2 ^ 32)%N ->
  exactly C rA dA rB dB l (Net wA wB [] []) c.
Proof using Hok.
  intros HA HB AA AB [[Hm ->]|[Hm ->]] Hplay Hnd Hlen.
  - by eapply conversation_exact.
  - apply exactly_swap. apply play_swap in Hplay.
    eapply (conversation_exact rB dB rA dA wB wA recB recA idb ida kb ka); try done.
    + cbn [swap_net n_A n_B]. eapply NoDup_Permutation_proper; [|exact Hnd].
      rewrite (Permutation_app_comm (drawn C wB _)). apply perm_swap.
    + by rewrite fmap_length.
Qed.

(** From a bundle on (C11). *)
Lemma bundle_exact rA dA rB dB b spk i otpk wA wB rec l es n' wA1 :
  able C wA -> able C wB -> bundle_of C wB b spk (Some (i, otpk)) ->
  trusts wA rB (kp_pub (w_identity wB)) -> session_at wA rB dB = Ok rec ->
  trusts wB rA (kp_pub (w_identity wA)) -> w_sessions wB !! (rA, dA) = None ->
  run (processPreKeyBundle C rB dB b) wA = (Ok tt, wA1) ->
  play C rA dA rB dB l (Net wA1 wB [] []) = (es, n') ->
  NoDup ([kp_pub spk] ++ drawn C wA (n_A n') ++ drawn C wB (n_B n')) ->
  (N.of_nat (length l) < 2 ^ 32)%N ->
  exists recA, session_at wA1 rB dB = Ok recA /\
    (alone recA = true -> exactly C rA dA rB dB l (Net wA1 wB [] []) (Conv (Some (first_party recA)) None [] [])).
Proof using Hok.
  intros HA HB Hbu HtA HrA HtB HnB Hrun Hplay Hnd Hlen.
  destruct (bundle_run C Hok rB dB b spk (Some (i, otpk)) wA wB rec HA Hbu HtA HrA) as (w1 & s & Hrun' & Hpos & Hst & Hs & Hpend & Hreg).
  rewrite Hrun in Hrun'. injection Hrun' as <-.
  cbn [fmap option_fmap option_map fst snd] in *.
  set (base := kp_at C wA (w_pos wA)) in *. set (ek := kp_at C wA (S (w_pos wA))) in *.
  set (k0 := mkdf C _) in *.
  destruct Hbu as (GB & Bid & Gspk & (bs1 & spr & Hs1 & Hs2 & Hs3) & Bspk & Hver & Hsid & Hbreg & Gotpk & (bs2 & pr & Hp1 & Hp2 & Hp3) & Hpid & Hpk & Hi).
  assert (genuine C ek) as Gek by (apply (kp_at_genuine C Hok)).
  assert (genuine C base) as Gbase by (apply (kp_at_genuine C Hok)).
  destruct HA as [GA RA]. destruct HB as [_ RB].
  assert (details_ok (Details (Some i) (bu_signedPreKeyId b) (kp_pub base) (w_regid wA))) as Hdet.
  { split_and!; try done. by apply (genuine_pub_len C Hok). }
  eexists. split; [exact Hst|]. intros Hal.
  apply (play_exact C Hok rA dA rB dB k0.1 k0.2 (kp_pub (w_identity wA)) (kp_pub (w_identity wB))
    (Some (Details (Some i) (bu_signedPreKeyId b) (kp_pub base) (w_regid wA)))
    ltac:(by apply (genuine_pub_len C Hok)) ltac:(by apply (genuine_pub_len C Hok)) ltac:(by intros ? [= <-])
    (ready rA dA (kp_pub (w_identity wA)) (w_identity wB) spk otpk (bu_signedPreKeyId b) i) spk) with (ks := [spk; ek])
    (n := Net wA1 wB [] []) (es := es) (n' := n'); try done.
  - intros ks w x j pt Hgen Hnd' Hl Hk0 HF Hw Hx.
    apply (first_delivery C Hok rA dA (kp_pub (w_identity wA)) (w_identity wB) spk otpk (bu_signedPreKeyId b) i (kp_pub base) (w_regid wA) k0.1 k0.2); try done.
    all: by apply (genuine_pub_len C Hok).
  - intros w (Hn & _) pt. by apply no_session_encrypt.
  - unfold nrel. cbn [n_A n_B n_fromA n_fromB c_A c_B c_fromA c_fromB turn_of p_turn first_party].
    split_and!; try done.
    + constructor; [done|]. constructor; [done|]. constructor.
    + eexists. split; [done|]. eexists. split; [exact Hst|]. split_and!; try done.
      unfold pending_ok. cbn [sr_state]. rewrite Hpend. eexists. split; [done|]. split; [done|]. by rewrite Hreg.
    + unfold ready. split_and!; try done.
      * exists spr. split; [|done]. cbn [step_call]. by rewrite Hs1, Hs2.
      * exists pr. split; [|done]. cbn [step_call]. by rewrite Hp1, Hp2.
    + eexists. split; [exact Hst|]. cbn [sr_state]. rewrite Hpend. eauto.
    + by exists 0%nat.
    + by exists 0%nat.
    + by left.
  - unfold fresh. cbn [n_A n_B fmap list_fmap].
    destruct (play_later _ _ _ _ _ _ _ _ _ Hplay) as [HlA _]. cbn [n_A] in HlA.
    pose proof (run_stream' _ _ _ _ Hrun) as Hst1.
    rewrite (drawn_split C wA wA1 (n_A n')) in Hnd by done.
    assert (drawn C wA wA1 = [kp_pub base; kp_pub ek]) as E.
    { unfold drawn. rewrite Hpos. by replace (S (S (w_pos wA)) - w_pos wA)%nat with 2%nat by lia. }
    rewrite E in Hnd. cbn [app] in Hnd |- *. apply NoDup_cons in Hnd as [Hn1 Hnd]. apply NoDup_cons in Hnd as [_ Hnd].
    constructor; [|done]. intros Hin. apply Hn1. by right.
Qed.
End start.
