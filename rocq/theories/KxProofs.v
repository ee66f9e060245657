(** Key exchanges lead to matching sessions: C18, C20; and C01 with the roles swapped. *)
From Verif Require Import PyBase Wire Protos ProtoFacts Crypto Ecc Kdf Messages State Prog Ratchet Builder Cipher Helper.
From Verif Require Import ProgFacts StateFacts UtilFacts HelperFacts MsgFacts CipherFacts DecryptFacts SpecUtil SpecSession SessionProofs HandshakeFacts.
From Verif Require Import InvFacts HistoryProofs SpecKeys KeyProofs SpecEncrypt EncryptProofs Sched SpecConv ConvFacts ConvProofs ConvNet ConvStart.

(** ** Renaming the devices *)

Definition swap_act (a : action) : action :=
  match a with SendA x => SendB x | SendB x => SendA x | DeliverA i => DeliverB i | DeliverB i => DeliverA i end.
Definition swap_net (n : net) : net := Net (n_B n) (n_A n) (n_fromB n) (n_fromA n).
Definition swap_conv (c : conv) : conv := Conv (c_B c) (c_A c) (c_fromB c) (c_fromA c).

Lemma act_swap C rA dA rB dB a n e n' :
  act C rA dA rB dB a n = (e, n') -> act C rB dB rA dA (swap_act a) (swap_net n) = (e, swap_net n').
Proof.
  destruct a; cbn; repeat case_match; intros [= <- <-]; done.
Qed.
Lemma play_swap C rA dA rB dB l : forall n es n',
  play C rA dA rB dB l n = (es, n') -> play C rB dB rA dA (swap_act <$> l) (swap_net n) = (es, swap_net n').
Proof.
  induction l as [|a l IH]; intros n es n'; cbn [play fmap list_fmap]; [by intros [= <- <-]|].
  destruct (act C rA dA rB dB a n) as [e n1] eqn:E. rewrite (act_swap _ _ _ _ _ _ _ _ _ E).
  destruct (play C rA dA rB dB l n1) as [es1 n2] eqn:E2. rewrite (IH _ _ _ E2). by intros [= <- <-].
Qed.
Lemma iact_swap a c : iact (swap_act a) (swap_conv c) = ((iact a c).1, swap_conv (iact a c).2).
Proof.
  destruct a as [pt|pt|i|i]; cbn.
  - by destruct (isend pt (c_A c)) as [[??]?].
  - by destruct (isend pt (c_B c)) as [[??]?].
  - destruct (c_fromB c !! i); [|done]. by destruct (ideliver m (c_A c)).
  - destruct (c_fromA c !! i); [|done]. by destruct (ideliver m (c_B c)).
Qed.
Lemma expected_swap l : forall es c, as_expected (swap_act <$> l) es (swap_conv c) -> as_expected l es c.
Proof.
  induction l as [|a l IH]; intros [|e es] c; cbn [as_expected fmap list_fmap]; try done.
  rewrite iact_swap. destruct (iact a c) as [x c1]. cbn [fst snd]. destruct x; naive_solver.
Qed.

Section kx.
Context (C : crypto) (Hok : crypto_ok C).

Lemma joined_conversation rA dA rB dB wA wB recA recB ida idb ka kb c l es n' :
  session_at wA rB dB = Ok recA -> session_at wB rA dA = Ok recB ->
  joined_conv C recA recB ida idb ka kb c ->
  play C rA dA rB dB l (Net wA wB [] []) = (es, n') ->
  NoDup ([kp_pub ka; kp_pub kb] ++ drawn C wA (n_A n') ++ drawn C wB (n_B n')) ->
  (N.of_nat (length l) < 2 ^ 32)%N ->
  as_expected l es c.
Proof using Hok.
  intros HA HB [[Hm ->]|[Hm ->]] Hplay Hnd Hlen.
  - by eapply (conversation C Hok).
  - apply expected_swap. apply play_swap in Hplay.
    eapply (conversation C Hok rB dB rA dA wB wA recB recA idb ida kb ka); try done.
    + cbn [swap_net n_A n_B]. eapply NoDup_Permutation_proper; [|exact Hnd].
      rewrite (Permutation_app_comm (drawn C wB _)). apply perm_swap.
    + by rewrite fmap_length.
Qed.

Lemma generated_genuine k : generated C k -> genuine C k.
Proof using Hok. intros (seed & Hs & ->). split; [|done]. by apply (co_priv_len C Hok). Qed.

(** ** The two sides of initializeSession *)

Definition newState (s : ss_s) : Prop :=
  ss_wf s /\ st_getSessionVersion s = 3%N /\ ss_pendingKeyExchange s = None.

Lemma aliceState_new idA idB rat ck0 ek rk ck : newState (aliceState idA idB rat ck0 ek rk ck).
Proof using.
  unfold newState. split_and!; try done.
  unfold ss_wf, aliceState. cbn [ss_version ss_previousCounter ss_senderChain ss_receiverChains ss_pendingKeyExchange ss_pendingPreKey ss_remoteRegId ss_localRegId].
  cbn [wfV wfM]. split_and!; try done.
  - split; [|constructor]. cbn. lia.
  - constructor; [|constructor]. split; [|constructor]. cbn. lia.
Qed.
Lemma bobState_new idB idA rat rk ck : newState (bobState idB idA rat rk ck).
Proof using.
  unfold newState. split_and!; try done.
  unfold ss_wf, bobState. cbn [ss_version ss_previousCounter ss_senderChain ss_receiverChains ss_pendingKeyExchange ss_pendingPreKey ss_remoteRegId ss_localRegId].
  cbn [wfV wfM]. split_and!; try done. split; [|constructor]. cbn. lia.
Qed.

(** One side as Alice, the other as Bob. *)
Lemma roles_match idA baseA idB baseB ratB ek :
  genuine C idA -> genuine C baseA -> genuine C idB -> genuine C baseB -> genuine C ratB -> genuine C ek ->
  let k0 := mkdf C (secretA C idA baseA (kp_pub idB) (kp_pub baseB) None) in
  let k1 := rkdf C k0.1 (agree C (kp_priv ek) (kp_pub ratB)) in
  let k0' := mkdf C (secretB C idB baseB None (kp_pub idA) (kp_pub baseA)) in
  matching C (aliceState (kp_pub idA) (kp_pub idB) (kp_pub ratB) k0.2 ek k1.1 k1.2)
    (bobState (kp_pub idB) (kp_pub idA) ratB k0'.1 k0'.2) (kp_pub idA) (kp_pub idB) ek ratB.
Proof using Hok.
  intros G1 G2 G3 G4 G5 G6. cbv zeta.
  pose proof (secrets_agree C Hok idA baseA idB baseB None G1 G2 G3 G4 ltac:(done)) as Hs.
  change (kp_pub <$> None) with (@None bytes) in Hs. rewrite Hs.
  set (k0 := mkdf C _).
  rewrite (genuine_agree C Hok ek ratB) by done.
  pose proof (dh_rkdf C Hok k0.1 (kp_priv ratB) (kp_pub ek)) as Hd. rewrite Hd. cbn [fst snd].
  split; [done|]. split; [done|]. split; [by apply (genuine_pub_len C Hok)|]. split; [by apply (genuine_pub_len C Hok)|].
  split; [done|]. split; [done|]. exists k0.1, k0.2. unfold sends. split_and!; try done.
  all: eexists; split_and!; done.
Qed.

Definition sideA (id base rat : keypair) (theirBase theirRat theirId : bytes) (ek : keypair) : ss_s :=
  let k0 := mkdf C (secretA C id base theirId theirBase None) in
  let k1 := rkdf C k0.1 (agree C (kp_priv ek) theirRat) in
  aliceState (kp_pub id) theirId theirRat k0.2 ek k1.1 k1.2.
Definition sideB (id base rat : keypair) (theirBase theirRat theirId : bytes) : ss_s :=
  let k0 := mkdf C (secretB C id base None theirId theirBase) in
  bobState (kp_pub id) theirId rat k0.1 k0.2.

(** Which side, and what initializeSession gives. *)
Definition side (id base rat : keypair) (theirBase theirRat theirId : bytes) (ek : keypair) : ss_s :=
  match pub_lt (kp_pub base) theirBase with
  | Ok true => sideA id base rat theirBase theirRat theirId ek
  | _ => sideB id base rat theirBase theirRat theirId
  end.
Definition sideKey (base rat : keypair) (theirBase : bytes) (ek : keypair) : keypair :=
  match pub_lt (kp_pub base) theirBase with Ok true => ek | _ => rat end.

Lemma side_new id base rat tb tr ti ek : newState (side id base rat tb tr ti ek).
Proof using. unfold side. destruct (pub_lt _ _) as [[]|]; [apply aliceState_new|apply bobState_new..]. Qed.

Lemma run_side id base rat tb tr ti w :
  genuine C id -> genuine C base -> genuine C rat -> length tb = 32 -> length tr = 32 -> length ti = 32 ->
  exists w', run (initializeSession C st_new id base rat tb tr ti) w = (Ok (side id base rat tb tr ti (kp_at C w (w_pos w))), w') /\
    same_stores w w' /\ later w w'.
Proof using Hok.
  intros G1 G2 G3 L1 L2 L3.
  assert (exists w', run (initializeSession C st_new id base rat tb tr ti) w = (Ok (side id base rat tb tr ti (kp_at C w (w_pos w))), w') /\
    same_stores w w') as (w' & Hrun & Hs).
  { unfold initializeSession, isAlice, side.
    destruct (pub_lt_spec (kp_pub base) tb) as (t & Ht & _); [by apply (genuine_pub_len C Hok)|done|].
    rewrite run_bind, run_lift, Ht. destruct t.
    - eexists. split; [apply (run_asAlice C Hok); try done; by destruct G1, G2|]. apply same_stores_pos.
    - rewrite run_lift. exists w. split; [|done]. rewrite asBob_ok; try done; by destruct G1, G2. }
  exists w'. split; [done|]. split; [done|]. by eapply run_stream'.
Qed.

Lemma sides_join idA baseA ratA idB baseB ratB ekA ekB :
  genuine C idA -> genuine C baseA -> genuine C ratA -> genuine C idB -> genuine C baseB -> genuine C ratB ->
  genuine C ekA -> genuine C ekB -> kp_pub baseA <> kp_pub baseB ->
  joined C (side idA baseA ratA (kp_pub baseB) (kp_pub ratB) (kp_pub idB) ekA)
    (side idB baseB ratB (kp_pub baseA) (kp_pub ratA) (kp_pub idA) ekB) (kp_pub idA) (kp_pub idB)
    (sideKey baseA ratA (kp_pub baseB) ekA) (sideKey baseB ratB (kp_pub baseA) ekB).
Proof using Hok.
  intros G1 G2 G3 G4 G5 G6 G7 G8 Hne. unfold joined, side, sideKey.
  destruct (pub_lt_total (kp_pub baseA) (kp_pub baseB)) as [[-> ->]|[-> ->]]; try done; try by apply (genuine_pub_len C Hok).
  - left. by apply roles_match.
  - right. by apply roles_match.
Qed.

(** ** Messages *)

(** The message offers these keys. *)
Definition offers (m : keyExchangeMessage) (seq flags : N) (base rat id : keypair) : Prop :=
  xSequence m = seq /\ xFlags m = flags /\ xBaseKey m = kp_pub base /\ xRatchetKey m = kp_pub rat /\ xIdentityKey m = kp_pub id /\
  verifies C (kp_pub id) (x05 :: kp_pub base) (xBaseKeySignature m) /\ kx_msg_parse (xSerialized m) = Ok m.

Lemma create_offers seq flags base rat id r :
  genuine C base -> genuine C rat -> generated C id -> (seq < 2 ^ 16)%N -> (flags < 32)%N -> length r = 64 ->
  exists m, kx_create 3 seq flags (kp_pub base) (sign C r (kp_priv id) (pub_serialize (kp_pub base))) (kp_pub rat) (kp_pub id) = Ok m /\
    offers m seq flags base rat id.
Proof using Hok.
  intros G1 G2 G3 Hseq Hf Hr. destruct (kx_id_split seq flags Hf) as (H1 & H2 & H3).
  pose proof (generated_genuine _ G3) as G3'.
  set (sig := sign C r _ _).
  destruct (kx_create 3 seq flags (kp_pub base) sig (kp_pub rat) (kp_pub id)) as [m|e] eqn:E.
  2: { exfalso. revert E. unfold kx_create. rewrite H3, set_u32_ok, bind_ok, combine_vb, bind_ok by lia. done. }
  exists m. split; [done|].
  assert (kx_msg_parse (xSerialized m) = Ok m) as Hp.
  { eapply kx_roundtrip_msg; [..|exact E]; try done.
    all: rewrite (genuine_pub_len C Hok) by done; lia. }
  unfold kx_create in E. apply bind_ok_inv in E as (i & _ & E). apply bind_ok_inv in E as (bs & _ & [= <-]).
  unfold offers. cbn [xSequence xFlags xBaseKey xRatchetKey xIdentityKey xBaseKeySignature]. split_and!; try done.
  destruct G3 as (seed & Hs & ->). cbn [kp_pub kp_priv] in *. split_and!.
  - apply (genuine_pub_len C Hok _ G3').
  - apply (co_sign_len C Hok); [done|]. by apply (co_priv_len C Hok).
  - by apply (co_verify C Hok).
Qed.

Lemma offers_verify m seq flags base rat id :
  offers m seq flags base rat id -> verifySignature C (xIdentityKey m) (pub_serialize (xBaseKey m)) (xBaseKeySignature m) = Ok true.
Proof using.
  intros (_ & _ & Hb & _ & Hi & Hv & _). pose proof Hv as (L1 & L2 & _). rewrite Hb, Hi.
  destruct (verifySignature_spec C (kp_pub id) (pub_serialize (kp_pub base)) (xBaseKeySignature m) L1 L2) as (t & -> & Ht).
  by rewrite (proj2 Ht).
Qed.

(** The pending exchange of a state. *)
Definition pends (s : ss_s) (seq : N) (base rat id : keypair) : Prop :=
  ss_pendingKeyExchange s = Some (PxS (Some seq) (Some (pub_serialize (kp_pub base))) (Some (kp_priv base))
    (Some (pub_serialize (kp_pub rat))) (Some (kp_priv rat)) (Some (pub_serialize (kp_pub id))) (Some (kp_priv id))).

Lemma pends_keys s seq base rat id :
  pends s seq base rat id -> genuine C base -> genuine C rat -> genuine C id ->
  st_hasPendingKeyExchange s = true /\ st_getPendingKeyExchangeSequence s = seq /\
  st_getPendingKeyExchangeBaseKey s = Ok base /\ st_getPendingKeyExchangeRatchetKey s = Ok rat /\
  st_getPendingKeyExchangeIdentityKey s = Ok id.
Proof using Hok.
  intros H G1 G2 G3. unfold st_hasPendingKeyExchange, st_getPendingKeyExchangeSequence, st_getPendingKeyExchangeBaseKey,
    st_getPendingKeyExchangeRatchetKey, st_getPendingKeyExchangeIdentityKey, st_pendingKeyExchange, stored_keypair.
  rewrite H, default_Some.
  cbn [px_sequence px_baseKey px_baseKeyPrivate px_ratchetKey px_ratchetKeyPrivate px_identityKey px_identityKeyPrivate].
  rewrite !default_Some. rewrite !decodePoint_serialize by (rewrite (genuine_pub_len C Hok) by done; lia). rewrite !bind_ok.
  destruct base, rat, id. done.
Qed.

(** ** The steps *)

Lemma run_init r d w rec :
  generated C (w_identity w) -> session_at w r d = Ok rec ->
  let base := kp_at C w (1 + w_pos w) in let rat := kp_at C w (2 + w_pos w) in
  exists m w' s seq, run (processInitKeyExchangeMessage C r d) w = (Ok m, w') /\
    (1 <= seq < 2 ^ 16)%N /\ offers m seq INITIATE_FLAG base rat (w_identity w) /\
    session_at w' r d = Ok (SessionRecord false s (sr_previous rec)) /\ pends s seq base rat (w_identity w) /\
    w_identity w' = w_identity w /\ w_trusted w' = w_trusted w /\ later w w'.
Proof using Hok.
  intros Gid Hrec. cbv zeta. pose proof (generated_genuine _ Gid) as Gid'.
  set (base := kp_at C w (1 + w_pos w)). set (rat := kp_at C w (2 + w_pos w)).
  set (q := (be_val (w_tape w (w_pos w)) mod 65534)%N).
  assert (q < 65534)%N as Hq by (by apply N.mod_lt).
  destruct (create_offers (q + 1) INITIATE_FLAG base rat (w_identity w) (resize 64 x00 (w_tape w (3 + w_pos w)))) as (m & Hm & Ho).
  { by apply kp_at_genuine. }
  { by apply kp_at_genuine. }
  { done. }
  { lia. }
  { done. }
  { apply resize_length. }
  assert (exists s, st_setPendingKeyExchange (q + 1) base rat (w_identity w) (sr_state rec) = Ok s /\ pends s (q + 1) base rat (w_identity w) /\ ss_wf s)
    as (s & Hs & Hp & Hwf).
  { unfold st_setPendingKeyExchange. rewrite set_u32_ok, bind_ok by lia. eexists. split; [done|]. split; [done|].
    pose proof (loaded_wf _ _ _ _ Hrec) as [Hw _]. destruct Hw as (W1 & W2 & W3 & W4 & W5 & W6 & W7 & W8).
    unfold ss_wf. cbn. split_and!; try done. unfold px_wf. cbn. lia. }
  assert (run (processInitKeyExchangeMessage C r d) w =
    (Ok m, w_set_sessions (<[(r, d) := sr_serialize (sr_setState s rec)]> (w_sessions w)) (w_set_pos (4 + w_pos w) w))) as Hrun.
  { unfold processInitKeyExchangeMessage. rewrite run_rethrow. rewrite run_bind, run_getRandomSequence by done. fold q.
    rewrite run_bind, (run_generateKeyPair C Hok), run_bind, (run_generateKeyPair C Hok), run_bind, run_do. cbn [step_call].
    rewrite run_bind, (run_calculateSignature C) by (by destruct Gid').
    rewrite run_bind, run_do, load_session.
    match goal with |- context [session_at ?x r d] => change (session_at x r d) with (session_at w r d) end. rewrite Hrec.
    rewrite run_bind, run_lift.
    match goal with |- context [st_setPendingKeyExchange (q + 1) ?b ?t ?i _] => change b with base; change t with rat; change i with (w_identity w) end.
    rewrite Hs, run_bind, run_do. cbn [step_call]. rewrite run_lift.
    match goal with |- context [kx_create ?a ?b ?c ?x ?y ?z ?u] =>
      change (kx_create a b c x y z u) with (kx_create 3 (q + 1) INITIATE_FLAG (kp_pub base)
        (sign C (resize 64 x00 (w_tape w (3 + w_pos w))) (kp_priv (w_identity w)) (pub_serialize (kp_pub base))) (kp_pub rat) (kp_pub (w_identity w))) end.
    rewrite Hm. done. }
  eexists m, _, s, (q + 1)%N. split; [exact Hrun|]. split; [lia|]. split; [done|].
  pose proof (loaded_wf _ _ _ _ Hrec) as [_ Hwf2].
  split; [|split; [done|]; split; [done|]; split; [done|]; by eapply run_stream'].
  unfold session_at. cbn [w_set_sessions w_sessions]. rewrite lookup_insert. by rewrite StateFacts.sr_roundtrip.
Qed.

(** Answering an initiate message: without and with a pending exchange of our own. *)
Lemma run_initiate r d w rec m seq tb tr ti id base rat flags w0 :
  session_at w r d = Ok rec -> generated C id -> genuine C base -> genuine C rat ->
  genuine C tb -> genuine C tr -> genuine C ti -> trusts w r (kp_pub ti) ->
  offers m seq INITIATE_FLAG tb tr ti -> (seq < 2 ^ 16)%N ->
  (ss_pendingKeyExchange (sr_state rec) = None /\ id = w_identity w /\ base = kp_at C w (w_pos w) /\ rat = kp_at C w (1 + w_pos w) /\
   flags = 2%N /\ w0 = w_set_pos (2 + w_pos w) w) \/
  ((exists s0, pends (sr_state rec) s0 base rat id) /\ flags = 6%N /\ w0 = w) ->
  let s := side id base rat (kp_pub tb) (kp_pub tr) (kp_pub ti) (kp_at C w0 (w_pos w0)) in
  exists m' w', run (processKeyExchangeMessage C r d m) w = (Ok (Some m'), w') /\
    offers m' seq flags base rat id /\
    session_at w' r d = Ok (SessionRecord false s (sr_previous (archiveUnlessFresh rec))) /\
    w_identity w' = w_identity w /\ w_trusted w' = <[r := kp_pub ti]> (w_trusted w) /\ later w w'.
Proof using Hok.
  intros Hrec Gid Gb Gr Gtb Gtr Gti Ht Ho Hseq Hours. cbv zeta.
  pose proof Ho as (Hx1 & Hx2 & Hx3 & Hx4 & Hx5 & _ & _).
  pose proof (generated_genuine _ Gid) as Gid'.
  destruct (run_side id base rat (kp_pub tb) (kp_pub tr) (kp_pub ti) w0 Gid' Gb Gr) as (w1 & Hside & Hsame & Hlat);
    [by apply (genuine_pub_len C Hok)..|].
  set (s := side id base rat _ _ _ _) in *. pose proof (side_new id base rat (kp_pub tb) (kp_pub tr) (kp_pub ti) (kp_at C w0 (w_pos w0))) as (Hwf & Hver & _). fold s in Hwf, Hver.
  assert (w_identity w0 = w_identity w /\ w_sessions w0 = w_sessions w /\ w_trusted w0 = w_trusted w /\ (flags < 32)%N) as (E1 & E2 & E3 & Hfl)
    by (destruct Hours as [(_ & _ & _ & _ & -> & ->)|(_ & -> & ->)]; done).
  set (w3 := w_set_trusted (<[r := kp_pub ti]> (w_trusted w1)) (w_set_sessions (<[(r, d) := sr_serialize (sr_setState s (archiveUnlessFresh rec))]> (w_sessions w1)) w1)).
  destruct (create_offers seq flags base rat id (resize 64 x00 (w_tape w3 (w_pos w3)))) as (m' & Hm' & Ho'); try done; [apply resize_length|].
  assert (run (processKeyExchangeMessage C r d m) w = (Ok (Some m'), w_set_pos (S (w_pos w3)) w3)) as Hrun.
  { unfold processKeyExchangeMessage. rewrite run_bind, run_do, trusted_true by (by rewrite Hx5).
    assert (kx_isInitiate m = true) as -> by (unfold kx_isInitiate; by rewrite Hx2).
    rewrite run_bind. unfold processInitiate.
    rewrite run_bind, run_do, load_session, Hrec, run_bind, run_lift, (offers_verify _ _ _ _ _ _ Ho).
    rewrite run_bind.
    assert (run (if st_hasPendingKeyExchange (sr_state rec) then
              lift (i ← st_getPendingKeyExchangeIdentityKey (sr_state rec);
                    b ← st_getPendingKeyExchangeBaseKey (sr_state rec);
                    t ← st_getPendingKeyExchangeRatchetKey (sr_state rec);
                    Ok (i, b, t, N.lor RESPONSE_FLAG SIMULTAENOUS_INITIATE_FLAG))
            else
              i ← do CGetIdentityKeyPair;
              b ← generateKeyPair C;
              t ← generateKeyPair C;
              Ret (i, b, t, RESPONSE_FLAG)) w = (Ok (id, base, rat, flags), w0)) as ->.
    { destruct Hours as [(Hp & -> & -> & -> & -> & ->)|((s0 & Hp) & -> & ->)].
      - unfold st_hasPendingKeyExchange. rewrite Hp. rewrite run_bind, run_do. cbn [step_call].
        rewrite run_bind, (run_generateKeyPair C Hok), run_bind, (run_generateKeyPair C Hok). done.
      - destruct (pends_keys _ _ _ _ _ Hp Gb Gr Gid') as (-> & _ & -> & -> & ->). rewrite !bind_ok. done. }
    rewrite (archived_state _ _ _ _ Hrec), run_bind, Hx3, Hx4, Hx5, Hside.
    rewrite run_bind, run_do. cbn [step_call]. rewrite run_bind, run_do. cbn [step_call]. fold w3.
    change (w_set_trusted (<[r := kp_pub ti]> (w_trusted (w_set_sessions (<[(r, d) := sr_serialize (sr_setState s (archiveUnlessFresh rec))]> (w_sessions w1)) w1)))
      (w_set_sessions (<[(r, d) := sr_serialize (sr_setState s (archiveUnlessFresh rec))]> (w_sessions w1)) w1)) with w3.
    rewrite run_bind, (run_calculateSignature C) by (by destruct Gid'). rewrite run_lift, Hver, Hx1, Hm'. done. }
  exists m'. eexists. split; [exact Hrun|]. split; [done|].
  destruct Hsame as (S1 & S2 & S3 & S4 & S5 & S6).
  pose proof (archive_wf _ (loaded_wf _ _ _ _ Hrec)) as [_ Hwfp].
  split; [|split; [|split]].
  - unfold session_at, w3. cbn [w_set_pos w_set_trusted w_set_sessions w_sessions]. rewrite lookup_insert. rewrite StateFacts.sr_roundtrip; [done|]. by split.
  - cbn. by rewrite S5.
  - cbn. by rewrite S4, E3.
  - by eapply run_stream'.
Qed.

(** Processing the response to our own exchange. *)
Lemma run_response r d w rec m seq flags tb tr ti id base rat :
  session_at w r d = Ok rec -> pends (sr_state rec) seq base rat id ->
  genuine C id -> genuine C base -> genuine C rat ->
  genuine C tb -> genuine C tr -> genuine C ti -> trusts w r (kp_pub ti) ->
  offers m seq flags tb tr ti -> N.land flags 1 = 0%N ->
  let s := side id base rat (kp_pub tb) (kp_pub tr) (kp_pub ti) (kp_at C w (w_pos w)) in
  exists w', run (processKeyExchangeMessage C r d m) w = (Ok None, w') /\
    session_at w' r d = Ok (SessionRecord false s (sr_previous (archiveUnlessFresh rec))) /\ later w w'.
Proof using Hok.
  intros Hrec Hp Gid Gb Gr Gtb Gtr Gti Ht Ho Hfl. cbv zeta.
  pose proof Ho as (Hx1 & Hx2 & Hx3 & Hx4 & Hx5 & _ & _).
  destruct (run_side id base rat (kp_pub tb) (kp_pub tr) (kp_pub ti) w Gid Gb Gr) as (w1 & Hside & Hsame & Hlat);
    [by apply (genuine_pub_len C Hok)..|].
  set (s := side id base rat _ _ _ _) in *. pose proof (side_new id base rat (kp_pub tb) (kp_pub tr) (kp_pub ti) (kp_at C w (w_pos w))) as (Hwf & Hver & _). fold s in Hwf, Hver.
  assert (run (processKeyExchangeMessage C r d m) w = (Ok None,
    w_set_trusted (<[r := kp_pub ti]> (w_trusted w1)) (w_set_sessions (<[(r, d) := sr_serialize (sr_setState s (archiveUnlessFresh rec))]> (w_sessions w1)) w1))) as Hrun.
  { unfold processKeyExchangeMessage. rewrite run_bind, run_do, trusted_true by (by rewrite Hx5).
    assert (kx_isInitiate m = false) as -> by (unfold kx_isInitiate, INITIATE_FLAG; by rewrite Hx2, Hfl).
    rewrite run_bind. unfold processResponse. rewrite run_bind, run_do, load_session, Hrec.
    destruct (pends_keys _ _ _ _ _ Hp Gb Gr Gid) as (-> & -> & -> & -> & ->). rewrite Hx1, N.eqb_refl. cbn [negb orb].
    rewrite run_bind, run_lift, run_bind, run_lift, run_bind, run_lift.
    rewrite (archived_state _ _ _ _ Hrec), run_bind, Hx3, Hx4, Hx5, Hside.
    rewrite run_bind, run_lift. pose proof (offers_verify _ _ _ _ _ _ Ho) as Hv. rewrite Hx3, Hx5 in Hv. rewrite Hv.
    rewrite run_bind, run_do. cbn [step_call]. rewrite run_do. cbn [step_call]. done. }
  eexists. split; [exact Hrun|]. split; [|by eapply run_stream'].
  pose proof (archive_wf _ (loaded_wf _ _ _ _ Hrec)) as [_ Hwfp].
  unfold session_at. cbn [w_set_trusted w_set_sessions w_sessions]. rewrite lookup_insert. rewrite StateFacts.sr_roundtrip; [done|]. by split.
Qed.

(** ** C18 *)

Lemma kx_joins rA dA rB dB wA wB recA recB :
  generated C (w_identity wA) -> generated C (w_identity wB) ->
  session_at wA rB dB = Ok recA -> session_at wB rA dA = Ok recB -> ss_pendingKeyExchange (sr_state recB) = None ->
  trusts wA rB (kp_pub (w_identity wB)) -> trusts wB rA (kp_pub (w_identity wA)) ->
  kp_pub (kp_at C wA (1 + w_pos wA)) <> kp_pub (kp_at C wB (w_pos wB)) ->
  exists m1 wA1 m2 wB1 wA2 recA' recB' ka kb,
    run (processInitKeyExchangeMessage C rB dB) wA = (Ok m1, wA1) /\ kx_msg_parse (xSerialized m1) = Ok m1 /\
    run (processKeyExchangeMessage C rA dA m1) wB = (Ok (Some m2), wB1) /\ kx_msg_parse (xSerialized m2) = Ok m2 /\
    run (processKeyExchangeMessage C rB dB m2) wA1 = (Ok None, wA2) /\
    session_at wA2 rB dB = Ok recA' /\ session_at wB1 rA dA = Ok recB' /\
    joined C (sr_state recA') (sr_state recB') (kp_pub (w_identity wA)) (kp_pub (w_identity wB)) ka kb.
Proof using Hok.
  intros GA GB HrA HrB Hno HtA HtB Hne.
  destruct (run_init rB dB wA recA GA HrA) as (m1 & wA1 & sA & seq & Hinit & Hseq & Ho1 & HsA & Hp & Eid & Etr & _).
  set (baseA := kp_at C wA (1 + w_pos wA)) in *. set (ratA := kp_at C wA (2 + w_pos wA)) in *.
  set (baseB := kp_at C wB (w_pos wB)) in *. set (ratB := kp_at C wB (1 + w_pos wB)).
  pose proof (generated_genuine _ GA) as GA'. pose proof (generated_genuine _ GB) as GB'.
  pose proof (kp_at_genuine C Hok) as Gk.
  destruct (run_initiate rA dA wB recB m1 seq baseA ratA (w_identity wA) (w_identity wB) baseB ratB 2%N (w_set_pos (2 + w_pos wB) wB) HrB GB)
    as (m2 & wB1 & Hans & Ho2 & HsB & _ & _ & _); try done; try apply Gk; [lia|left; split_and!; done|].
  destruct (run_response rB dB wA1 _ m2 seq 2%N baseB ratB (w_identity wB) (w_identity wA) baseA ratA HsA Hp GA')
    as (wA2 & Hresp & HsA2 & _); try done; try apply Gk; [unfold trusts; by rewrite Etr|].
  eexists m1, wA1, m2, wB1, wA2, _, _, _, _.
  split; [exact Hinit|]. split; [apply Ho1|]. split; [exact Hans|]. split; [apply Ho2|]. split; [exact Hresp|].
  split; [exact HsA2|]. split; [exact HsB|]. cbn [sr_state].
  apply sides_join; try done; apply Gk.
Qed.

(** With the schedules of C01. *)
Lemma kx_schedules rA dA rB dB wA wB recA recB :
  generated C (w_identity wA) -> generated C (w_identity wB) ->
  session_at wA rB dB = Ok recA -> session_at wB rA dA = Ok recB -> ss_pendingKeyExchange (sr_state recB) = None ->
  trusts wA rB (kp_pub (w_identity wB)) -> trusts wB rA (kp_pub (w_identity wA)) ->
  kp_pub (kp_at C wA (1 + w_pos wA)) <> kp_pub (kp_at C wB (w_pos wB)) ->
  exists m1 wA1 m2 wB1 wA2 recA' recB' ka kb,
    run (processInitKeyExchangeMessage C rB dB) wA = (Ok m1, wA1) /\ kx_msg_parse (xSerialized m1) = Ok m1 /\
    run (processKeyExchangeMessage C rA dA m1) wB = (Ok (Some m2), wB1) /\ kx_msg_parse (xSerialized m2) = Ok m2 /\
    run (processKeyExchangeMessage C rB dB m2) wA1 = (Ok None, wA2) /\
    session_at wA2 rB dB = Ok recA' /\ session_at wB1 rA dA = Ok recB' /\
    joined C (sr_state recA') (sr_state recB') (kp_pub (w_identity wA)) (kp_pub (w_identity wB)) ka kb /\
    forall l es n', play C rA dA rB dB l (Net wA2 wB1 [] []) = (es, n') ->
      NoDup ([kp_pub ka; kp_pub kb] ++ drawn C wA2 (n_A n') ++ drawn C wB1 (n_B n')) -> (N.of_nat (length l) < 2 ^ 32)%N ->
      exists c, joined_conv C recA' recB' (kp_pub (w_identity wA)) (kp_pub (w_identity wB)) ka kb c /\ as_expected l es c.
Proof using Hok.
  intros GA GB HrA HrB Hno HtA HtB Hne.
  destruct (kx_joins rA dA rB dB wA wB recA recB GA GB HrA HrB Hno HtA HtB Hne)
    as (m1 & wA1 & m2 & wB1 & wA2 & recA' & recB' & ka & kb & H1 & H2 & H3 & H4 & H5 & H6 & H7 & Hj).
  exists m1, wA1, m2, wB1, wA2, recA', recB', ka, kb. do 7 (split; [done|]). split; [exact Hj|].
  intros l es n' Hplay Hnd Hlen.
  assert (exists c, joined_conv C recA' recB' (kp_pub (w_identity wA)) (kp_pub (w_identity wB)) ka kb c) as [c Hc].
  { destruct Hj as [Hj|Hj]; eexists; [left|right]; (split; [exact Hj|reflexivity]). }
  exists c. split; [exact Hc|]. exact (joined_conversation rA dA rB dB wA2 wB1 recA' recB' _ _ ka kb c l es n' H6 H7 Hc Hplay Hnd Hlen).
Qed.

(** ** C20 *)

Lemma simultaneous rA dA rB dB wA wB recA recB :
  generated C (w_identity wA) -> generated C (w_identity wB) ->
  session_at wA rB dB = Ok recA -> session_at wB rA dA = Ok recB ->
  trusts wA rB (kp_pub (w_identity wB)) -> trusts wB rA (kp_pub (w_identity wA)) ->
  kp_pub (kp_at C wA (1 + w_pos wA)) <> kp_pub (kp_at C wB (1 + w_pos wB)) ->
  exists mA wA1 mB wB1 mA' wA2 mB' wB2 recA' recB' ka kb,
    run (processInitKeyExchangeMessage C rB dB) wA = (Ok mA, wA1) /\ kx_msg_parse (xSerialized mA) = Ok mA /\
    run (processInitKeyExchangeMessage C rA dA) wB = (Ok mB, wB1) /\ kx_msg_parse (xSerialized mB) = Ok mB /\
    run (processKeyExchangeMessage C rB dB mB) wA1 = (Ok (Some mA'), wA2) /\ kx_msg_parse (xSerialized mA') = Ok mA' /\
    run (processKeyExchangeMessage C rA dA mA) wB1 = (Ok (Some mB'), wB2) /\ kx_msg_parse (xSerialized mB') = Ok mB' /\
    run (processKeyExchangeMessage C rB dB mB') wA2 = (Ok None, wA2) /\
    run (processKeyExchangeMessage C rA dA mA') wB2 = (Ok None, wB2) /\
    session_at wA2 rB dB = Ok recA' /\ session_at wB2 rA dA = Ok recB' /\
    joined C (sr_state recA') (sr_state recB') (kp_pub (w_identity wA)) (kp_pub (w_identity wB)) ka kb.
Proof using Hok.
  intros GA GB HrA HrB HtA HtB Hne.
  destruct (run_init rB dB wA recA GA HrA) as (mA & wA1 & sA & seqA & HinitA & HseqA & HoA & HsA & HpA & EidA & EtrA & _).
  destruct (run_init rA dA wB recB GB HrB) as (mB & wB1 & sB & seqB & HinitB & HseqB & HoB & HsB & HpB & EidB & EtrB & _).
  set (baseA := kp_at C wA (1 + w_pos wA)) in *. set (ratA := kp_at C wA (2 + w_pos wA)) in *.
  set (baseB := kp_at C wB (1 + w_pos wB)) in *. set (ratB := kp_at C wB (2 + w_pos wB)) in *.
  pose proof (generated_genuine _ GA) as GA'. pose proof (generated_genuine _ GB) as GB'.
  pose proof (kp_at_genuine C Hok) as Gk.
  destruct (run_initiate rB dB wA1 _ mB seqB baseB ratB (w_identity wB) (w_identity wA) baseA ratA 6%N wA1 HsA GA)
    as (mA' & wA2 & HansA & HoA' & HsA2 & _ & HtA2 & _); try done; try apply Gk; [unfold trusts; by rewrite EtrA|lia|right; split_and!; eauto|].
  destruct (run_initiate rA dA wB1 _ mA seqA baseA ratA (w_identity wA) (w_identity wB) baseB ratB 6%N wB1 HsB GB)
    as (mB' & wB2 & HansB & HoB' & HsB2 & _ & HtB2 & _); try done; try apply Gk; [unfold trusts; by rewrite EtrB|lia|right; split_and!; eauto|].
  assert (forall r d w rec m seq b t i, trusts w r (kp_pub i) -> session_at w r d = Ok rec -> ss_pendingKeyExchange (sr_state rec) = None ->
    offers m seq 6%N b t i -> run (processKeyExchangeMessage C r d m) w = (Ok None, w)) as Hignore.
  { intros r d w rec m seq b t i Ht Hr Hn (_ & Hfl & _ & _ & Hi & _). unfold processKeyExchangeMessage.
    rewrite run_bind, run_do, trusted_true by (by rewrite Hi).
    assert (kx_isInitiate m = false) as -> by (unfold kx_isInitiate; by rewrite Hfl).
    rewrite run_bind. unfold processResponse. rewrite run_bind, run_do, load_session, Hr.
    unfold st_hasPendingKeyExchange. rewrite Hn. cbn [negb orb].
    assert (kx_isResponseForSimultaneousInitiate m = true) as -> by (unfold kx_isResponseForSimultaneousInitiate; by rewrite Hfl). done. }
  eexists mA, wA1, mB, wB1, mA', wA2, mB', wB2, _, _, _, _.
  split; [exact HinitA|]. split; [apply HoA|]. split; [exact HinitB|]. split; [apply HoB|].
  split; [exact HansA|]. split; [apply HoA'|]. split; [exact HansB|]. split; [apply HoB'|].
  split; [|split; [|split; [exact HsA2|split; [exact HsB2|]]]].
  - eapply Hignore; [|exact HsA2|apply side_new|exact HoB']. right. rewrite HtA2. by rewrite lookup_insert.
  - eapply Hignore; [|exact HsB2|apply side_new|exact HoA']. right. rewrite HtB2. by rewrite lookup_insert.
  - cbn [sr_state]. apply sides_join; try done; apply Gk.
Qed.
End kx.
