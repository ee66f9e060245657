(** Recorded and altered handshake messages: C80 and C81. *)
From Verif Require Import PyBase Wire Protos ProtoFacts Crypto Ecc Kdf Messages State Prog Ratchet Builder Cipher Groups Helper.
From Verif Require Import ProgFacts StateFacts UtilFacts HelperFacts MsgFacts CipherFacts DecryptFacts SpecUtil SpecSession SessionProofs SpecApi PoolFacts SpecKeys SpecTotal.
From Verif Require Import HandshakeFacts InvFacts HistoryProofs ArchiveProofs TotalProofs TotalProofs2 SpecSetup SetupEffects SpecReplay.

Section replay.
Context (C : crypto) (Hok : crypto_ok C).

(** An offer of a trusted identity is always answered. *)
Lemma offer_answered w r d m :
  reachable C w -> length (kp_priv (w_identity w)) = 32 -> offer C m -> trusts w r (xIdentityKey m) ->
  exists a w', run (processKeyExchangeMessage C r d m) w = (Ok (Some a), w').
Proof using Hok.
  intros Hw Hid (Hf & Hb & Ht & Hq & Hv) Htr.
  pose proof (exchange_class C Hok w r d m Hw Hid Hq) as H. unfold outcome in H.
  destruct (run (processKeyExchangeMessage C r d m) w) as [[o|e] w'] eqn:E.
  - destruct o as [a|]; [by eexists _, _|]. destruct (response_effect C Hok _ _ _ _ _ Hw E) as (? & _ & _ & Hf' & _). congruence.
  - destruct Hv as (Hi & Hs & Hv).
    destruct H as [[_ (k & Hk & Hne)]|[[_ Hn]|[[_ (? & _ & Hf' & _)]|[_ [?|[?|[?|?]]]]]]]; try congruence.
    + unfold trusts in Htr. destruct Htr; congruence.
    + destruct Hn. by split_and!.
Qed.

Definition ready (r : Z) (m : keyExchangeMessage) (w : world) : Prop :=
  reachable C w /\ length (kp_priv (w_identity w)) = 32 /\ trusts w r (xIdentityKey m).

Lemma answer_step w r d m a w' rec :
  ready r m w -> session_at w r d = Ok rec -> run (processKeyExchangeMessage C r d m) w = (Ok (Some a), w') ->
  ready r m w' /\ exists s, answers_exchange C m s /\ session_at w' r d = Ok (SessionRecord false s (archive_of rec)).
Proof using Hok.
  intros (Hw & Hid & Ht) Hrec Hrun.
  destruct (initiate_effect C Hok _ _ _ _ _ _ Hw Hrun) as (rec' & id & base & rat & flags & n & s & n' & Hrec' & _ & _ & _ & _ & Hs & _ & Hst & bs & Hw').
  assert (rec' = rec) as -> by congruence. split.
  - unfold ready. split_and!.
    + apply (reachable_step C w); [done|]. replace w' with (run (api C (AKx r d m)) w).2; [constructor|].
      cbn [api]. by rewrite run_bind, Hrun.
    + by subst w'.
    + subst w'. right. cbn. by rewrite lookup_insert.
  - exists s. split; [|done]. by exists w, n, id, base, rat, n'.
Qed.

(** However often it comes. *)
Lemma replays_answered w r d m n rec :
  ready r m w -> offer C m -> session_at w r d = Ok rec -> sr_fresh rec = false ->
  let w' := replays C r d m n w in
  ready r m w' /\ (exists a, (run (processKeyExchangeMessage C r d m) w').1 = Ok (Some a)) /\
  exists rec' new, session_at w' r d = Ok rec' /\ sr_fresh rec' = false /\
    states rec' = new ++ take (41 - n) (states rec) /\ Forall (answers_exchange C m) new /\ length new = Nat.min n 41.
Proof using Hok.
  intros Hr Ho Hrec Hf w'. subst w'.
  assert (forall w, ready r m w -> exists a, (run (processKeyExchangeMessage C r d m) w).1 = Ok (Some a)) as Hans.
  { intros w1 (H1 & H2 & H3). destruct (offer_answered w1 r d m) as (a & w2 & ->); try done. by exists a. }
  assert (length (states rec) <= 41) as Hlen.
  { destruct Hr as (Hw & _). unfold states. cbn. pose proof (archived_at_most_40 C w r d rec Hw Hrec). lia. }
  induction n as [|n IH].
  - cbn [replays]. split; [done|]. split; [by apply Hans|]. exists rec, []. split_and!; try done. rewrite take_ge; [done|].
    change (41 - 0) with 41. lia.
  - destruct IH as (Hr1 & (a & Ha) & rec1 & new & Hrec1 & Hf1 & Hst & Hnew & Hl). cbn [replays].
    set (w1 := replays C r d m n w) in *.
    destruct (run (processKeyExchangeMessage C r d m) w1) as [o w2] eqn:E. cbn in Ha. subst o. cbn [snd].
    destruct (answer_step w1 r d m a w2 rec1 Hr1 Hrec1 E) as (Hr2 & s & Hs & Hrec2).
    split; [done|]. split; [by apply Hans|].
    unfold archive_of in Hrec2. rewrite Hf1, Hst in Hrec2.
    exists (SessionRecord false s (take 40 (new ++ take (41 - n) (states rec)))), (s :: take 40 new).
    split_and!; [done|done| | |].
    + unfold states at 1. cbn [sr_state sr_previous app]. f_equal. rewrite firstn_app. f_equal. rewrite take_take. f_equal. lia.
    + constructor; [done|]. by apply Forall_take.
    + cbn [length]. rewrite take_length. lia.
Qed.

(** In the form of the property file. *)
Lemma replay_lost w r d m n rec :
  reachable C w -> own_keys_ok w -> offer C m -> trusts w r (xIdentityKey m) ->
  session_at w r d = Ok rec -> sr_fresh rec = false ->
  (exists a, (run (processKeyExchangeMessage C r d m) (replays C r d m n w)).1 = Ok (Some a)) /\
  exists rec' new, session_at (replays C r d m n w) r d = Ok rec' /\
    states rec' = new ++ take (41 - n) (states rec) /\ Forall (answers_exchange C m) new /\ length new = Nat.min n 41.
Proof using Hok.
  intros Hw [Hid _] Ho Ht Hrec Hf.
  destruct (replays_answered w r d m n rec) as (_ & Ha & rec' & new & H1 & _ & H2); [done..|]. eauto.
Qed.

(** A response is used once. *)
Lemma response_once w r d m w' :
  reachable C w -> run (processKeyExchangeMessage C r d m) w = (Ok None, w') ->
  run (processKeyExchangeMessage C r d m) w' = (if N.testbit (xFlags m) 2 then Ok None else Err EStaleKeyExchange, w').
Proof using Hok.
  intros Hw Hrun. destruct (response_effect C Hok _ _ _ _ _ Hw Hrun) as (rec & Hrec & Ht & Hf & H).
  rewrite <- kx_simultaneous_bit. rewrite <- kx_initiate_bit in Hf.
  destruct H as [(-> & Hb & Hp)|(id & base & rat & s & n' & _ & _ & Hs & Hst & bs & Hw')].
  - by apply (stale_response C r d m w rec).
  - eapply stale_response; [|exact Hst|done|].
    + subst w'. right. cbn. by rewrite lookup_insert.
    + cbn [sr_state]. intros p. destruct Hs as [(_ & _ & ->)|(_ & _ & ->)]; done.
Qed.

(** Only the base key is signed. *)
Lemma unsigned_fields w r d m ratchet sequence flags :
  reachable C w -> own_keys_ok w -> offer C m -> trusts w r (xIdentityKey m) ->
  length ratchet = 32 -> (sequence < 2 ^ 27)%N -> (flags < 32)%N -> N.testbit flags 0 = true ->
  exists bs m' a w' rec s, kx_msg_parse bs = Ok m' /\ xRatchetKey m' = ratchet /\ xSequence m' = sequence /\ xFlags m' = flags /\
    xBaseKey m' = xBaseKey m /\ xIdentityKey m' = xIdentityKey m /\
    run (processKeyExchangeMessage C r d m') w = (Ok (Some a), w') /\
    session_at w' r d = Ok rec /\ sr_state rec = s /\ answers_exchange C m' s.
Proof using Hok.
  intros Hw [Hid Hown] (Hf & Hb & Ht & Hq & Hv) Htr Hr Hs Hfl Hf0.
  pose proof Hv as (Hi & _).
  destruct (kx_create 3 sequence flags (xBaseKey m) (xBaseKeySignature m) ratchet (xIdentityKey m)) as [m'|e] eqn:E;
    [|by apply kx_create_class in E].
  pose proof (kx_roundtrip_msg sequence flags (xBaseKey m) (xBaseKeySignature m) ratchet (xIdentityKey m) m') as Hp.
  rewrite Hb, Hr, Hi in Hp. specialize (Hp ltac:(lia) ltac:(lia) ltac:(lia) Hfl E).
  assert (xRatchetKey m' = ratchet /\ xSequence m' = sequence /\ xFlags m' = flags /\
    xBaseKey m' = xBaseKey m /\ xIdentityKey m' = xIdentityKey m /\ xBaseKeySignature m' = xBaseKeySignature m) as (H1 & H2 & H3 & H4 & H5 & H6).
  { unfold kx_create in E. apply bind_ok_inv in E as (? & _ & E). apply bind_ok_inv in E as (? & _ & E). apply Ok_inj in E as ->. done. }
  assert (ready r m' w) as Hrd by (unfold ready; by rewrite H5).
  destruct (offer_answered w r d m') as (a & w' & Hrun); [done|done| |by rewrite H5|].
  { unfold offer. by rewrite H1, H2, H3, H4, H5, H6. }
  destruct (always_readable C w Hw r d) as [rec Hrec].
  destruct (answer_step w r d m' a w' rec Hrd Hrec Hrun) as (_ & s & Hans & Hst).
  eexists _, m', a, w', _, s. split_and!; [exact Hp|done..|exact Hst|done|done].
Qed.
Lemma signed_part w r d m x w' :
  reachable C w -> run (processKeyExchangeMessage C r d m) w = (Ok x, w') ->
  w' = w \/ verifies C (xIdentityKey m) (x05 :: xBaseKey m) (xBaseKeySignature m) /\ trusts w r (xIdentityKey m).
Proof using Hok.
  intros Hw Hrun. destruct x as [a|].
  - right. destruct (initiate_effect C Hok _ _ _ _ _ _ Hw Hrun) as (rec & id & base & rat & flags & n & s & n' & _ & Ht & Hv & _). done.
  - destruct (response_effect C Hok _ _ _ _ _ Hw Hrun) as (rec & _ & Ht & _ & [(-> & _)|(id & base & rat & s & n' & _ & Hv & _)]); auto.
Qed.
End replay.
