(** Outcomes do not depend on the position in the stream of random outcomes (C48). *)
From Verif Require Import PyBase Wire Protos ProtoFacts Crypto Ecc Kdf Messages State Prog Ratchet Builder Cipher Helper.
From Verif Require Import ProgFacts StateFacts UtilFacts HelperFacts MsgFacts SpecSession CipherFacts DecryptFacts SessionProofs.

Section lockout.
Context (C : crypto) (Hok : crypto_ok C).

(** The plaintext or exception of a list of states for a message. *)
Fixpoint firstVerdict (l : list ss_s) (m : whisperMessage) : res bytes :=
  match l with
  | [] => Err EInvalidMessage
  | s :: l => match verdict C s m with Err EInvalidMessage => firstVerdict l m | x => x end
  end.

Lemma firstVerdict_refused l m :
  (forall k s', l !! k = Some s' -> verdict C s' m = Err EInvalidMessage) -> firstVerdict l m = Err EInvalidMessage.
Proof.
  induction l as [|s l IH]; intros H; cbn [firstVerdict]; [done|].
  rewrite (H 0 s) by done. apply IH. intros k s' Hk. by apply (H (S k)).
Qed.

Lemma firstVerdict_found l m j s :
  l !! j = Some s -> (forall k s', k < j -> l !! k = Some s' -> verdict C s' m = Err EInvalidMessage) ->
  verdict C s m <> Err EInvalidMessage -> firstVerdict l m = verdict C s m.
Proof.
  revert j. induction l as [|s0 l IH]; intros j Hj Hb Hv; cbn [firstVerdict]; [done|].
  destruct j as [|j].
  - injection Hj as ->. destruct (verdict C s m) as [|[]]; done.
  - rewrite (Hb 0 s0) by (lia || done). apply (IH j); [done| |done]. intros k s' Hk. apply (Hb (S k)). lia.
Qed.

Lemma run_record_verdict rec m w :
  fst <$> (run (decryptWithSessionRecord C rec m) w).1 = firstVerdict (sr_states rec) m.
Proof using Hok.
  destruct (run_decryptWithSessionRecord C Hok rec m w) as (w' & _ & [(j & s & n & Hj & Hb & Hv & ->)|(Hb & ->)]); cbn [fst].
  - rewrite (firstVerdict_found _ _ j s) by done.
    rewrite <- (verdict_eq C s m (kp_at C w n)) by (by apply kp_at_ok).
    by destruct (decryptPure C s m (kp_at C w n)) as [[? ?]|].
  - symmetry. by apply firstVerdict_refused.
Qed.

(** The plaintext or exception of decryptMsg. *)
Lemma run_decryptMsg_fst r d m w :
  (run (decryptMsg C r d m) w).1 =
  (if bool_decide (is_Some (w_sessions w !! (r, d))) then
     rec ← session_at w r d; firstVerdict (sr_states rec) m
   else Err ENoSession).
Proof using Hok.
  unfold decryptMsg. rewrite run_bind, run_do. cbn [step_call].
  destruct (bool_decide _); [|done]. rewrite run_bind, run_do, load_session.
  destruct (session_at w r d) as [rec|e]; [|done]. rewrite run_bind, bind_ok.
  rewrite <- (run_record_verdict rec m w).
  destruct (run (decryptWithSessionRecord C rec m) w) as [[x|e] w1]; [|done].
  rewrite run_bind, run_do. done.
Qed.

(** processV3 uses no randomness. *)
Fixpoint pure_reads {A} (p : prog A) : Prop :=
  match p with
  | Ret _ | Raise _ => True
  | Call c k => (match c with
                 | CLoadSignedPreKey _ | CLoadPreKey _ | CGetIdentityKeyPair | CGetLocalRegistrationId => True
                 | _ => False end) /\ forall r, pure_reads (k r)
  end.
Lemma pure_reads_bind {A B} (p : prog A) (f : A -> prog B) :
  pure_reads p -> (forall a, pure_reads (f a)) -> pure_reads (p ≫= f).
Proof.
  intros Hp Hf. induction p as [a|e|R c k IH]; [apply Hf|done|].
  destruct Hp as [Hc Hk]. split; [done|]. intros r. by apply IH.
Qed.
Lemma pure_reads_lift {A} (r : res A) : pure_reads (lift r).
Proof. by destruct r. Qed.

(** The same stores read by processV3. *)
Definition same_reads (w w' : world) : Prop :=
  w_signed w' = w_signed w /\ w_prekeys w' = w_prekeys w /\ w_identity w' = w_identity w /\ w_regid w' = w_regid w.

Lemma run_pure_reads {A} (p : prog A) w w' :
  pure_reads p -> same_reads w w' -> exists o, run p w = (o, w) /\ run p w' = (o, w').
Proof.
  intros Hp (H1 & H2 & H3 & H4). induction p as [a|e|R c k IH]; [by eauto..|].
  destruct Hp as [Hc Hk]. cbn [run]. destruct c; try done; cbn [step_call]; rewrite ?H1, ?H2, ?H3, ?H4; by apply IH.
Qed.

Lemma pure_reads_processV3 rec m : pure_reads (processV3 C rec m).
Proof.
  unfold processV3. destruct (sr_hasSessionState _ _ _); [done|].
  apply pure_reads_bind; [split; [done|apply pure_reads_lift]|intros spr].
  apply pure_reads_bind; [apply pure_reads_lift|intros k].
  apply pure_reads_bind; [split; [done|apply pure_reads_lift]|intros id].
  apply pure_reads_bind.
  { destruct (pPreKeyId m) as [i|]; [|done].
    apply pure_reads_bind; [split; [done|apply pure_reads_lift]|intros pr].
    apply pure_reads_bind; [apply pure_reads_lift|done]. }
  intros otpk. apply pure_reads_bind; [apply pure_reads_lift|intros s].
  apply pure_reads_bind; [split; [done|apply pure_reads_lift]|intros reg].
  apply pure_reads_bind; [apply pure_reads_lift|intros s1].
  apply pure_reads_bind; [apply pure_reads_lift|done].
Qed.

(** The plaintext or exception of decryptPkmsg is a function of the stores. *)
Lemma run_decryptPkmsg_fst r d m w w' :
  w_sessions w' = w_sessions w -> same_reads w w' ->
  trusts w r (pIdentityKey m) -> trusts w' r (pIdentityKey m) ->
  (run (decryptPkmsg C r d m) w').1 = (run (decryptPkmsg C r d m) w).1.
Proof using Hok.
  intros Hs Hr Ht Ht'. unfold decryptPkmsg.
  rewrite !run_bind, !run_do, !load_session.
  assert (session_at w' r d = session_at w r d) as -> by (unfold session_at; by rewrite Hs).
  destruct (session_at w r d) as [rec|e]; [|done]. unfold builder_process.
  rewrite !run_bind, !run_do, !trusted_true by done. rewrite !run_bind.
  destruct (run_pure_reads _ w w' (pure_reads_processV3 rec m) Hr) as (o & -> & ->).
  destruct o as [[rec1 used]|e]; [|done].
  rewrite !run_bind, !run_do. cbn [step_call run fst snd]. rewrite !run_bind.
  match goal with |- context [run (decryptWithSessionRecord C rec1 (pMessage m)) ?a] => set (w1 := a) end.
  match goal with |- context [run (decryptWithSessionRecord C rec1 (pMessage m)) ?a] =>
    lazymatch a with w1 => fail | _ => set (w2 := a) end end.
  pose proof (run_record_verdict rec1 (pMessage m) w1) as V1.
  pose proof (run_record_verdict rec1 (pMessage m) w2) as V2. rewrite <- V2 in V1. clear V2.
  destruct (run _ w1) as [[[a1 b1]|e1] v1], (run _ w2) as [[[a2 b2]|e2] v2]; cbn in V1; try done; try congruence.
  injection V1 as ->. rewrite !run_bind, !run_do. cbn [step_call].
  destruct used; [rewrite !run_bind, !run_do|]; done.
Qed.

(** ** C48 *)

Lemma lockout_partial r d m rh dh h w e w' pt :
  run (decryptPkmsg C rh dh h) w = (Err e, w') ->
  (run (decryptPkmsg C r d m) w).1 = Ok pt ->
  rh <> r \/ is_Some (w_trusted w !! r) \/ pIdentityKey h = pIdentityKey m ->
  (run (decryptPkmsg C r d m) w').1 = Ok pt.
Proof using Hok.
  intros Hh Hm Hcase.
  destruct (run (decryptPkmsg C r d m) w) as [o w1] eqn:Em. cbn [fst] in Hm. subst o.
  pose proof (decryptPkmsg_ok C _ _ _ _ _ _ Em) as (_ & _ & _ & _ & _ & _ & _ & Ht & _).
  replace (Ok pt) with ((run (decryptPkmsg C r d m) w).1) by (by rewrite Em).
  apply decryptPkmsg_err in Hh as [Hu|(Hn & Hu & Htr)].
  - unfold unchanged in Hu. destruct_and! Hu.
    apply run_decryptPkmsg_fst; [done|by unfold same_reads|done|].
    unfold trusts in *. by match goal with H : w_trusted w' = _ |- _ => rewrite H end.
  - unfold unchanged_but_trust in Hu. destruct_and! Hu.
    apply run_decryptPkmsg_fst; [done|by unfold same_reads|done|].
    unfold trusts in *. rewrite Htr. destruct (decide (rh = r)) as [->|Hne].
    + rewrite lookup_insert. destruct Hcase as [?|[Hs|Heq]]; [done| |right; by rewrite Heq].
      rewrite Hn in Hs. by destruct Hs.
    + by rewrite lookup_insert_ne.
Qed.

(** A failed decryptMsg never locks anybody out. *)
Lemma lockout_msg r d m rh dh h w e w' pt :
  run (decryptMsg C rh dh h) w = (Err e, w') ->
  (run (decryptPkmsg C r d m) w).1 = Ok pt ->
  (run (decryptPkmsg C r d m) w').1 = Ok pt.
Proof using Hok.
  intros Hh Hm.
  destruct (run (decryptPkmsg C r d m) w) as [o w1] eqn:Em. cbn [fst] in Hm. subst o.
  pose proof (decryptPkmsg_ok C _ _ _ _ _ _ Em) as (_ & _ & _ & _ & _ & _ & _ & Ht & _).
  replace (Ok pt) with ((run (decryptPkmsg C r d m) w).1) by (by rewrite Em).
  apply decryptMsg_err in Hh as Hu. unfold unchanged in Hu. destruct_and! Hu.
  apply run_decryptPkmsg_fst; [done|by unfold same_reads|done|].
  unfold trusts in *. by match goal with H : w_trusted w' = _ |- _ => rewrite H end.
Qed.
End lockout.
