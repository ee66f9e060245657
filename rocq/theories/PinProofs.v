(** Identities are pinned: C66, C67. *)
From Verif Require Import PyBase Wire Protos ProtoFacts Crypto Ecc Kdf Messages State Prog Ratchet Builder Cipher Groups Helper.
From Verif Require Import ProgFacts StateFacts UtilFacts HelperFacts MsgFacts CipherFacts DecryptFacts SpecSession SessionProofs SpecApi InvFacts SpecPin.

(** ** C66 *)

(** The only identity the program may save is [k] for [r]. *)
Fixpoint saves {A} (r : Z) (k : bytes) (p : prog A) : Prop :=
  match p with
  | Ret _ | Raise _ => True
  | Call c f => (match c with CSaveIdentity r' k' => r' = r /\ k' = k | _ => True end) /\ forall x, saves r k (f x)
  end.
Lemma saves_bind {A B} r k (p : prog A) (f : A -> prog B) : saves r k p -> (forall a, saves r k (f a)) -> saves r k (p ≫= f).
Proof.
  intros Hp Hf. induction p as [a|e|R c g IH]; [apply Hf|done|].
  destruct Hp as [Hc Hk]. split; [done|]. intros x. by apply IH.
Qed.
Lemma saves_catch {A} r k (p : prog A) h : saves r k p -> (forall e, saves r k (h e)) -> saves r k (catch p h).
Proof.
  intros Hp Hf. induction p as [a|e|R c g IH]; [done|apply Hf|].
  destruct Hp as [Hc Hk]. split; [done|]. intros x. by apply IH.
Qed.
Lemma saves_lift {A} r k (x : res A) : saves r k (lift x).
Proof. by destruct x. Qed.
Lemma saves_readonly {A} r k (p : prog A) : readonly p -> saves r k p.
Proof. induction p as [a|e|R c g IH]; [done..|]. intros [Hc Hk]. split; [by destruct c|]. intros x. by apply IH. Qed.
Lemma saves_do {R} r k (c : call R) :
  (match c with CSaveIdentity r' k' => r' = r /\ k' = k | _ => True end) -> saves r k (do c).
Proof. intros H. split; [done|]. intros x. apply saves_lift. Qed.
Lemma saves_if {A} r k (b : bool) (p q : prog A) : saves r k p -> saves r k q -> saves r k (if b then p else q).
Proof. by destruct b. Qed.

(** Then what is trusted for a peer stays, unless that is the peer of the call and another key
    was trusted for it. *)
Definition may_save (w : world) (r : Z) (k : bytes) : Prop :=
  w_trusted w !! r = None \/ w_trusted w !! r = Some k.
Definition trust_kept (w w' : world) : Prop := forall r k, w_trusted w !! r = Some k -> w_trusted w' !! r = Some k.

Lemma saves_step {R} r k (c : call R) w :
  (match c with CSaveIdentity r' k' => r' = r /\ k' = k | _ => True end) -> may_save w r k ->
  trust_kept w (step_call c w).2 /\ may_save (step_call c w).2 r k.
Proof.
  intros Hc Hm. destruct c; cbn [step_call snd]; try (split; [by intros ? ?|done]). destruct Hc as [-> ->].
  split.
  - intros r' k' H. cbn. destruct (decide (r' = r)) as [->|Hne]; [|by rewrite lookup_insert_ne].
    rewrite lookup_insert. destruct Hm as [Hm|Hm]; congruence.
  - right. cbn. by rewrite lookup_insert.
Qed.
Lemma saves_run {A} r k (p : prog A) w : saves r k p -> may_save w r k -> trust_kept w (run p w).2.
Proof.
  revert w. induction p as [a|e|R c f IH]; intros w Hp Hm; [by intros ? ?..|]. destruct Hp as [Hc Hp].
  destruct (saves_step r k c w Hc Hm) as [H1 H2]. cbn [run]. destruct (step_call c w) as [x w1].
  intros r' k' H. apply (IH x w1 (Hp x) H2). by apply H1.
Qed.
Lemma saves_crash {A} r k n (p : prog A) w : saves r k p -> may_save w r k -> trust_kept w (run_crash n p w).2.
Proof.
  revert n w. induction p as [a|e|R c f IH]; intros n w Hp Hm; [by intros ? ?..|]. destruct Hp as [Hc Hp].
  destruct n as [|n]; [by intros ? ?|].
  destruct (saves_step r k c w Hc Hm) as [H1 H2]. cbn [run_crash]. destruct (step_call c w) as [x w1].
  intros r' k' H. apply (IH x n w1 (Hp x) H2). by apply H1.
Qed.

(** Programs that save no identity at all. *)
Lemma free_run {A} (p : prog A) w : (forall r k, saves r k p) -> trust_kept w (run p w).2.
Proof.
  revert w. induction p as [a|e|R c f IH]; intros w Hp; [by intros ? ?..|].
  cbn [run]. pose proof (Hp 0%Z []) as [Hc0 _]. pose proof (Hp 1%Z []) as [Hc1 _].
  assert (w_trusted (step_call c w).2 = w_trusted w) as E.
  { destruct c; try done. destruct Hc0 as [-> _], Hc1 as [? _]. done. }
  destruct (step_call c w) as [x w1]. cbn in E. intros r k H. apply (IH x w1); [|by rewrite E].
  intros r' k'. by apply (Hp r' k').
Qed.
Lemma free_crash {A} n (p : prog A) w : (forall r k, saves r k p) -> trust_kept w (run_crash n p w).2.
Proof.
  revert n w. induction p as [a|e|R c f IH]; intros n w Hp; [by intros ? ?..|]. destruct n as [|n]; [by intros ? ?|].
  cbn [run_crash]. pose proof (Hp 0%Z []) as [Hc0 _]. pose proof (Hp 1%Z []) as [Hc1 _].
  assert (w_trusted (step_call c w).2 = w_trusted w) as E.
  { destruct c; try done. destruct Hc0 as [-> _], Hc1 as [? _]. done. }
  destruct (step_call c w) as [x w1]. cbn in E. intros r k H. apply (IH x n w1); [|by rewrite E].
  intros r' k'. by apply (Hp r' k').
Qed.

(** A program that first asks whether [k] is trusted for [r]. *)
Lemma asked_run {A} r k (p : prog A) f w :
  p = Call (CIsTrusted r k) f ->
  saves r k (f (Ok true)) -> (forall r' k', saves r' k' (f (Ok false))) -> trust_kept w (run p w).2.
Proof.
  intros -> H1 H2. cbn [run step_call].
  destruct (w_trusted w !! r) as [k'|] eqn:E; [|apply (saves_run r k); [done|by left]].
  unfold pub_eqb. case_bool_decide as E'; [subst k'; apply (saves_run r k); [done|by right]|by apply free_run].
Qed.
Lemma asked_crash {A} r k n (p : prog A) f w :
  p = Call (CIsTrusted r k) f ->
  saves r k (f (Ok true)) -> (forall r' k', saves r' k' (f (Ok false))) -> trust_kept w (run_crash n p w).2.
Proof.
  intros -> H1 H2. destruct n as [|n]; [by intros ? ?|]. cbn [run_crash step_call].
  destruct (w_trusted w !! r) as [k'|] eqn:E; [|apply (saves_crash r k); [done|by left]].
  unfold pub_eqb. case_bool_decide as E'; [subst k'; apply (saves_crash r k); [done|by right]|by apply free_crash].
Qed.

Section calls.
Context (C : crypto).

Ltac sv := repeat first
  [ apply saves_lift | by apply saves_do | exact I | apply saves_readonly; (apply readonly_generateKeyPair || apply readonly_calculateSignature
      || apply readonly_decryptWithSessionRecord || apply readonly_initializeSession || apply readonly_initializeSessionAsAlice || apply readonly_processV3)
  | apply saves_bind; [|intros ?] | apply saves_catch; [|intros ?] | apply saves_if ].

Lemma saves_encrypt r d pt r' k' : saves r' k' (encrypt C r d pt).
Proof. unfold encrypt. sv. Qed.
Lemma saves_decryptMsg r d m r' k' : saves r' k' (decryptMsg C r d m).
Proof. unfold decryptMsg. sv. Qed.
Lemma saves_initKx r d r' k' : saves r' k' (processInitKeyExchangeMessage C r d).
Proof. unfold processInitKeyExchangeMessage, rethrow, getRandomSequence. sv. Qed.
Lemma saves_group_create n r' k' : saves r' k' (group_create C n).
Proof. unfold group_create, rethrow, getRandomSequence. sv. destruct a; sv. Qed.
Lemma saves_group_process n m r' k' : saves r' k' (group_process n m).
Proof. unfold group_process. sv. Qed.
Lemma saves_group_encrypt n pt r' k' : saves r' k' (group_encrypt C n pt).
Proof. unfold group_encrypt, rethrow. sv. Qed.
Lemma saves_group_decrypt n b r' k' : saves r' k' (group_decrypt C n b).
Proof. unfold group_decrypt, rethrow. sv. destruct a; sv. Qed.

Lemma saves_initiate r d m : saves r (xIdentityKey m) (processInitiate C r d m).
Proof. unfold processInitiate. sv. destruct a1 as [[[? ?] ?] ?]. sv. Qed.
Lemma saves_response r d m : saves r (xIdentityKey m) (processResponse C r d m).
Proof. unfold processResponse. sv. Qed.

(** The shapes of the calls that save identities. *)
Definition keeps_run {A} (p : prog A) : Prop := forall w, trust_kept w (run p w).2 /\ forall n, trust_kept w (run_crash n p w).2.
Lemma keeps_free {A} (p : prog A) : (forall r k, saves r k p) -> keeps_run p.
Proof. intros H w. split; [by apply free_run|]. intros n. by apply free_crash. Qed.
Lemma keeps_asked {A} r k (p : prog A) f :
  p = Call (CIsTrusted r k) f ->
  saves r k (f (Ok true)) -> (forall r' k', saves r' k' (f (Ok false))) -> keeps_run p.
Proof. intros H1 H2 H3 w. split; [by eapply asked_run|]. intros n. by eapply asked_crash. Qed.
Lemma keeps_load {A} r d (p : prog A) f :
  p = Call (CLoadSession r d) f -> (forall rec, keeps_run (f rec)) -> keeps_run p.
Proof.
  intros -> H w. split; [apply H|]. intros [|n]; [by intros ? ?|]. cbn [run_crash step_call]. apply H.
Qed.

Lemma api_keeps_trust c : keeps_run (api C c).
Proof.
  destruct c as [r d b|r d|r d m|r d pt|r d m|r d m|n|n m|n pt|n b]; cbn [api].
  - eapply (keeps_asked r (bu_identityKey b)); [reflexivity| |done]. cbn [lift prog_bind].
    destruct (bu_signedPreKey b); [|done]. sv.
  - apply keeps_free. intros. apply saves_bind; [apply saves_initKx|done].
  - eapply (keeps_asked r (xIdentityKey m)); [reflexivity| |done].
    change (saves r (xIdentityKey m) (_ ← (if kx_isInitiate m then x ← processInitiate C r d m; Ret (Some x)
      else _ ← processResponse C r d m; Ret None); Ret tt)).
    apply saves_bind; [|done].
    apply saves_if; (apply saves_bind; [apply saves_initiate || apply saves_response|done]).
  - apply keeps_free. intros. apply saves_bind; [apply saves_encrypt|done].
  - apply keeps_free. intros. apply saves_bind; [apply saves_decryptMsg|done].
  - eapply (keeps_load r d); [reflexivity|]. intros [rec|e]; [|by apply keeps_free].
    eapply (keeps_asked r (pIdentityKey m)); [reflexivity| |done].
    change (saves r (pIdentityKey m) (_ ← (x ← (x ← processV3 C rec m; _ ← do (CSaveIdentity r (pIdentityKey m)); Ret x);
      y ← decryptWithSessionRecord C x.1 (pMessage m); _ ← do (CStoreSession r d y.2);
      match x.2 with Some i => _ ← do (CRemovePreKey i); Ret y.1 | None => Ret y.1 end); Ret tt)).
    sv. destruct (a.2); sv.
  - apply keeps_free. intros. apply saves_bind; [apply saves_group_create|done].
  - apply keeps_free. intros. apply saves_group_process.
  - apply keeps_free. intros. apply saves_bind; [apply saves_group_encrypt|done].
  - apply keeps_free. intros. apply saves_bind; [apply saves_group_decrypt|done].
Qed.

Lemma trusted_stays w w' r k : calls_from C w w' -> w_trusted w !! r = Some k -> w_trusted w' !! r = Some k.
Proof.
  intros H Hk. induction H as [|w1 c _ IH|w1 c n _ IH]; [done| |].
  - by apply (proj1 (api_keeps_trust c w1)).
  - by apply (proj2 (api_keeps_trust c w1) n).
Qed.
End calls.
