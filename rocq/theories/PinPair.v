(** Identities stay pinned also when two calls run at the same time: C66. *)
From Verif Require Import PyBase Wire Protos ProtoFacts Crypto Ecc Kdf Messages State Prog Ratchet Builder Cipher Groups Helper.
From Verif Require Import ProgFacts CipherFacts SpecSession SpecApi SpecPin PinProofs.

Section pin.
Context (r : Z) (k : bytes).

(** While [k] is trusted for [r], the program saves no other identity for [r]. *)
Definition resp_pin {R} (c : call R) : res R -> Prop :=
  match c in call R return res R -> Prop with
  | CIsTrusted r' k' => fun x => x = Ok true -> r' = r -> k' = k
  | _ => fun _ => True
  end.
Definition call_pin {R} (c : call R) : Prop := match c with CSaveIdentity r' k' => r' = r -> k' = k | _ => True end.
Fixpoint pin_ok {A} (p : prog A) : Prop :=
  match p with
  | Ret _ | Raise _ => True
  | Call c f => call_pin c /\ forall x, resp_pin c x -> pin_ok (f x)
  end.

Lemma pin_step {R} (c : call R) w :
  call_pin c -> w_trusted w !! r = Some k ->
  resp_pin c (step_call c w).1 /\ w_trusted (step_call c w).2 !! r = Some k.
Proof.
  intros Hc Hw. destruct c; cbn [step_call fst snd resp_pin]; try (split; done).
  - split; [|done]. intros [= H] ->. rewrite Hw in H. by apply bool_decide_eq_true in H.
  - split; [done|]. cbn. destruct (decide (recipient = r)) as [->|Hne]; [|by rewrite lookup_insert_ne].
    rewrite lookup_insert. f_equal. by apply Hc.
Qed.
Lemma pin_run {A} (p : prog A) w : pin_ok p -> w_trusted w !! r = Some k -> w_trusted (run p w).2 !! r = Some k.
Proof.
  revert w. induction p as [a|e|R c f IH]; intros w Hp Hw; [done..|]. destruct Hp as [Hc Hp].
  destruct (pin_step c w Hc Hw) as [H1 H2]. cbn [run]. destruct (step_call c w) as [x w1]. apply IH; [by apply Hp|done].
Qed.
Lemma pin_pair {A B} sched (p : prog A) (q : prog B) w :
  pin_ok p -> pin_ok q -> w_trusted w !! r = Some k -> w_trusted (run_pair sched p q w).2 !! r = Some k.
Proof.
  revert p q w. induction sched as [|[] s IH]; intros p q w Hp Hq Hw; cbn [run_pair].
  - pose proof (pin_run p w Hp Hw) as H1. destruct (run p w) as [a w1]. cbn in H1.
    pose proof (pin_run q w1 Hq H1) as H2. by destruct (run q w1) as [b w2].
  - destruct p as [a|e|R c f]; [by apply IH..|]. destruct Hp as [Hc Hp].
    destruct (pin_step c w Hc Hw) as [H1 H2]. destruct (step_call c w) as [x w1]. apply IH; [by apply Hp|done|done].
  - destruct q as [a|e|R c f]; [by apply IH..|]. destruct Hq as [Hc Hq].
    destruct (pin_step c w Hc Hw) as [H1 H2]. destruct (step_call c w) as [x w1]. apply IH; [done|by apply Hq|done].
Qed.

Lemma pin_saves {A} (p : prog A) r' k' : (r' = r -> k' = k) -> saves r' k' p -> pin_ok p.
Proof.
  intros H. induction p as [a|e|R c f IH]; [done..|]. intros [Hc Hs]. split; [|intros x _; by apply IH].
  destruct c; try done. destruct Hc as [-> ->]. done.
Qed.
Lemma pin_free {A} (p : prog A) : (forall r' k', saves r' k' p) -> pin_ok p.
Proof. intros H. by apply (pin_saves p r k). Qed.
Lemma pin_asked {A} r' k' (p : prog A) f :
  p = Call (CIsTrusted r' k') f ->
  saves r' k' (f (Ok true)) -> (forall x r'' k'', x <> Ok true -> saves r'' k'' (f x)) -> pin_ok p.
Proof.
  intros -> H1 H2. split; [done|]. intros x Hx. destruct x as [[]|e].
  - apply (pin_saves _ r' k'); [by apply Hx|done].
  - apply pin_free. intros. by apply H2.
  - apply pin_free. intros. by apply H2.
Qed.
End pin.

Section calls.
Context (C : crypto).
Ltac sv := repeat first
  [ apply saves_lift | by apply saves_do | exact I | apply saves_readonly; (apply readonly_generateKeyPair || apply readonly_calculateSignature
      || apply readonly_decryptWithSessionRecord || apply readonly_initializeSession || apply readonly_initializeSessionAsAlice || apply readonly_processV3)
  | apply saves_bind; [|intros ?] | apply saves_catch; [|intros ?] | apply saves_if ].

Lemma pin_api r0 k0 c : pin_ok r0 k0 (api C c).
Proof.
  destruct c as [r d b|r d|r d m|r d pt|r d m|r d m|n|n m|n pt|n b]; cbn [api].
  - eapply (pin_asked _ _ r (bu_identityKey b)); [reflexivity| |by intros [[]|] ? ?]. cbn [lift prog_bind].
    destruct (bu_signedPreKey b); [|done]. sv.
  - apply pin_free. intros. apply saves_bind; [apply saves_initKx|done].
  - eapply (pin_asked _ _ r (xIdentityKey m)); [reflexivity| |by intros [[]|] ? ?].
    change (saves r (xIdentityKey m) (_ ← (if kx_isInitiate m then x ← processInitiate C r d m; Ret (Some x)
      else _ ← processResponse C r d m; Ret None); Ret tt)).
    apply saves_bind; [|done].
    apply saves_if; (apply saves_bind; [apply saves_initiate || apply saves_response|done]).
  - apply pin_free. intros. apply saves_bind; [apply saves_encrypt|done].
  - apply pin_free. intros. apply saves_bind; [apply saves_decryptMsg|done].
  - split; [done|]. intros [rec|e] _; [|done].
    eapply (pin_asked _ _ r (pIdentityKey m)); [reflexivity| |by intros [[]|] ? ?].
    change (saves r (pIdentityKey m) (_ ← (x ← (x ← processV3 C rec m; _ ← do (CSaveIdentity r (pIdentityKey m)); Ret x);
      y ← decryptWithSessionRecord C x.1 (pMessage m); _ ← do (CStoreSession r d y.2);
      match x.2 with Some i => _ ← do (CRemovePreKey i); Ret y.1 | None => Ret y.1 end); Ret tt)).
    sv. destruct (a.2); sv.
  - apply pin_free. intros. apply saves_bind; [apply saves_group_create|done].
  - apply pin_free. intros. apply saves_group_process.
  - apply pin_free. intros. apply saves_bind; [apply saves_group_encrypt|done].
  - apply pin_free. intros. apply saves_bind; [apply saves_group_decrypt|done].
Qed.

Lemma trusted_stays_pair sched c1 c2 w r k :
  w_trusted w !! r = Some k -> w_trusted (run_pair sched (api C c1) (api C c2) w).2 !! r = Some k.
Proof. intros. apply pin_pair; [apply pin_api|apply pin_api|done]. Qed.
End calls.
