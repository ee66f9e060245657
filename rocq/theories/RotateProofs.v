(** Replacing prekeys: C98. *)
From Verif Require Import PyBase Wire Protos ProtoFacts Crypto Ecc Kdf Messages State Prog Ratchet Builder Cipher Groups Helper.
From Verif Require Import ProgFacts StateFacts UtilFacts HelperFacts MsgFacts CipherFacts DecryptFacts SpecSession SessionProofs LockoutProofs SpecApi SpecRotate.

(** No access of the program is one of the given ones. *)
Fixpoint spares (bad : forall R, call R -> Prop) {A} (p : prog A) : Prop :=
  match p with
  | Ret _ => True
  | Raise _ => True
  | Call c k => ~ bad _ c /\ forall x, spares bad (k x)
  end.

Section spares.
Context (bad : forall R, call R -> Prop).
Lemma spares_bind {A B} (p : prog A) (f : A -> prog B) : spares bad p -> (forall a, spares bad (f a)) -> spares bad (p ≫= f).
Proof.
  intros Hp Hf. induction p as [a|e|R c k IH]; [apply Hf|done|]. destruct Hp as [H1 H2]. split; [done|]. intros x. apply IH, H2.
Qed.
Lemma spares_catch {A} (p : prog A) h : spares bad p -> (forall e, spares bad (h e)) -> spares bad (catch p h).
Proof.
  intros Hp Hh. induction p as [a|e|R c k IH]; [done|apply Hh|]. destruct Hp as [H1 H2]. split; [done|]. intros x. apply IH, H2.
Qed.
Lemma spares_lift {A} (r : res A) : spares bad (lift r).
Proof. by destruct r. Qed.
Lemma spares_do {R} (c : call R) : ~ bad _ c -> spares bad (do c).
Proof. intros H. split; [done|]. intros x. apply spares_lift. Qed.
Lemma spares_if {A} (b : bool) (p q : prog A) : spares bad p -> spares bad q -> spares bad (if b then p else q).
Proof. by destruct b. Qed.
(** What the program can return. *)
Fixpoint ends {A} (Q : A -> Prop) (p : prog A) : Prop :=
  match p with
  | Ret a => Q a
  | Raise _ => True
  | Call c k => forall x, ends Q (k x)
  end.
Lemma spares_bind_ends {A B} Q (p : prog A) (f : A -> prog B) :
  spares bad p -> ends Q p -> (forall a, Q a -> spares bad (f a)) -> spares bad (p ≫= f).
Proof.
  intros Hp HQ Hf. induction p as [a|e|R c k IH]; [by apply Hf|done|]. destruct Hp as [H1 H2]. split; [done|]. intros x. apply IH; auto.
Qed.
Lemma ends_bind {A B} Q (p : prog A) (f : A -> prog B) : (forall a, ends Q (f a)) -> ends Q (p ≫= f).
Proof. intros Hf. induction p as [a|e|R c k IH]; [apply Hf|done|]. intros x. apply IH. Qed.
Lemma ends_first {A B} Q (p : prog A) (f : A -> prog B) : ends (fun a => ends Q (f a)) p -> ends Q (p ≫= f).
Proof. intros Hp. induction p as [a|e|R c k IH]; [done|done|]. intros x. apply IH, Hp. Qed.
End spares.

Lemma spares_run (bad : forall R, call R -> Prop) (f : world -> world) :
  (forall R (c : call R) w, ~ bad _ c -> step_call c (f w) = ((step_call c w).1, f (step_call c w).2)) ->
  forall A (p : prog A) w, spares bad p -> unaffected p f w.
Proof.
  intros Hstep A p. unfold unaffected. induction p as [a|e|R c k IH]; intros w Hp; [done..|].
  destruct Hp as [H1 H2]. cbn [run]. rewrite (Hstep _ _ _ H1). destruct (step_call c w) as [x w1]. cbn [fst snd]. apply IH, H2.
Qed.

Definition reads_signed (i : N) (R : Type) (c : call R) : Prop := match c with CLoadSignedPreKey j => j = i | _ => False end.
Definition uses_prekey (i : N) (R : Type) (c : call R) : Prop :=
  match c with CLoadPreKey j => j = i | CRemovePreKey j => j = i | _ => False end.

Lemma step_signed_spared i o R (c : call R) w :
  ~ reads_signed i R c -> step_call c (put_signed i o w) = ((step_call c w).1, put_signed i o (step_call c w).2).
Proof.
  intros H. destruct c; try done. cbn [reads_signed] in H. cbn [step_call put_signed w_signed w_set_signed fst snd].
  by rewrite lookup_partial_alter_ne by congruence.
Qed.
Lemma step_prekey_spared i o R (c : call R) w :
  ~ uses_prekey i R c -> step_call c (put_prekey i o w) = ((step_call c w).1, put_prekey i o (step_call c w).2).
Proof.
  intros H. destruct c; try done; cbn [uses_prekey] in H; cbn [step_call put_prekey w_prekeys w_set_prekeys fst snd].
  - by rewrite lookup_partial_alter_ne by congruence.
  - unfold put_prekey. cbn. f_equal. unfold w_set_prekeys. cbn. f_equal.
    apply map_eq. intros j. destruct (decide (j = i)) as [->|Hj].
    + rewrite lookup_delete_ne by done. by rewrite !lookup_partial_alter.
    + rewrite lookup_partial_alter_ne by congruence. destruct (decide (j = id)) as [->|Hd]; [by rewrite !lookup_delete|].
      rewrite !lookup_delete_ne by congruence. by rewrite lookup_partial_alter_ne by congruence.
Qed.

Section calls.
Context (C : crypto) (bad : forall R, call R -> Prop).
(** Only the accesses to prekeys may be bad. *)
Context (Hbad : forall R (c : call R), match c with CLoadPreKey _ | CRemovePreKey _ | CLoadSignedPreKey _ => True | _ => ~ bad R c end).
Ltac bb := match goal with |- ~ bad ?R ?c => exact (Hbad R c) end.
Ltac go := repeat first
  [ apply spares_lift | apply spares_do; bb | exact I | apply spares_bind; [|intros ?]
  | apply spares_catch; [|intros ?] | apply spares_if ].

Lemma spares_state s m : spares bad (decryptWithSessionState C s m).
Proof using Hbad. unfold decryptWithSessionState, getOrCreateChainKey, generateKeyPair. go. Qed.
Lemma spares_record rec m : spares bad (decryptWithSessionRecord C rec m).
Proof using Hbad.
  unfold decryptWithSessionRecord, decryptWithSessionState, getOrCreateChainKey, generateKeyPair. go.
  generalize 0 as i. induction (sr_previous rec) as [|s l IH]; intros i; [done|]. cbn [decryptWithPrevious].
  unfold decryptWithSessionState, getOrCreateChainKey, generateKeyPair. go. apply IH.
Qed.
Lemma spares_msg r d m : spares bad (decryptMsg C r d m).
Proof using Hbad. unfold decryptMsg. apply spares_bind; [go|]. intros []; [|done]. apply spares_bind; [go|]. intros rec.
  apply spares_bind; [apply spares_record|]. intros ?. go. Qed.
Lemma spares_encrypt r d pt : spares bad (encrypt C r d pt).
Proof using Hbad. unfold encrypt. go. Qed.
Lemma spares_asAlice s a b c d e f : spares bad (initializeSessionAsAlice C s a b c d e f).
Proof using Hbad. unfold initializeSessionAsAlice, generateKeyPair. go. Qed.
Lemma spares_initialize s a b c d e f : spares bad (initializeSession C s a b c d e f).
Proof using Hbad. unfold initializeSession, initializeSessionAsAlice, generateKeyPair. go. Qed.
Lemma spares_bundle r d b : spares bad (processPreKeyBundle C r d b).
Proof using Hbad.
  unfold processPreKeyBundle, generateKeyPair, initializeSessionAsAlice, generateKeyPair. apply spares_bind; [go|]. intros []; [|done].
  destruct (bu_signedPreKey b); [|done]. go.
Qed.
Lemma spares_kx r d m : spares bad (processKeyExchangeMessage C r d m).
Proof using Hbad.
  unfold processKeyExchangeMessage. apply spares_bind; [go|]. intros []; [|done].
  destruct (kx_isInitiate m); (apply spares_bind; [|by intros ?]).
  - unfold processInitiate, generateKeyPair, calculateSignature. apply spares_bind; [go|]. intros rec.
    apply spares_bind; [go|]. intros []; [|done]. apply spares_bind; [go|]. intros [[[id base] rat] fl].
    apply spares_bind; [apply spares_initialize|]. intros ?. go.
  - unfold processResponse. apply spares_bind; [go|]. intros rec.
    destruct (_ || _); [by destruct (kx_isResponseForSimultaneousInitiate m)|].
    do 3 (apply spares_bind; [go|]; intros ?). apply spares_bind; [apply spares_initialize|]. intros s.
    apply spares_bind; [go|]. intros []; [|done]. go.
Qed.
Lemma spares_initKx r d : spares bad (processInitKeyExchangeMessage C r d).
Proof using Hbad. unfold processInitKeyExchangeMessage, rethrow, generateKeyPair, calculateSignature. go. Qed.
Lemma spares_create n : spares bad (group_create C n).
Proof using Hbad. unfold group_create, rethrow, generateKeyPair, getRandomSequence. go; destruct a; go. Qed.
Lemma spares_process n m : spares bad (group_process n m).
Proof using Hbad. unfold group_process. go. Qed.
Lemma spares_gencrypt n b : spares bad (group_encrypt C n b).
Proof using Hbad. unfold group_encrypt, rethrow, calculateSignature. go. Qed.
Lemma spares_gdecrypt n b : spares bad (group_decrypt C n b).
Proof using Hbad. unfold group_decrypt, rethrow. go. destruct a; go. Qed.

Lemma spares_pkmsg r d m :
  ~ bad _ (CLoadSignedPreKey (pSignedPreKeyId m)) ->
  (forall i, pPreKeyId m = Some i -> ~ bad _ (CLoadPreKey i) /\ ~ bad _ (CRemovePreKey i)) -> spares bad (decryptPkmsg C r d m).
Proof using Hbad.
  intros Hs Hp. unfold decryptPkmsg. apply spares_bind; [go|]. intros rec.
  apply (spares_bind_ends _ (fun x => forall i, x.2 = Some i -> pPreKeyId m = Some i)).
  - unfold builder_process. apply spares_bind; [go|]. intros []; [|done]. apply spares_bind; [|intros ?; go].
    unfold processV3. destruct (sr_hasSessionState _ _ _); [done|].
    apply spares_bind; [by apply spares_do|]. intros spr. apply spares_bind; [go|]. intros spk. apply spares_bind; [go|]. intros id.
    apply spares_bind; [|intros ?; go].
    destruct (pPreKeyId m) as [i|]; [|done]. apply spares_bind; [by apply spares_do, (Hp i)|]. intros ?. go.
  - unfold builder_process. apply ends_bind. intros []; [|done].
    apply ends_first. assert (forall (q : prog (sessionRecord * option N)) (Q : sessionRecord * option N -> Prop),
      ends Q q -> ends (fun a => ends Q (_ ← do (CSaveIdentity r (pIdentityKey m)); Ret a)) q) as Hq.
    { intros q Q. induction q as [a|e|R c k IH]; [|done|intros Ha x; apply IH, Ha]. intros Ha. by apply ends_bind. }
    apply Hq. unfold processV3. destruct (sr_hasSessionState _ _ _); [done|].
    do 8 (apply ends_bind; intros ?). cbn [ends snd]. intros i. destruct (pPreKeyId m) as [j|]; [|done]. by destruct (j =? _)%N.
  - intros [rec1 u] Hu. cbn [fst snd] in *. apply spares_bind; [apply spares_record|]. intros y. apply spares_bind; [go|]. intros _.
    destruct u as [i|]; [|done]. apply spares_bind; [by apply spares_do, (Hp i), Hu|]. done.
Qed.
End calls.

(** ** C98 *)
Section rotate.
Context (C : crypto).

Lemma signed_spared i o A (p : prog A) w : spares (reads_signed i) p -> unaffected p (put_signed i o) w.
Proof. intros H. eapply spares_run; [|exact H]. intros R c w'. apply step_signed_spared. Qed.
Lemma prekey_spared i o A (p : prog A) w : spares (uses_prekey i) p -> unaffected p (put_prekey i o) w.
Proof. intros H. eapply spares_run; [|exact H]. intros R c w'. apply step_prekey_spared. Qed.
Lemma signed_only i R (c : call R) : match c with CLoadPreKey _ | CRemovePreKey _ | CLoadSignedPreKey _ => True | _ => ~ reads_signed i R c end.
Proof. destruct c; cbn; auto. Qed.
Lemma prekey_only i R (c : call R) : match c with CLoadPreKey _ | CRemovePreKey _ | CLoadSignedPreKey _ => True | _ => ~ uses_prekey i R c end.
Proof. destruct c; cbn; auto. Qed.

Lemma rotate_signed i o w :
  (forall r d b, unaffected (processPreKeyBundle C r d b) (put_signed i o) w) /\
  (forall r d, unaffected (processInitKeyExchangeMessage C r d) (put_signed i o) w) /\
  (forall r d m, unaffected (processKeyExchangeMessage C r d m) (put_signed i o) w) /\
  (forall r d pt, unaffected (encrypt C r d pt) (put_signed i o) w) /\
  (forall r d m, unaffected (decryptMsg C r d m) (put_signed i o) w) /\
  (forall r d m, pSignedPreKeyId m <> i -> unaffected (decryptPkmsg C r d m) (put_signed i o) w) /\
  (forall n, unaffected (group_create C n) (put_signed i o) w) /\
  (forall n m, unaffected (group_process n m) (put_signed i o) w) /\
  (forall n pt, unaffected (group_encrypt C n pt) (put_signed i o) w) /\
  (forall n ct, unaffected (group_decrypt C n ct) (put_signed i o) w).
Proof.
  pose proof (signed_only i) as Hb. split_and!; intros; apply signed_spared.
  - by apply spares_bundle.
  - by apply spares_initKx.
  - by apply spares_kx.
  - by apply spares_encrypt.
  - by apply spares_msg.
  - apply spares_pkmsg; [done|done|]. intros j _. split; intros [].
  - by apply spares_create.
  - by apply spares_process.
  - by apply spares_gencrypt.
  - by apply spares_gdecrypt.
Qed.
Lemma rotate_prekey i o w :
  (forall r d b, unaffected (processPreKeyBundle C r d b) (put_prekey i o) w) /\
  (forall r d, unaffected (processInitKeyExchangeMessage C r d) (put_prekey i o) w) /\
  (forall r d m, unaffected (processKeyExchangeMessage C r d m) (put_prekey i o) w) /\
  (forall r d pt, unaffected (encrypt C r d pt) (put_prekey i o) w) /\
  (forall r d m, unaffected (decryptMsg C r d m) (put_prekey i o) w) /\
  (forall r d m, pPreKeyId m <> Some i -> unaffected (decryptPkmsg C r d m) (put_prekey i o) w) /\
  (forall n, unaffected (group_create C n) (put_prekey i o) w) /\
  (forall n m, unaffected (group_process n m) (put_prekey i o) w) /\
  (forall n pt, unaffected (group_encrypt C n pt) (put_prekey i o) w) /\
  (forall n ct, unaffected (group_decrypt C n ct) (put_prekey i o) w).
Proof.
  pose proof (prekey_only i) as Hb. split_and!; intros; apply prekey_spared.
  - by apply spares_bundle.
  - by apply spares_initKx.
  - by apply spares_kx.
  - by apply spares_encrypt.
  - by apply spares_msg.
  - apply spares_pkmsg; [done|intros []|]. intros j Hj. cbn. split; congruence.
  - by apply spares_create.
  - by apply spares_process.
  - by apply spares_gencrypt.
  - by apply spares_gdecrypt.
Qed.

Lemma run_known r d m w rec : session_at w r d = Ok rec -> belongs rec (pVersion m) (pBaseKey m) ->
  run (decryptPkmsg C r d m) w =
  run (t ← do (CIsTrusted r (pIdentityKey m));
       if (t : bool) then
         _ ← do (CSaveIdentity r (pIdentityKey m));
         y ← decryptWithSessionRecord C rec (pMessage m);
         _ ← do (CStoreSession r d y.2); Ret y.1
       else Raise (EUntrustedIdentity r (pIdentityKey m))) w.
Proof.
  intros Hrec Hb. unfold decryptPkmsg. rewrite run_bind, run_do, load_session, Hrec, run_bind.
  unfold builder_process. rewrite !run_bind, run_do.
  destruct (step_call (CIsTrusted r (pIdentityKey m)) w) as [[[]|] w1]; [|done..].
  rewrite run_bind. unfold processV3. rewrite (proj2 (hasSessionState_spec _ _ _)) by done.
  cbn [run]. rewrite !run_bind, run_do. cbn [step_call run fst snd]. done.
Qed.
Lemma rotate_known i o r d m w rec :
  session_at w r d = Ok rec -> belongs rec (pVersion m) (pBaseKey m) ->
  unaffected (decryptPkmsg C r d m) (put_signed i o) w /\ unaffected (decryptPkmsg C r d m) (put_prekey i o) w.
Proof.
  intros Hrec Hb. unfold unaffected.
  rewrite (run_known r d m w rec Hrec Hb), (run_known r d m (put_signed i o w) rec Hrec Hb), (run_known r d m (put_prekey i o w) rec Hrec Hb).
  split; [apply signed_spared|apply prekey_spared].
  - apply spares_bind; [by apply spares_do; intros []|]. intros []; [|done]. apply spares_bind; [by apply spares_do; intros []|]. intros _.
    apply spares_bind; [apply spares_record, signed_only|]. intros y. apply spares_bind; [by apply spares_do; intros []|]. done.
  - apply spares_bind; [by apply spares_do; intros []|]. intros []; [|done]. apply spares_bind; [by apply spares_do; intros []|]. intros _.
    apply spares_bind; [apply spares_record, prekey_only|]. intros y. apply spares_bind; [by apply spares_do; intros []|]. done.
Qed.
Lemma rotate_removed r d m w rec :
  session_at w r d = Ok rec -> ~ belongs rec (pVersion m) (pBaseKey m) -> trusts w r (pIdentityKey m) ->
  run (decryptPkmsg C r d m) (put_signed (pSignedPreKeyId m) None w) = (Err EInvalidKeyId, put_signed (pSignedPreKeyId m) None w).
Proof.
  intros Hrec Hb Ht. unfold decryptPkmsg. rewrite run_bind, run_do, load_session.
  change (session_at (put_signed (pSignedPreKeyId m) None w) r d) with (session_at w r d). rewrite Hrec, run_bind.
  unfold builder_process. rewrite run_bind, run_do. rewrite (trusted_true _ r (pIdentityKey m)) by exact Ht.
  rewrite run_bind. unfold processV3. destruct (sr_hasSessionState _ _ _) eqn:E; [by apply hasSessionState_spec in E|].
  rewrite run_bind, run_do. cbn [step_call put_signed w_signed w_set_signed]. by rewrite lookup_partial_alter.
Qed.
End rotate.
