(** Concurrent calls, overlapping or not. *)
From Verif Require Import PyBase Wire Protos ProtoFacts Crypto Ecc Kdf Messages State Prog Ratchet Builder Cipher Groups.
From Verif Require Import ProgFacts StateFacts UtilFacts MsgFacts HelperFacts SpecSession SpecGroup SpecApi SpecEncrypt GroupFacts GroupProofs GroupSched.
From Verif Require Import SpecGroupHist GroupHistProofs GroupPool GroupHistProofs2 InvFacts HistoryProofs EncryptProofs ArchiveProofs PinProofs2 SpecPair.

Lemma pair_all_first {A B} n (p : prog A) (q : prog B) w :
  run_pair (replicate n true) p q w = ((run p w).1, (run q (run p w).2).1, (run q (run p w).2).2).
Proof.
  revert p w. induction n as [|n IH]; intros p w; cbn [replicate run_pair].
  - destruct (run p w) as [a w1]. cbn. by destruct (run q w1).
  - destruct p as [a|e|R c k]; [by rewrite IH..|]. cbn [run]. destruct (step_call c w) as [x w1]. apply IH.
Qed.
Lemma pair_first {A B} n l (p : prog A) (q : prog B) w :
  (run_crash n p w).1 <> None ->
  run_pair (replicate n true ++ l) p q w = ((run p w).1, (run q (run p w).2).1, (run q (run p w).2).2).
Proof.
  revert p w. induction n as [|n IH]; intros p w H.
  - destruct p as [a|e|R c k]; [by apply pair_done1..|done].
  - cbn [replicate app run_pair]. destruct p as [a|e|R c k]; [by apply pair_done1..|].
    cbn [run run_crash] in *. destruct (step_call c w) as [x w1]. by apply IH.
Qed.
Lemma pair_second {A B} n l (p : prog A) (q : prog B) w :
  (run_crash n q w).1 <> None ->
  run_pair (replicate n false ++ l) p q w = ((run p (run q w).2).1, (run q w).1, (run p (run q w).2).2).
Proof.
  revert q w. induction n as [|n IH]; intros q w H.
  - destruct q as [a|e|R c k]; [by apply pair_done2..|done].
  - cbn [replicate app run_pair]. destruct q as [a|e|R c k]; [by apply pair_done2..|].
    cbn [run run_crash] in *. destruct (step_call c w) as [x w1]. by apply IH.
Qed.
Lemma pair_serial {A B} l (p : prog A) (q : prog B) w :
  serial l p q w ->
  run_pair l p q w = ((run p w).1, (run q (run p w).2).1, (run q (run p w).2).2) \/
  run_pair l p q w = ((run p (run q w).2).1, (run q w).1, (run p (run q w).2).2).
Proof.
  intros [[n ->]|[(n & l' & -> & H)|(n & l' & -> & H)]].
  - left. apply pair_all_first.
  - left. by apply pair_first.
  - right. by apply pair_second.
Qed.

(** Two calls of which the second one in sequence never succeeds. *)
Lemma serial_not_both {A B} l (p : prog A) (q : prog B) w a b w' :
  serial l p q w -> run_pair l p q w = (Ok a, Ok b, w') ->
  (exists w1, run p w = (Ok a, w1) /\ run q w1 = (Ok b, w')) \/
  (exists w1, run q w = (Ok b, w1) /\ run p w1 = (Ok a, w')).
Proof.
  intros [E|E]%pair_serial H; rewrite H in E; [left|right].
  - destruct (run p w) as [x w1]. cbn [fst snd] in E. exists w1. destruct (run q w1) as [y w2]. cbn [fst snd] in E. by injection E as <- <- <-.
  - destruct (run q w) as [x w1]. cbn [fst snd] in E. exists w1. destruct (run p w1) as [y w2]. cbn [fst snd] in E. by injection E as <- <- <-.
Qed.

(** What the outcome satisfies, whatever happens around the call. *)
Fixpoint ends {A} (Q : res A -> Prop) (p : prog A) : Prop :=
  match p with
  | Ret a => Q (Ok a)
  | Raise e => Q (Err e)
  | Call c k => forall w, ends Q (k (step_call c w).1)
  end.
Lemma ends_run {A} (Q : res A -> Prop) p w : ends Q p -> Q (run p w).1.
Proof.
  revert w. induction p as [x|e|R c k IH]; intros w; [done..|].
  intros H. specialize (H w). cbn [run]. destruct (step_call c w) as [x w1]. by apply IH.
Qed.
Lemma ends_pair {A B} (Q1 : res A -> Prop) (Q2 : res B -> Prop) l p q w :
  ends Q1 p -> ends Q2 q -> Q1 (run_pair l p q w).1.1 /\ Q2 (run_pair l p q w).1.2.
Proof.
  revert p q w. induction l as [|[] l IH]; intros p q w Hp Hq; cbn [run_pair].
  - pose proof (ends_run _ _ w Hp) as E1. destruct (run p w) as [x w1].
    pose proof (ends_run _ _ w1 Hq) as E2. by destruct (run q w1) as [y w2].
  - destruct p as [x|e|R c k]; [by apply IH..|]. specialize (Hp w). destruct (step_call c w) as [x w1]. by apply IH.
  - destruct q as [x|e|R c k]; [by apply IH..|]. specialize (Hq w). destruct (step_call c w) as [x w1]. by apply IH.
Qed.
Lemma ends_mono {A} (Q Q' : res A -> Prop) p : (forall x, Q x -> Q' x) -> ends Q p -> ends Q' p.
Proof. intros HQ. induction p as [x|e|R c k IH]; [by apply HQ..|]. cbn. auto. Qed.
Lemma ends_bind {A B} (P : res A -> Prop) (Q : res B -> Prop) p f :
  ends P p -> (forall a, P (Ok a) -> ends Q (f a)) -> (forall e, P (Err e) -> Q (Err e)) -> ends Q (p ≫= f).
Proof.
  intros Hp Hf He. induction p as [x|e|R c k IH]; [by apply Hf|by apply He|].
  intros w. apply IH. apply Hp.
Qed.
Lemma ends_lift {A} (Q : res A -> Prop) x : Q x -> ends Q (lift x).
Proof. by destruct x. Qed.
Lemma ends_catch {A} (P Q : res A -> Prop) p h :
  ends P p -> (forall a, P (Ok a) -> Q (Ok a)) -> (forall e, P (Err e) -> ends Q (h e)) -> ends Q (catch p h).
Proof.
  intros Hp Ha He. induction p as [x|e|R c k IH]; [by apply Ha|by apply He|].
  intros w. apply IH. apply Hp.
Qed.
Lemma ends_rethrow {A} (P Q : res A -> Prop) (sel : exn -> bool) e' (p : prog A) :
  ends P p -> (forall a, P (Ok a) -> Q (Ok a)) -> (forall e, P (Err e) -> Q (Err (if sel e then e' else e))) -> ends Q (rethrow sel e' p).
Proof. intros Hp Ha He. eapply ends_catch; [done|done|]. intros e H. specialize (He e H). by destruct (sel e). Qed.

(** The only call that writes sender keys is the last one. *)
Definition stores_senderkey {R} (c : call R) : bool := match c with CStoreSenderKey _ _ => true | _ => false end.
Definition stopped {A} (p : prog A) : Prop := match p with Call _ _ => False | _ => True end.
Fixpoint lastwrite {A} (p : prog A) : Prop :=
  match p with
  | Ret _ | Raise _ => True
  | Call c k => if stores_senderkey c then forall w, stopped (k (step_call c w).1) else forall x, lastwrite (k x)
  end.
Lemma step_keeps_senderkeys {R} (c : call R) w : stores_senderkey c = false -> w_senderkeys (step_call c w).2 = w_senderkeys w.
Proof. destruct c; cbn; try done; intros; repeat case_match; done. Qed.
Lemma lastwrite_bind {A B} (p : prog A) (f : A -> prog B) : readonly p -> (forall a, lastwrite (f a)) -> lastwrite (p ≫= f).
Proof.
  intros Hp Hf. induction p as [x|e|R c k IH]; [by apply Hf|done|]. destruct Hp as [Hc Hk].
  change (lastwrite (Call c (fun x => k x ≫= f))). cbn [lastwrite]. destruct (stores_senderkey c) eqn:E.
  - destruct c; done.
  - intros x. by apply IH.
Qed.
Lemma lastwrite_rethrow {A} (sel : exn -> bool) e' (p : prog A) : lastwrite p -> lastwrite (rethrow sel e' p).
Proof.
  unfold rethrow. induction p as [x|e|R c k IH]; intros H; [done| |].
  - cbn. by destruct (sel e).
  - cbn [catch lastwrite] in *. destruct (stores_senderkey c).
    + intros w. specialize (H w). destruct (k (step_call c w).1) as [|e|]; [done| |done]. cbn. by destruct (sel e).
    + intros x. by apply IH.
Qed.

Section overlap.
Context {A B : Type} (n : senderKeyName) (P : res (list st_s) -> res A -> Prop) (Q : res (list st_s) -> res B -> Prop).

Lemma overlap_first l (p : prog A) (k : res (list st_s) -> prog B) w r :
  senderkey_at w n = r -> lastwrite p -> ends (P r) p -> ends (Q r) (k r) ->
  (forall i, l <> replicate i true) -> (forall i l', l = replicate i true ++ l' -> (run_crash i p w).1 = None) ->
  P r (run_pair l p (Call (CLoadSenderKey n) k) w).1.1 /\ Q r (run_pair l p (Call (CLoadSenderKey n) k) w).1.2.
Proof.
  revert p w. induction l as [|[] l IH]; intros p w Hr Hl Hp Hk Ht Hc.
  - by destruct (Ht 0).
  - cbn [run_pair]. destruct p as [x|e|R c k1]; [by specialize (Hc 0 (true :: l) eq_refl)..|].
    assert (forall i, l <> replicate i true) as Ht' by (intros i ->; by apply (Ht (S i))).
    assert (forall i l', l = replicate i true ++ l' -> (run_crash i (k1 (step_call c w).1) (step_call c w).2).1 = None) as Hc'.
    { intros i l' ->. specialize (Hc (S i) l' eq_refl). cbn [run_crash] in Hc. by destruct (step_call c w). }
    specialize (Hp w). cbn [lastwrite] in Hl. pose proof (step_keeps_senderkeys c w) as Hs. destruct (stores_senderkey c).
    + specialize (Hl w). specialize (Hc' 0 l eq_refl). by destruct (k1 (step_call c w).1).
    + specialize (Hl (step_call c w).1). specialize (Hs eq_refl). destruct (step_call c w) as [x w1].
      apply IH; try done. unfold senderkey_at. cbn in Hs. rewrite Hs. exact Hr.
  - cbn [run_pair]. rewrite load_senderkey, Hr. by apply ends_pair.
Qed.
Lemma overlap_second l (k : res (list st_s) -> prog A) (q : prog B) w r :
  senderkey_at w n = r -> lastwrite q -> ends (P r) (k r) -> ends (Q r) q ->
  (forall i l', l = replicate i false ++ l' -> (run_crash i q w).1 = None) ->
  P r (run_pair l (Call (CLoadSenderKey n) k) q w).1.1 /\ Q r (run_pair l (Call (CLoadSenderKey n) k) q w).1.2.
Proof.
  revert q w. induction l as [|[] l IH]; intros q w Hr Hl Hk Hq Hc.
  - cbn [run_pair run]. rewrite load_senderkey, Hr. pose proof (ends_run _ _ w Hk) as E1. destruct (run (k r) w) as [x w1].
    pose proof (ends_run _ _ w1 Hq) as E2. by destruct (run q w1).
  - cbn [run_pair]. rewrite load_senderkey, Hr. by apply ends_pair.
  - cbn [run_pair]. destruct q as [x|e|R c k1]; [by specialize (Hc 0 (false :: l) eq_refl)..|].
    assert (forall i l', l = replicate i false ++ l' -> (run_crash i (k1 (step_call c w).1) (step_call c w).2).1 = None) as Hc'.
    { intros i l' ->. specialize (Hc (S i) l' eq_refl). cbn [run_crash] in Hc. by destruct (step_call c w). }
    specialize (Hq w). cbn [lastwrite] in Hl. pose proof (step_keeps_senderkeys c w) as Hs. destruct (stores_senderkey c).
    + specialize (Hl w). specialize (Hc' 0 l eq_refl). by destruct (k1 (step_call c w).1).
    + specialize (Hl (step_call c w).1). specialize (Hs eq_refl). destruct (step_call c w) as [x w1].
      apply IH; try done. unfold senderkey_at. cbn in Hs. rewrite Hs. exact Hr.
Qed.
Lemma overlap_both l (k1 : res (list st_s) -> prog A) (k2 : res (list st_s) -> prog B) w r :
  ~ serial l (Call (CLoadSenderKey n) k1) (Call (CLoadSenderKey n) k2) w ->
  senderkey_at w n = r -> lastwrite (k1 r) -> lastwrite (k2 r) -> ends (P r) (k1 r) -> ends (Q r) (k2 r) ->
  P r (run_pair l (Call (CLoadSenderKey n) k1) (Call (CLoadSenderKey n) k2) w).1.1 /\
  Q r (run_pair l (Call (CLoadSenderKey n) k1) (Call (CLoadSenderKey n) k2) w).1.2.
Proof.
  intros Hs Hr L1 L2 H1 H2. destruct l as [|[] l].
  - destruct Hs. left. by exists 0.
  - cbn [run_pair]. rewrite load_senderkey, Hr. apply overlap_first; try done.
    + intros i ->. apply Hs. left. by exists (S i).
    + intros i l' ->. destruct (run_crash i (k1 r) w).1 eqn:E; [|done]. destruct Hs. right. left. exists (S i), l'. split; [done|].
      cbn [run_crash]. rewrite load_senderkey, Hr, E. done.
  - cbn [run_pair]. rewrite load_senderkey, Hr. apply overlap_second; try done.
    intros i l' ->. destruct (run_crash i (k2 r) w).1 eqn:E; [|done]. destruct Hs. right. right. exists (S i), l'. split; [done|].
    cbn [run_crash]. rewrite load_senderkey, Hr, E. done.
Qed.
End overlap.

Section pair.
Context (C : crypto).

(** ** C59 *)

Lemma group_encrypt_serial (Hok : crypto_ok C) n p1 p2 l w b1 b2 w' :
  serial l (group_encrypt C n p1) (group_encrypt C n p2) w ->
  run_pair l (group_encrypt C n p1) (group_encrypt C n p2) w = (Ok b1, Ok b2, w') ->
  exists m1 m2, sk_msg_parse b1 = Ok m1 /\ sk_msg_parse b2 = Ok m2 /\ gKeyId m1 = gKeyId m2 /\ gIteration m1 <> gIteration m2.
Proof using.
  intros Hs [(w1 & H1 & H2)|(w1 & H1 & H2)]%(serial_not_both _ _ _ _ _ _ _ Hs).
  - destruct (group_iterations_increase C Hok n _ _ _ w1 w1 _ _ _ H1 (rtc_refl _ _) H2) as (m1 & m2 & ? & ? & ? & ?).
    exists m1, m2. split_and!; [done..|lia].
  - destruct (group_iterations_increase C Hok n _ _ _ w1 w1 _ _ _ H1 (rtc_refl _ _) H2) as (m1 & m2 & ? & ? & ? & ?).
    exists m2, m1. split_and!; [done..|lia].
Qed.

Definition group_encrypt_after n pt (o : res (list st_s)) : prog bytes :=
  rethrow (fun e => bool_decide (e = EInvalidKeyId)) ENoSession (
    rec ← lift o;
    s ← lift (first_state rec);
    let senderKey := sck_messageKey C (sks_getSenderChainKey s) in
    ciphertext ← lift (aes_encrypt C (smCipher senderKey) (smIv senderKey) pt);
    b ← lift (sk_tosign (sks_getKeyId s) (smIteration senderKey) ciphertext);
    sig ← calculateSignature C (sks_getSigningKeyPrivate s) b;
    s ← lift (sks_setSenderChainKey (sck_next C (sks_getSenderChainKey s)) s);
    _ ← do (CStoreSenderKey n (put_state 0 s rec));
    Ret (b ++ sig)).
Lemma group_encrypt_load n pt : group_encrypt C n pt = Call (CLoadSenderKey n) (group_encrypt_after n pt).
Proof. done. Qed.
Lemma group_encrypt_last n pt o : lastwrite (group_encrypt_after n pt o).
Proof.
  apply lastwrite_rethrow. do 4 (apply lastwrite_bind; [apply readonly_lift|intros ?]).
  apply lastwrite_bind; [apply readonly_calculateSignature|intros ?].
  apply lastwrite_bind; [apply readonly_lift|intros ?]. cbn. done.
Qed.
Definition at_iteration (o : res (list st_s)) (x : res bytes) : Prop :=
  match x with
  | Ok b => exists s rec m, o = Ok (s :: rec) /\ sk_msg_parse b = Ok m /\ gKeyId m = state_id s /\ gIteration m = chain_at s
  | Err _ => True
  end.
Lemma group_encrypt_ends (Hok : crypto_ok C) n pt o : ends (at_iteration o) (group_encrypt_after n pt o).
Proof using.
  eapply (ends_rethrow (at_iteration o)); [|done|done]. destruct o as [[|s rec]|e]; [done| |done].
  eapply (ends_bind (fun x => x = Ok (s :: rec))); [by apply ends_lift| |done]. intros ? [= ->].
  eapply (ends_bind (fun x => x = Ok s)); [by apply ends_lift| |done]. intros ? [= ->]. cbv zeta.
  eapply (ends_bind (fun _ => True)); [by apply ends_lift| |done]. intros ct _.
  eapply (ends_bind (fun x => x = sk_tosign (sks_getKeyId s) (chain_at s) ct)); [by apply ends_lift| |done]. intros h Hh.
  symmetry in Hh. apply sk_tosign_inv in Hh as (B1 & B2 & ->).
  eapply (ends_bind (fun x => match x with Ok sig => length sig = 64 | Err _ => True end)); [| |done].
  { unfold calculateSignature. eapply (ends_bind (fun _ => True)); [by intros w| |done]. intros rnd _. apply ends_lift.
    unfold calculateSignature_with, c_calculateSignature. destruct (_ && _) eqn:E; [|done].
    apply andb_true_iff in E as [L1%Nat.eqb_eq L2%Nat.eqb_eq]. by apply (co_sign_len C Hok). }
  intros sig Hsig. eapply (ends_bind (fun _ => True)); [by apply ends_lift| |done]. intros s' _.
  intros w. cbn. exists s, rec. eexists. split; [done|]. split; [by apply sk_parse_signed|done].
Qed.

Lemma group_encrypt_overlap (Hok : crypto_ok C) n p1 p2 l w b1 b2 w' :
  ~ serial l (group_encrypt C n p1) (group_encrypt C n p2) w ->
  run_pair l (group_encrypt C n p1) (group_encrypt C n p2) w = (Ok b1, Ok b2, w') ->
  exists m1 m2, sk_msg_parse b1 = Ok m1 /\ sk_msg_parse b2 = Ok m2 /\ gKeyId m1 = gKeyId m2 /\ gIteration m1 = gIteration m2.
Proof using.
  intros Hs H. rewrite !group_encrypt_load in *.
  destruct (overlap_both n at_iteration at_iteration l _ _ w _ Hs eq_refl) as [H1 H2];
    [apply group_encrypt_last..|by apply group_encrypt_ends|by apply group_encrypt_ends|].
  rewrite H in H1, H2. cbn [fst snd at_iteration] in H1, H2.
  destruct H1 as (s & rec & m1 & E1 & P1 & I1 & N1). destruct H2 as (s' & rec' & m2 & E2 & P2 & I2 & N2).
  rewrite E1 in E2. injection E2 as <- <-. exists m1, m2. split_and!; congruence.
Qed.

(** ** C60 *)

Lemma decryptMsg_serial (Hok : crypto_ok C) r d m l w p1 p2 w' :
  reachable C w -> serial l (decryptMsg C r d m) (decryptMsg C r d m) w ->
  run_pair l (decryptMsg C r d m) (decryptMsg C r d m) w <> (Ok p1, Ok p2, w').
Proof using.
  intros Hr Hs [(w1 & H1 & H2)|(w1 & H1 & H2)]%(serial_not_both _ _ _ _ _ _ _ Hs);
    destruct (hist_duplicate_msg C Hok _ _ _ _ _ _ Hr H1) as (w2 & E & _); congruence.
Qed.
Lemma decryptPkmsg_serial (Hok : crypto_ok C) r d bs m l w p1 p2 w' :
  reachable C w -> prekey_parse bs = Ok m -> serial l (decryptPkmsg C r d m) (decryptPkmsg C r d m) w ->
  run_pair l (decryptPkmsg C r d m) (decryptPkmsg C r d m) w <> (Ok p1, Ok p2, w').
Proof using.
  intros Hr Hp Hs [(w1 & H1 & H2)|(w1 & H1 & H2)]%(serial_not_both _ _ _ _ _ _ _ Hs);
    destruct (hist_duplicate_pkmsg C Hok _ _ _ _ _ _ _ Hr Hp H1) as (w2 & E & _); congruence.
Qed.
Lemma group_decrypt_serial n b l w p1 p2 w' :
  group_reachable C w -> serial l (group_decrypt C n b) (group_decrypt C n b) w ->
  run_pair l (group_decrypt C n b) (group_decrypt C n b) w <> (Ok p1, Ok p2, w').
Proof using.
  intros Hr Hs [(w1 & H1 & H2)|(w1 & H1 & H2)]%(serial_not_both _ _ _ _ _ _ _ Hs);
    pose proof (group_decrypted_once C n _ _ _ w1 w1 Hr H1 (rtc_refl _ _)); congruence.
Qed.

Definition group_decrypt_after n bs (o : res (list st_s)) : prog bytes :=
  rethrow isKeyException EInvalidMessage (
    rec ← lift o;
    match rec with
    | [] => Raise ENoSession
    | _ => x ← lift (groupOpen C rec bs); _ ← do (CStoreSenderKey n x.2); Ret x.1
    end).
Lemma group_decrypt_load n bs : group_decrypt C n bs = Call (CLoadSenderKey n) (group_decrypt_after n bs).
Proof. done. Qed.
Definition opened bs (o : res (list st_s)) : res bytes :=
  match o with
  | Err e => Err (keyToInvalid e)
  | Ok [] => Err ENoSession
  | Ok rec => match groupOpen C rec bs with Ok x => Ok x.1 | Err e => Err (keyToInvalid e) end
  end.
Lemma group_decrypt_ends n bs o : ends (fun x => x = opened bs o) (group_decrypt_after n bs o).
Proof using.
  eapply (ends_rethrow (fun x => match x with
    | Ok p => opened bs o = Ok p
    | Err e => opened bs o = Err (keyToInvalid e) end)); [| |].
  - destruct o as [[|s rec]|e]; [done| |done].
    eapply (ends_bind (fun x => x = Ok (s :: rec))); [by apply ends_lift| |done]. intros ? [= ->].
    unfold opened. destruct (groupOpen C (s :: rec) bs) as [x|e]; [|done]. by intros w.
  - intros a Ha. by rewrite Ha.
  - intros e He. rewrite He. unfold keyToInvalid. by destruct (isKeyException e).
Qed.
Lemma group_decrypt_last n bs o : lastwrite (group_decrypt_after n bs o).
Proof.
  apply lastwrite_rethrow. apply lastwrite_bind; [apply readonly_lift|]. intros [|s rec]; [done|].
  apply lastwrite_bind; [apply readonly_lift|]. intros x. cbn. done.
Qed.
Lemma group_decrypt_overlap n b l w :
  ~ serial l (group_decrypt C n b) (group_decrypt C n b) w ->
  (run_pair l (group_decrypt C n b) (group_decrypt C n b) w).1 = ((run (group_decrypt C n b) w).1, (run (group_decrypt C n b) w).1).
Proof using.
  intros Hs. rewrite !group_decrypt_load in *.
  destruct (overlap_both n (fun o x => x = opened b o) (fun o x => x = opened b o) l _ _ w _ Hs eq_refl) as [H1 H2];
    [apply group_decrypt_last..|apply group_decrypt_ends|apply group_decrypt_ends|].
  destruct (run_pair _ _ _ _) as [[x y] w']. cbn [fst snd] in *. subst. cbn [run]. rewrite load_senderkey.
  by rewrite (ends_run _ _ w (group_decrypt_ends n b _)).
Qed.

(** ** C68 *)

Lemma bundles_serial r d d' b1 b2 l w w' :
  serial l (processPreKeyBundle C r d b1) (processPreKeyBundle C r d' b2) w -> bu_identityKey b1 <> bu_identityKey b2 ->
  run_pair l (processPreKeyBundle C r d b1) (processPreKeyBundle C r d' b2) w <> (Ok tt, Ok tt, w').
Proof using.
  intros Hs Hne [(w1 & H1 & H2)|(w1 & H1 & H2)]%(serial_not_both _ _ _ _ _ _ _ Hs).
  - rewrite (bundle_other_refused C r d d' b1 b2 w w1 H1 Hne) in H2. done.
  - rewrite (bundle_other_refused C r d' d b2 b1 w w1 H1 (not_eq_sym Hne)) in H2. done.
Qed.
End pair.
