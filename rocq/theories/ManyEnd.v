(** All moves of two devices with several sessions (C85). *)
From Verif Require Import PyBase Wire Protos ProtoFacts Crypto Ecc Kdf Messages State Prog Ratchet Builder Cipher Helper.
From Verif Require Import ProgFacts StateFacts UtilFacts HelperFacts MsgFacts CipherFacts DecryptFacts SpecUtil SpecSession SessionProofs HandshakeFacts.
From Verif Require Import InvFacts HistoryProofs SpecKeys KeyProofs SpecEncrypt EncryptProofs Sched SpecConv ConvFacts ConvProofs ConvNet ConvStart SpecMany ManyFacts ManyProofs ManyNet ManyStep.

(** ** The roles are exchanged *)

Definition flips (S : sess) : sess := Sess (s_r0 S) (s_c0 S) (s_ks S) (negb (s_first S)) (s_det S) (s_otpk S).
Definition swapn (n : net) : net := Net (n_B n) (n_A n) (n_fromB n) (n_fromA n).
Definition swapy (y : many) : many := Many (y_B y) (y_A y) (y_fromB y) (y_fromA y) (y_count y).
Definition swapm (a : move) : move :=
  match a with
  | Talk (SendA pt) => Talk (SendB pt) | Talk (SendB pt) => Talk (SendA pt)
  | Talk (DeliverA i) => Talk (DeliverB i) | Talk (DeliverB i) => Talk (DeliverA i)
  | RenewA b => RenewB b | RenewB b => RenewA b
  end.

Lemma flips_flips S : flips (flips S) = S.
Proof. unfold flips. destruct S. cbn. by rewrite negb_involutive. Qed.
Lemma swapm_swapm a : swapm (swapm a) = a.
Proof. by destruct a as [[]| |]. Qed.
Lemma swapn_swapn n : swapn (swapn n) = n.
Proof. by destruct n. Qed.
Lemma swapy_swapy y : swapy (swapy y) = y.
Proof. by destruct y. Qed.
Lemma ours_flips side S : ours side (flips S) = ours (negb side) S.
Proof. unfold ours, flips. cbn. by destruct (s_first S), side. Qed.
Lemma out_flips side S : out_of side (flips S) = out_of (negb side) S.
Proof. unfold out_of. rewrite ours_flips. done. Qed.
Lemma lookup_flips (Σ : list sess) n S : (flips <$> Σ) !! n = Some S -> Σ !! n = Some (flips S).
Proof. rewrite list_lookup_fmap, fmap_Some. intros (T & HT & ->). by rewrite flips_flips. Qed.
Lemma flips_lookup (Σ : list sess) n S : Σ !! n = Some S -> (flips <$> Σ) !! n = Some (flips S).
Proof. rewrite list_lookup_fmap. by intros ->. Qed.
Lemma renewals_swap l : renewalsA (swapm <$> l) = renewalsB l /\ renewalsB (swapm <$> l) = renewalsA l.
Proof.
  unfold renewalsA, renewalsB. induction l as [|a l [IH1 IH2]]; [done|]. rewrite fmap_cons, !bind_cons, IH1, IH2. by destruct a as [[]| |].
Qed.

Lemma domove_swap C rA dA rB dB a n :
  domove C rB dB rA dA (swapm a) (swapn n) = ((domove C rA dA rB dB a n).1, swapn (domove C rA dA rB dB a n).2).
Proof.
  destruct a as [[pt|pt|i|i]|b|b]; cbn [domove swapm act swapn n_A n_B n_fromA n_fromB].
  1-2: destruct (run _ _) as [[]]; done.
  1-2: destruct (_ !! i); [destruct (run _ _)|]; done.
  all: destruct (run _ _); done.
Qed.
Lemma imove_swap a y : imove (swapm a) (swapy y) = ((imove a y).1, swapy (imove a y).2).
Proof.
  destruct a as [[pt|pt|i|i]|b|b]; cbn [imove swapm swapy y_A y_B y_fromA y_fromB y_count]; try done.
  1-2: destruct (msend _ _) as [[] ?]; done.
  all: destruct (_ !! i); [destruct (mreceive _ _)|]; done.
Qed.
Lemma mixed_swap C rA dA rB dB a n y : mixed_up C rB dB rA dA (swapm a) (swapn n) (swapy y) -> mixed_up C rA dA rB dB a n y.
Proof. by destruct a as [[pt|pt|i|i]|b|b]. Qed.

Section all.
Context (C : crypto) (Hok : crypto_ok C) (SP : bytes -> Prop).

Lemma devrel_swap side me them r d Σ K w D : devrel C side me them r d Σ K w D -> devrel C (negb side) me them r d (flips <$> Σ) K w D.
Proof using.
  intros (rec & H1 & H2 & H3 & H4). exists rec. split_and!; try done. destruct D; [done|].
  eapply Forall2_impl; [exact H4|]. intros s x (S & I1 & I2 & I3 & I4 & I5 & I6). exists (flips S).
  rewrite out_flips, ours_flips, negb_involutive. split_and!; try done. by apply flips_lookup.
Qed.
Lemma hrel_swap side idme Σ w D fut : hrel C SP side idme Σ w D fut -> hrel C SP (negb side) idme (flips <$> Σ) w D fut.
Proof using.
  intros (H1 & H2 & H3 & H4 & H5). split_and!; try done.
  - intros n S pid HS%lookup_flips Ho Hn Hpid. apply (H3 n (flips S) pid); try done. by rewrite ours_flips.
  - replace (omap (pid_of (negb side)) (flips <$> Σ)) with (omap (pid_of side) Σ); [done|]. clear.
    induction Σ as [|S Σ IH]; [done|]. rewrite fmap_cons, !omap_step, IH. unfold pid_of. by rewrite ours_flips, negb_involutive.
Qed.
Lemma msgs_swap side snd rcv Σ DS DR xs mgs :
  Forall2 (msgrel C side snd rcv Σ DS DR) xs mgs -> Forall2 (msgrel C (negb side) snd rcv (flips <$> Σ) DS DR) xs mgs.
Proof using.
  intros H. eapply Forall2_impl; [exact H|]. intros x mg (S & I1 & I2 & I3 & I4 & I5). exists (flips S).
  rewrite out_flips, ours_flips, negb_involutive. split_and!; try done; [by apply flips_lookup|lia|lia].
Qed.
Lemma room_swap l D : room l D -> room (swapm <$> l) D.
Proof using. unfold room. by rewrite fmap_length. Qed.

Lemma nrelm_swap idA idB rA dA rB dB Σ l n y :
  nrelm C SP idA idB rA dA rB dB Σ l n y -> nrelm C SP idB idA rB dB rA dA (flips <$> Σ) (swapm <$> l) (swapn n) (swapy y).
Proof using.
  intros (Hg & HA & HB & HhA & HhB & HmA & HmB & Hc & HrA & HrB & Hb & Hl).
  destruct (renewals_swap l) as [E1 E2]. unfold nrelm. rewrite E1, E2, !fmap_length.
  destruct n as [wA wB fA fB], y as [DA DB mA mB cnt]. cbn [swapn swapy n_A n_B n_fromA n_fromB y_A y_B y_fromA y_fromB y_count] in *.
  split_and!; try done.
  - intros n S HS%lookup_flips. destruct (Hg _ _ HS) as (I1 & I2 & I3 & I4 & I5 & I6 & I7 & I8). unfold flips, sok in *. cbn in *.
    rewrite Nat.max_comm. destruct (s_first S); cbn in *; split_and!; try done; try naive_solver.
  - by apply (devrel_swap false).
  - by apply (devrel_swap true).
  - by apply (hrel_swap false).
  - by apply (hrel_swap true).
  - by apply (msgs_swap false).
  - by apply (msgs_swap true).
  - by apply room_swap.
  - by apply room_swap.
  - lia.
Qed.
Lemma used_flips Σ : used (flips <$> Σ) = used Σ.
Proof using. unfold used. by induction Σ as [|S Σ IH]; [|rewrite fmap_cons, !bind_cons, IH]. Qed.
Lemma freshm_swap Σ n n' : freshm C SP Σ n n' -> freshm C SP (flips <$> Σ) (swapn n) (swapn n').
Proof using.
  unfold freshm. rewrite used_flips. destruct n, n'. cbn. apply clean_sub.
  apply submseteq_app; [done|]. rewrite Permutation_app_comm. done.
Qed.

Section two.
Context (idA idB : keypair) (GA : genuine C idA) (GB : genuine C idB) (rA dA rB dB : Z).

Lemma step_many a l Σ n y n' :
  nrelm C SP idA idB rA dA rB dB Σ (a :: l) n y -> freshm C SP Σ n n' ->
  later (n_A (domove C rA dA rB dB a n).2) (n_A n') -> later (n_B (domove C rA dA rB dB a n).2) (n_B n') ->
  mixed_up C rA dA rB dB a n y \/
  (sees_as (imove a y).1 (domove C rA dA rB dB a n).1 /\
   exists Σ', nrelm C SP idA idB rA dA rB dB Σ' l (domove C rA dA rB dB a n).2 (imove a y).2 /\ freshm C SP Σ' (domove C rA dA rB dB a n).2 n').
Proof using Hok GA GB.
  intros Hn Hf HlA HlB. destruct (partA a) eqn:Ea; [by eapply stepA|].
  pose proof (nrelm_swap _ _ _ _ _ _ _ _ _ _ Hn) as Hn'. rewrite fmap_cons in Hn'. pose proof (freshm_swap _ _ _ Hf) as Hf'.
  destruct (stepA C Hok SP idB idA GB GA rB dB rA dA (swapm a) (swapm <$> l) (flips <$> Σ) (swapn n) (swapy y) (swapn n')) as [H|[H1 (Σ' & H2 & H3)]]; try done.
  - by destruct a as [[]| |].
  - by rewrite domove_swap.
  - by rewrite domove_swap.
  - left. by apply mixed_swap.
  - right. rewrite domove_swap, imove_swap in H1, H2. rewrite domove_swap in H3. cbn [fst snd] in *. split; [done|]. exists (flips <$> Σ').
    apply nrelm_swap in H2. rewrite swapn_swapn, swapy_swapy, <- list_fmap_compose in H2.
    apply freshm_swap in H3. rewrite !swapn_swapn in H3. split; [|done].
    replace (swapm ∘ swapm <$> l) with l in H2; [done|]. clear. induction l as [|b l IH]; [done|]. rewrite fmap_cons, <- IH. unfold compose. by rewrite swapm_swapm.
Qed.

Lemma domoves_later l n es n' : domoves C rA dA rB dB l n = (es, n') -> later (n_A n) (n_A n') /\ later (n_B n) (n_B n').
Proof using.
  revert n es. induction l as [|a l IH]; intros n es; cbn [domoves]; [intros [= _ <-]; split; apply later_refl|].
  pose proof (domove_later C rA dA rB dB a n) as [H1 H2]. destruct (domove C rA dA rB dB a n) as [e n1].
  destruct (domoves C rA dA rB dB l n1) as [es1 n2] eqn:E. intros [= _ <-]. apply IH in E as [H3 H4]. split; by eapply later_trans.
Qed.

Lemma goes_all l Σ n y es n' :
  nrelm C SP idA idB rA dA rB dB Σ l n y -> domoves C rA dA rB dB l n = (es, n') -> freshm C SP Σ n n' -> goes C rA dA rB dB l n y.
Proof using Hok GA GB.
  revert Σ n y es. induction l as [|a l IH]; intros Σ n y es Hn Hd Hf; [done|]. cbn [goes domoves] in *.
  pose proof (step_many a l Σ n y n' Hn Hf) as Hs.
  destruct (domove C rA dA rB dB a n) as [e n1]. destruct (domoves C rA dA rB dB l n1) as [es1 n2] eqn:E. injection Hd as _ ->.
  pose proof (domoves_later _ _ _ _ E) as [H3 H4]. cbn [fst snd] in *.
  destruct (Hs H3 H4) as [?|[Hsee (Σ' & Hn1 & Hf1)]]; [by left|right]. split; [done|]. by eapply IH.
Qed.
End two.
End all.

Lemma sessions (C : crypto) (Hok : crypto_ok C) rA dA rB dB wA wB l es n' :
  able C wA -> able C wB -> trusts wA rB (kp_pub (w_identity wB)) -> trusts wB rA (kp_pub (w_identity wA)) ->
  w_sessions wA !! (rB, dB) = None -> w_sessions wB !! (rA, dA) = None ->
  offers C wB (renewalsA l) -> offers C wA (renewalsB l) ->
  domoves C rA dA rB dB l (Net wA wB [] []) = (es, n') ->
  NoDup (drawn C wA (n_A n') ++ drawn C wB (n_B n')) ->
  (forall k, signed_in (renewalsA l ++ renewalsB l) k -> k ∉ drawn C wA (n_A n') ++ drawn C wB (n_B n')) ->
  length (renewalsA l ++ renewalsB l) <= 41 -> (N.of_nat (length l) < 2 ^ 32)%N ->
  goes C rA dA rB dB l (Net wA wB [] []) (Many [] [] [] [] 0).
Proof.
  intros [GA RA] [GB RB] TA TB NA NB [OB1 OB2] [OA1 OA2] Hd Hnd Hsp H41 Hl.
  eapply (goes_all C Hok (signed_in (renewalsA l ++ renewalsB l)) (w_identity wA) (w_identity wB) GA GB rA dA rB dB l [] _ _ es n'); [|exact Hd|].
  - unfold nrelm. cbn [n_A n_B n_fromA n_fromB y_A y_B y_fromA y_fromB y_count]. rewrite app_length in H41. split_and!; try done; try lia.
    + exists sr_new. split_and!; try done; [|constructor]. unfold session_at. by rewrite NA.
    + exists sr_new. split_and!; try done; [|constructor]. unfold session_at. by rewrite NB.
    + split_and!; try done. rewrite Forall_forall in OA1 |- *. intros b Hb. destruct (OA1 b Hb) as (spk & i & otpk & Hbu). exists spk, i, otpk. split; [done|].
      exists b. split; [apply elem_of_app; by right|]. by destruct Hbu as (_ & _ & _ & _ & ? & _).
    + split_and!; try done. rewrite Forall_forall in OB1 |- *. intros b Hb. destruct (OB1 b Hb) as (spk & i & otpk & Hbu). exists spk, i, otpk. split; [done|].
      exists b. split; [apply elem_of_app; by left|]. by destruct Hbu as (_ & _ & _ & _ & ? & _).
    + constructor.
    + constructor.
  - split; done.
Qed.
