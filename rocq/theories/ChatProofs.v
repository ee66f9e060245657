(** Several senders and groups at once (C89). *)
From Verif Require Import PyBase Wire Protos ProtoFacts Crypto Ecc Kdf Messages State Prog Groups Helper.
From Verif Require Import ProgFacts StateFacts UtilFacts HelperFacts MsgFacts SpecSession SpecApi SpecGroup SpecIso GroupFacts SessionProofs GroupProofs GroupSched IsoProofs BesideProofs SpecChat.

Section chat.
Context (C : crypto) (Hok : crypto_ok C).

Definition blank : world := World ∅ ∅ ∅ ∅ (KeyPair [] []) 0 ∅ (fun _ => []) 0.
Definition alike (name : senderKeyName) (w w' : world) : Prop := w_senderkeys w' !! name = w_senderkeys w !! name.

Definition chan_ok (name : senderKeyName) (s : nat) (D : list world) (p : list bytes * list bytes) (st : option ideal) : Prop :=
  match st with
  | None => p = ([], []) /\ Forall (fun w => w_senderkeys w !! name = None) D
  | Some i => exists id ck0 seed S, (id < 2 ^ 32)%N /\ length seed = 32 /\ D !! s = Some S /\
      ginv C name id ck0 seed (GNet S (<[s := blank]> D) p.1 p.2) i
  end.
Definition sent_in (st : option ideal) : nat := match st with Some i => length (i_sent i) | None => 0 end.

Lemma senderkey_alike name w w' : alike name w w' -> senderkey_at w' name = senderkey_at w name.
Proof using. unfold alike, senderkey_at. by intros ->. Qed.
Lemma member_alike name id ck0 seed k w w' mem : alike name w w' -> member_ok C name id ck0 seed k w mem -> member_ok C name id ck0 seed k w' mem.
Proof using.
  intros Ha. destruct mem as [[b seen]|]; cbn [member_ok].
  - by rewrite (senderkey_alike _ _ _ Ha).
  - by rewrite Ha.
Qed.
Lemma chan_alike name s D D' p st : chan_ok name s D p st -> Forall2 (alike name) D D' -> chan_ok name s D' p st.
Proof using.
  intros Hc HD. destruct st as [i|]; cbn [chan_ok] in *.
  - destruct Hc as (id & ck0 & seed & S & H1 & H2 & H3 & [[rest I1] I2 I3 I4 I5 I6]). cbn [g_S g_M g_dists g_msgs] in *.
    destruct (Forall2_lookup_l _ _ _ _ _ HD H3) as (S' & HS' & Ha).
    exists id, ck0, seed, S'. split_and!; [done..|]. split; cbn [g_S g_M g_dists g_msgs]; try done.
    + exists rest. by rewrite (senderkey_alike _ _ _ Ha).
    + apply Forall2_same_length_lookup. apply Forall2_same_length_lookup in I6 as [L6 I6]. split.
      * rewrite insert_length in L6 |- *. apply Forall2_length in HD. lia.
      * intros j w mem Hw Hmem. destruct (decide (j = s)) as [->|Hne].
        -- rewrite list_lookup_insert in Hw by (by eapply lookup_lt_Some). injection Hw as <-.
           apply (I6 s); [|done]. rewrite list_lookup_insert; [done|]. by eapply lookup_lt_Some.
        -- rewrite list_lookup_insert_ne in Hw by done.
           destruct (Forall2_lookup_r _ _ _ _ _ HD Hw) as (w0 & Hw0 & Ha0). eapply member_alike; [exact Ha0|].
           apply (I6 j); [|done]. by rewrite list_lookup_insert_ne.
  - destruct Hc as [H1 H2]. split; [done|]. apply Forall_lookup. intros j w' Hw'.
    destruct (Forall2_lookup_r _ _ _ _ _ HD Hw') as (w & Hw & ->). rewrite Forall_lookup in H2. by eapply H2.
Qed.

(** ** One channel *)

Definition put_devices (s : nat) (a : gaction) (D : list world) (g : gnet) : list world :=
  match a with GCreate | GSend _ => <[s := g_S g]> D | GJoin _ _ | GDeliver _ _ => g_M g end.
Definition own (s : nat) (a : gaction) : bool :=
  match a with GJoin j _ | GDeliver j _ => Nat.eqb j s | _ => false end.

Lemma put_length name s a S D ds ms : length (put_devices s a D (gact C name a (GNet S D ds ms)).2) = length D.
Proof using.
  destruct a as [|pt|j k|j m]; cbn [put_devices gact g_S g_M g_dists g_msgs]; [apply insert_length..| |].
  - destruct (D !! j); [|done]. destruct (ds !! k); [|done]. destruct (run _ _). cbn. apply insert_length.
  - destruct (D !! j); [|done]. destruct (ms !! m); [|done]. destruct (run _ _). cbn. apply insert_length.
Qed.

(** An action that is not the sender's own sees the same with the sender blanked. *)
Lemma gact_blank name a S D s ds ms : D !! s = Some S -> own s a = false ->
  let g := gact C name a (GNet S D ds ms) in
  let h := gact C name a (GNet S (<[s := blank]> D) ds ms) in
  h.1 = g.1 /\ h.2 = GNet (default S (put_devices s a D g.2 !! s)) (<[s := blank]> (put_devices s a D g.2)) (g_dists g.2) (g_msgs g.2).
Proof using.
  intros HS Ha. assert (s < length D) as Hs by (by eapply lookup_lt_Some). destruct a as [|pt|j k|j i]; cbn [gact g_S g_M g_dists g_msgs own] in *.
  - destruct (run (group_create C name) S) as [[d|e] w]; cbn; (split; [done|]); rewrite list_lookup_insert by done; cbn; by rewrite list_insert_insert.
  - destruct (run (group_encrypt C name pt) S) as [[d|e] w]; cbn; (split; [done|]); rewrite list_lookup_insert by done; cbn; by rewrite list_insert_insert.
  - apply Nat.eqb_neq in Ha. rewrite list_lookup_insert_ne by done.
    destruct (D !! j) as [w|]; [|cbn; by rewrite HS]. destruct (ds !! k) as [b|]; [|cbn; by rewrite HS].
    destruct (run _ w) as [o w']. cbn. split; [done|]. rewrite list_lookup_insert_ne, HS by done. cbn. by rewrite list_insert_commute.
  - apply Nat.eqb_neq in Ha. rewrite list_lookup_insert_ne by done.
    destruct (D !! j) as [w|]; [|cbn; by rewrite HS]. destruct (ms !! i) as [b|]; [|cbn; by rewrite HS].
    destruct (run _ w) as [o w']. cbn. split; [done|]. rewrite list_lookup_insert_ne, HS by done. cbn. by rewrite list_insert_commute.
Qed.

(** A sender that processes its own distribution message goes on as before. *)
Lemma own_join name id ck0 seed w rest m b : (id < 2 ^ 32)%N -> length seed = 32 ->
  senderkey_at w name = Ok (gstate C 0 id ck0 (spub C seed) (Some (spriv C seed)) m [] :: rest) -> b <= m -> (N.of_nat m < 2 ^ 32)%N ->
  exists w' rest', run (x ← lift (skd_msg_parse (dserial C id ck0 seed b)); group_process name x) w = (Ok tt, w') /\
    senderkey_at w' name = Ok (gstate C 0 id ck0 (spub C seed) (Some (spriv C seed)) m [] :: rest').
Proof using Hok.
  intros Hid Hseed Hs Hb Hm. rewrite run_bind, run_lift.
  assert (skd_msg_parse (dserial C id ck0 seed b) = Ok (SenderKeyDistributionMessage id (N.of_nat b) (gkey C 0 ck0 b) (spub C seed) (dserial C id ck0 seed b))) as ->.
  { apply (skd_roundtrip_msg id (N.of_nat b) (gkey C 0 ck0 b) (spub C seed) (SenderKeyDistributionMessage id (N.of_nat b) (gkey C 0 ck0 b) (spub C seed) (dserial C id ck0 seed b))); [rewrite (spub_len C Hok seed Hseed); lia|]. apply skd_create_ok; [done|lia]. }
  unfold group_process. rewrite run_bind, run_do, load_senderkey, Hs.
  rewrite run_bind, run_lift. unfold sks_create. cbn [dId dIteration dChainKey dSignatureKey].
  rewrite !set_u32_ok by (done || lia). rewrite !bind_ok, run_do. cbn [step_call].
  eexists _, (rest ++ [gstate C 0 id ck0 (spub C seed) None b []]). split; [done|].
  apply senderkey_stored. apply senderkey_wf in Hs as [Ha Hr]%Forall_cons. constructor; [done|].
  apply Forall_app. split; [done|]. constructor; [|constructor]. apply st_wf_gstate; [done|done|lia|constructor].
Qed.

Lemma own_deliver name id ck0 seed w rest m i pt b : (id < 2 ^ 32)%N ->
  senderkey_at w name = Ok (gstate C 0 id ck0 (spub C seed) (Some (spriv C seed)) m [] :: rest) -> i < m -> (N.of_nat m < 2 ^ 32)%N ->
  gmessage C 0 id ck0 (spub C seed) i pt b -> run (group_decrypt C name b) w = (Err EDuplicateMessage, w).
Proof using.
  intros Hid Hs Hi Hm Hb. rewrite run_group_decrypt, Hs.
  pose proof (groupOpen_genuine C 0 id ck0 (spub C seed) (Some (spriv C seed)) m [] i pt b [] rest) as H. cbn [app] in H.
  rewrite H; [|done|lia|done|]. 2:{ intros s Hx. by apply elem_of_nil in Hx. }
  rewrite getSenderKey_used; [done|done|apply not_elem_of_nil].
Qed.

Definition istep (s : nat) (a : gaction) (members : nat) (st : option ideal) : gevent * option ideal :=
  match st with
  | None => match a with
            | GCreate => (GCreated, Some (Ideal [] [0] (replicate members None)))
            | GSend _ => (GRaised ENoSession, None)
            | _ => (GNothing, None)
            end
  | Some i => if own s a then
                (match a with
                 | GJoin _ m => if i_dists i !! m then GJoined else GNothing
                 | GDeliver _ m => if i_sent i !! m then GRaised EDuplicateMessage else GNothing
                 | _ => GNothing
                 end, Some i)
              else let '(e, i) := iact a i in (e, Some i)
  end.

Lemma chan_step name s a D wS ds ms st :
  chan_ok name s D (ds, ms) st -> D !! s = Some wS -> (N.of_nat (S (sent_in st)) < 2 ^ 32)%N ->
  let g := gact C name a (GNet wS D ds ms) in
  g.1 = (istep s a (length D) st).1 /\ chan_ok name s (put_devices s a D g.2) (g_dists g.2, g_msgs g.2) (istep s a (length D) st).2 /\
  sent_in (istep s a (length D) st).2 <= Datatypes.S (sent_in st).
Proof using Hok.
  intros Hc HS Hb. assert (s < length D) as Hs by (by eapply lookup_lt_Some).
  destruct st as [i|]; cbn [istep sent_in] in *.
  - destruct Hc as (id & ck0 & seed & wS' & H1 & H2 & H3 & Hinv). rewrite HS in H3. injection H3 as <-. cbn [fst snd] in Hinv.
    destruct (own s a) eqn:Ho.
    + pose proof Hinv as [[rest I1] I2 I3 I4 I5 I6]. cbn [g_S g_M g_dists g_msgs] in *.
      destruct a as [|pt|j k|j m]; cbn [own] in Ho; try done; apply Nat.eqb_eq in Ho as ->; cbn [gact g_S g_M g_dists g_msgs fst snd sent_in]; rewrite HS.
      * rewrite I2, list_lookup_fmap. destruct (i_dists i !! k) as [b|] eqn:Ek; cbn [fmap option_fmap option_map].
        2:{ cbn [fst snd g_dists g_msgs put_devices g_M]. split_and!; [done| |lia]. exists id, ck0, seed, wS. split_and!; [done..|]. by rewrite I2 in Hinv. }
        assert (b <= length (i_sent i)) as Hbl. { rewrite Forall_lookup in I3. by eapply I3. }
        destruct (own_join name id ck0 seed wS rest (length (i_sent i)) b H1 H2 I1 Hbl ltac:(lia)) as (w' & rest' & -> & Hw').
        cbn [fst snd g_dists g_msgs put_devices g_M]. split_and!; [done| |lia]. exists id, ck0, seed, w'. split_and!; [done..|by apply list_lookup_insert|].
        cbn [fst snd]. rewrite list_insert_insert. split; cbn [g_S g_M g_dists g_msgs]; try done. by exists rest'.
      * destruct (i_sent i !! m) as [pt|] eqn:Em.
        2:{ assert (ms !! m = None) as ->. { apply lookup_ge_None in Em. apply lookup_ge_None. lia. }
            cbn [fst snd g_dists g_msgs put_devices g_M]. split_and!; [done| |lia]. by exists id, ck0, seed, wS. }
        assert (m < length (i_sent i)) as Hml by (by eapply lookup_lt_Some).
        destruct (lookup_lt_is_Some_2 ms m ltac:(lia)) as [bs Ebs]. rewrite Ebs.
        rewrite (own_deliver name id ck0 seed wS rest (length (i_sent i)) m pt bs H1 I1 Hml ltac:(lia) (I5 _ _ _ Em Ebs)).
        cbn [fst snd g_dists g_msgs put_devices g_M]. split_and!; [done| |lia]. rewrite list_insert_id by done. by exists id, ck0, seed, wS.
    + destruct (gact_blank name a wS D s ds ms HS Ho) as [E1 E2]. cbv zeta in *.
      destruct (gact_ok C Hok name id ck0 seed H1 H2 a _ i Hinv Hb) as (G1 & G2 & G3).
      rewrite E1 in G1. rewrite E2 in G2. destruct (iact a i) as [e i']. cbn [fst snd sent_in] in *. split_and!; [done| |done].
      pose proof (put_length name s a wS D ds ms) as HL.
      destruct (lookup_lt_is_Some_2 (put_devices s a D (gact C name a (GNet wS D ds ms)).2) s ltac:(lia)) as [wS' ES'].
      exists id, ck0, seed, wS'. split_and!; [done..|]. by rewrite ES' in G2.
  - destruct Hc as [[= -> ->] Hc]. assert (w_senderkeys wS !! name = None) as HSn. { rewrite Forall_lookup in Hc. by eapply Hc. }
    destruct a as [|pt|j k|j m]; cbn [gact g_S g_M g_dists g_msgs fst snd sent_in].
    + destruct (group_first_create C Hok name wS HSn) as (id & ck0 & seed & d & w' & Hid & Hseed & -> & Hd & Hs').
      cbn [fst snd g_dists g_msgs put_devices g_S app]. split_and!; [done| |cbn; lia].
      exists id, ck0, seed, w'. split_and!; [done..|by apply list_lookup_insert|]. cbn [fst snd]. rewrite list_insert_insert.
      split; cbn [g_S g_M g_dists g_msgs i_sent i_dists i_members]; try done.
      * by exists [].
      * cbn. by rewrite Hd.
      * constructor; [done|constructor].
      * apply Forall2_same_length_lookup. split; [by rewrite insert_length, replicate_length|].
        intros j w mem Hw Hmem. apply lookup_replicate in Hmem as [-> _]. cbn [member_ok].
        destruct (decide (j = s)) as [->|Hne].
        -- rewrite list_lookup_insert in Hw by done. injection Hw as <-. done.
        -- rewrite list_lookup_insert_ne in Hw by done. rewrite Forall_lookup in Hc. by eapply Hc.
    + assert (run (group_encrypt C name pt) wS = (Err ENoSession, wS)) as -> by (by apply group_encrypt_none).
      cbn [fst snd g_dists g_msgs put_devices g_S]. split; [done|]. split; [|cbn; lia]. rewrite list_insert_id by done. by split.
    + destruct (D !! j); cbn [fst snd g_dists g_msgs put_devices g_M lookup list_lookup]; (split; [done|]; split; [by split|cbn; lia]).
    + destruct (D !! j); cbn [fst snd g_dists g_msgs put_devices g_M lookup list_lookup]; (split; [done|]; split; [by split|cbn; lia]).
Qed.

(** ** The other channels *)

Lemma alike_refl name D : Forall2 (alike name) D D.
Proof using. apply Forall2_same_length_lookup. split; [done|]. intros j w w' H1 H2. rewrite H1 in H2. by injection H2 as <-. Qed.
Lemma alike_insert name D j w w' : D !! j = Some w -> alike name w w' -> Forall2 (alike name) D (<[j := w']> D).
Proof using.
  intros Hj Ha. rewrite <- (list_insert_id D j w Hj) at 1. apply Forall2_insert; [apply alike_refl|done].
Qed.
Lemma group_call_alike name name' A (p : prog A) w : groupCall C name' A p -> name <> name' -> alike name w (run p w).2.
Proof using. intros Hp Hne. destruct (group_isolated C name' A p Hp) as [H _]. by apply H. Qed.

Lemma gact_others name name' a S D s ds ms : D !! s = Some S -> name <> name' ->
  Forall2 (alike name) D (put_devices s a D (gact C name' a (GNet S D ds ms)).2).
Proof using.
  intros HS Hne. destruct a as [|pt|j k|j i]; cbn [gact put_devices g_S g_M g_dists g_msgs].
  - pose proof (group_call_alike name name' _ (group_create C name') S (group_call_create C name') Hne) as H.
    destruct (run (group_create C name') S) as [[d|e] w]; cbn in *; by eapply alike_insert.
  - pose proof (group_call_alike name name' _ (group_encrypt C name' pt) S (group_call_encrypt C name' pt) Hne) as H.
    destruct (run (group_encrypt C name' pt) S) as [[d|e] w]; cbn in *; by eapply alike_insert.
  - destruct (D !! j) as [w|] eqn:Ew; [|apply alike_refl]. destruct (ds !! k) as [b|]; [|apply alike_refl].
    rewrite run_bind, run_lift. destruct (skd_msg_parse b) as [m|e]; [|cbn; by eapply alike_insert].
    pose proof (group_call_alike name name' _ (group_process name' m) w (group_call_process C name' m) Hne) as H.
    destruct (run (group_process name' m) w) as [o w']. cbn in *. by eapply alike_insert.
  - destruct (D !! j) as [w|] eqn:Ew; [|apply alike_refl]. destruct (ms !! i) as [b|]; [|apply alike_refl].
    pose proof (group_call_alike name name' _ (group_decrypt C name' b) w (group_call_decrypt C name' b) Hne) as H.
    destruct (run (group_decrypt C name' b) w) as [o w']. cbn in *. by eapply alike_insert.
Qed.

Definition no_key (name : senderKeyName) (R : Type) (c : call R) : Prop :=
  match c with CStoreSenderKey n _ => n <> name | _ => True end.
Lemma no_key_run name {A} (p : prog A) : confined (no_key name) p -> (forall w, alike name w (run p w).2) /\ forall n w, alike name w (run_crash n p w).2.
Proof using.
  assert (forall R (c : call R) w, no_key name R c -> alike name w (step_call c w).2) as Hstep.
  { intros R c w Hc. unfold alike. destruct c; cbn in *; try done. by rewrite lookup_insert_ne. }
  intros Hp. induction p as [a|e|R c k IH]; [by split..|]. destruct Hp as [Hc Hk]. split.
  - intros w. cbn [run]. pose proof (Hstep _ c w Hc) as H. destruct (step_call c w) as [x w']. cbn [snd] in H.
    destruct (IH x (Hk x)) as [IH1 _]. unfold alike in *. by rewrite IH1.
  - intros [|n] w; [done|]. cbn [run_crash]. pose proof (Hstep _ c w Hc) as H. destruct (step_call c w) as [x w']. cbn [snd] in H.
    destruct (IH x (Hk x)) as [_ IH2]. unfold alike in *. by rewrite IH2.
Qed.
Lemma meantime_alike ch name w w' : name ∈ ch.*1 -> meantime C ch w w' -> alike name w w'.
Proof using.
  intros Hn Hm. assert (forall c, off_channel ch c -> confined (no_key name) (api C c)) as Hc.
  { intros c Hc. apply api_confined. destruct c; cbn in Hc; intros R x Hx; destruct x; cbn in *; try done; subst; by intros ->. }
  destruct Hm as [c H|c n H|name' b e w' H|m|m|m]; try done.
  - by apply no_key_run, Hc.
  - by apply no_key_run, Hc.
  - apply group_decrypt_err in H as ->. done.
Qed.

(** ** All of them *)

Definition all_ok (ch : list (senderKeyName * nat)) (n : chatnet) (st : list (option ideal)) : Prop :=
  Forall (fun x => x.2 < length (c_D n)) ch /\ length (c_posts n) = length ch /\ length st = length ch /\
  forall k name s p i, ch !! k = Some (name, s) -> c_posts n !! k = Some p -> st !! k = Some i -> chan_ok name s (c_D n) p i.
Definition within (b : nat) (st : list (option ideal)) : Prop := Forall (fun i => sent_in i <= b) st.

Lemma ichat_istep ch members k a st name s i : ch !! k = Some (name, s) -> st !! k = Some i ->
  ichat ch members k a st = ((istep s a members i).1, <[k := (istep s a members i).2]> st).
Proof using.
  intros Hk Hi. unfold ichat. rewrite Hk, Hi. destruct i as [i|]; cbn [istep].
  - destruct a as [|pt|j m|j m]; cbn [own]; try (by destruct (iact _ i)); (destruct (Nat.eqb j s); [|by destruct (iact _ i)]); cbn; by rewrite list_insert_id.
  - destruct a; cbn; try done; by rewrite list_insert_id.
Qed.

Lemma cact_ok ch k a n st b : NoDup ch.*1 -> all_ok ch n st -> within b st -> (N.of_nat (S b) < 2 ^ 32)%N ->
  (cact C ch k a n).1 = (ichat ch (length (c_D n)) k a st).1 /\
  all_ok ch (cact C ch k a n).2 (ichat ch (length (c_D n)) k a st).2 /\
  within (S b) (ichat ch (length (c_D n)) k a st).2 /\ length (c_D (cact C ch k a n).2) = length (c_D n).
Proof using Hok.
  intros Hnd (Hs & L1 & L2 & Hch) Hw Hb.
  assert (within (S b) st) as Hw'. { eapply Forall_impl; [exact Hw|]. cbn. lia. }
  destruct (ch !! k) as [[name s]|] eqn:Ek.
  2:{ unfold cact, ichat. rewrite Ek. cbn. split_and!; done. }
  assert (k < length ch) as Hk by (by eapply lookup_lt_Some).
  destruct (lookup_lt_is_Some_2 st k ltac:(lia)) as [i Ei]. destruct (lookup_lt_is_Some_2 (c_posts n) k ltac:(lia)) as [[ds ms] Ep].
  rewrite (ichat_istep _ _ _ _ _ _ _ _ Ek Ei).
  assert (s < length (c_D n)) as Hsn. { rewrite Forall_lookup in Hs. by specialize (Hs _ _ Ek). }
  destruct (lookup_lt_is_Some_2 (c_D n) s Hsn) as [wS ES].
  assert (sent_in i <= b) as Hib. { unfold within in Hw. rewrite Forall_lookup in Hw. by eapply Hw. }
  pose proof (chan_step name s a (c_D n) wS ds ms i (Hch _ _ _ _ _ Ek Ep Ei) ES ltac:(lia)) as (G1 & G2 & G3).
  pose proof (fun name' Hne => gact_others name' name a wS (c_D n) s ds ms ES Hne) as Ho.
  pose proof (put_length name s a wS (c_D n) ds ms) as HL.
  unfold cact. rewrite Ek, Ep, ES.
  destruct (gact C name a (GNet wS (c_D n) ds ms)) as [e g]. cbv zeta in *. cbn [fst snd] in *.
  split; [exact G1|]. split.
  - split_and!; cbn [c_D c_posts].
    + change (match a with GCreate | GSend _ => _ | _ => _ end) with (put_devices s a (c_D n) g). by rewrite HL.
    + by rewrite insert_length.
    + by rewrite insert_length.
    + change (match a with GCreate | GSend _ => _ | _ => _ end) with (put_devices s a (c_D n) g).
      intros k' name' s' p' i' Ek' Ep' Ei'. destruct (decide (k' = k)) as [->|Hne].
      * rewrite Ek in Ek'. injection Ek' as <- <-. rewrite list_lookup_insert in Ep' by lia. rewrite list_lookup_insert in Ei' by lia.
        injection Ep' as <-. injection Ei' as <-. exact G2.
      * rewrite list_lookup_insert_ne in Ep' by done. rewrite list_lookup_insert_ne in Ei' by done.
        eapply chan_alike; [by eapply Hch|]. apply Ho. intros ->. apply Hne.
        eapply (NoDup_lookup ch.*1); [done| |]; rewrite list_lookup_fmap; [by rewrite Ek'|by rewrite Ek].
  - split; [|exact HL]. apply Forall_insert; [done|lia].
Qed.

Lemma meantime_ok ch n st j w w' : all_ok ch n st -> c_D n !! j = Some w -> meantime C ch w w' ->
  all_ok ch (ChatNet (<[j := w']> (c_D n)) (c_posts n)) st.
Proof using.
  intros (Hs & L1 & L2 & Hch) Hj Hm. split_and!; cbn [c_D c_posts]; [by rewrite insert_length|done|done|].
  intros k name s p i Ek Ep Ei. eapply chan_alike; [by eapply Hch|]. eapply alike_insert; [done|]. eapply meantime_alike; [|done].
  apply elem_of_list_fmap. exists (name, s). split; [done|]. by eapply elem_of_list_lookup_2.
Qed.

Lemma chats_ok ch l n es n' : NoDup ch.*1 -> chats C ch l n es n' ->
  forall st b, all_ok ch n st -> within b st -> (N.of_nat (b + length l) < 2 ^ 32)%N -> es = ichats ch (length (c_D n)) l st.
Proof using Hok.
  intros Hnd. induction 1 as [n|k a l n es n' H IH|j w w' l n es n' Hj Hm H IH]; intros st b Hall Hw Hb; [done|..].
  - cbn [length] in Hb. destruct (cact_ok ch k a n st b Hnd Hall Hw ltac:(lia)) as (G1 & G2 & G3 & G4).
    cbn [ichats]. specialize (IH _ _ G2 G3 ltac:(lia)). rewrite G4 in IH. destruct (ichat _ _ k a st) as [e st']. cbn [fst snd] in *. by rewrite G1, IH.
  - specialize (IH st b (meantime_ok _ _ _ _ _ _ Hall Hj Hm) Hw Hb). cbn [c_D] in IH. by rewrite insert_length in IH.
Qed.

Lemma chats_play ch l n : chats C ch l n (cplay C ch l n).1 (cplay C ch l n).2.
Proof using.
  revert n. induction l as [|[k a] l IH]; intros n; cbn [cplay]; [apply chats_end|].
  destruct (cact C ch k a n) as [e n1] eqn:E. specialize (IH n1). destruct (cplay C ch l n1) as [es n2]. cbn [fst snd] in *.
  pose proof (chats_act C ch k a l n es n2) as H. rewrite E in H. by apply H.
Qed.

Lemma chats_refine ch D l es n' : NoDup ch.*1 -> Forall (fun x => x.2 < length D) ch ->
  Forall (fun w => Forall (fun x => w_senderkeys w !! x.1 = None) ch) D -> (N.of_nat (length l) < 2 ^ 32)%N ->
  chats C ch l (ChatNet D (replicate (length ch) ([], []))) es n' -> es = ichats ch (length D) l (replicate (length ch) None).
Proof using Hok.
  intros Hnd Hs HD Hl H. eapply (chats_ok _ _ _ _ _ Hnd H _ 0); [|by apply Forall_replicate|done].
  split_and!; cbn [c_D c_posts]; [done|apply replicate_length..|].
  intros k name s p i Ek Ep Ei. apply lookup_replicate in Ep as [-> _]. apply lookup_replicate in Ei as [-> _]. split; [done|].
  eapply Forall_impl; [exact HD|]. intros w Hw. rewrite Forall_lookup in Hw. by apply (Hw _ _ Ek).
Qed.
End chat.
