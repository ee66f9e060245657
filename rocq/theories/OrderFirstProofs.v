(** The order in which the first messages of a conversation are delivered: C97. *)
From Verif Require Import PyBase Wire Protos ProtoFacts Crypto Ecc Kdf Messages State Prog Ratchet Builder Cipher Groups Helper.
From Verif Require Import ProgFacts StateFacts UtilFacts HelperFacts MsgFacts CipherFacts DecryptFacts SpecSession SessionProofs LockoutProofs SpecApi InvFacts.
From Verif Require Import HistoryProofs SpecKeys KeyProofs SpecOrderPair SpecOrderFirst OrderPairProofs.

Section first.
Context (C : crypto) (Hok : crypto_ok C).

Definition inner (x : preKeyWhisperMessage * bytes) : whisperMessage * bytes := (pMessage x.1, x.2).

Lemma process_same rec h m : handshake_of h m -> processV3 C rec m = processV3 C rec h.
Proof. intros (H1 & H2 & H3 & H4 & H5 & H6). unfold processV3. by rewrite H1, H2, H3, H4, H5, H6. Qed.

(** A new session from the empty record has no receiving chain and no archived states. *)
Lemma process_fresh m w rec1 u w1 :
  run (processV3 C sr_new m) w = (Ok (rec1, u), w1) -> pVersion m = 3%N ->
  sr_previous rec1 = [] /\ ss_receiverChains (sr_state rec1) = [].
Proof.
  intros H Hv. unfold processV3 in H.
  destruct (sr_hasSessionState _ _ _) eqn:E.
  { injection H as <- _ _. done. }
  do 4 (apply run_bind_ok in H as (? & ? & _ & H)).
  apply run_bind_ok in H as (s & ? & Hs & H). rewrite run_lift in Hs. injection Hs as Hs _.
  apply run_bind_ok in H as (? & ? & _ & H).
  apply run_bind_ok in H as (s1 & ? & Hs1 & H). rewrite run_lift in Hs1. injection Hs1 as Hs1 _.
  apply run_bind_ok in H as (s2 & ? & Hs2 & H). rewrite run_lift in Hs2. injection Hs2 as Hs2 _.
  injection H as <- _ _. split; [done|].
  unfold st_setLocalRegistrationId in Hs1. apply bind_ok_inv in Hs1 as (? & _ & [= <-]).
  unfold st_setRemoteRegistrationId in Hs2. apply bind_ok_inv in Hs2 as (? & _ & [= <-]).
  cbn. unfold initializeSessionAsBob in Hs.
  do 4 (apply bind_ok_inv in Hs as (? & _ & Hs)). destruct (calculateDerivedKeys _ _) as [rk ck].
  apply bind_ok_inv in Hs as (s' & Hs' & [= <-]). unfold st_setSenderChain in Hs'. apply bind_ok_inv in Hs' as (? & _ & [= <-]). done.
Qed.

(** The world as if the new session had been stored, its prekey removed and the identity saved
    before the first message was decrypted. *)
Definition prepared (r d : Z) (h : preKeyWhisperMessage) (rec1 : sessionRecord) (u : option N) (w1 : world) : world :=
  let w2 := w_set_trusted (<[r := pIdentityKey h]> (w_trusted w1)) w1 in
  let w3 := match u with Some i => w_set_prekeys (delete i (w_prekeys w2)) w2 | None => w2 end in
  w_set_sessions (<[(r, d) := sr_serialize rec1]> (w_sessions w3)) w3.

Lemma prepared_pos r d h rec1 u w1 : w_pos (prepared r d h rec1 u w1) = w_pos w1 /\ w_tape (prepared r d h rec1 u w1) = w_tape w1.
Proof. by destruct u. Qed.
Lemma prepared_kp r d h rec1 u w1 n : kp_at C (prepared r d h rec1 u w1) n = kp_at C w1 n.
Proof. by destruct u. Qed.

Lemma pk_first R r d h m w rec1 u w1 pt s' :
  w_sessions w !! (r, d) = None -> trusts w r (pIdentityKey h) -> handshake_of h m ->
  run (processV3 C sr_new h) w = (Ok (rec1, u), w1) ->
  placedP R (sr_state rec1) (pMessage m) ->
  decryptPure C (sr_state rec1) (pMessage m) (kp_at C w1 (w_pos w1)) = Ok (pt, s') -> rec_wf rec1 ->
  run (decryptPkmsg C r d m) w = run (decryptMsg C r d (pMessage m)) (prepared r d h rec1 u w1).
Proof using Hok.
  intros Hs Ht Hh HV Hp Hd Hwf. pose proof Hh as (_ & _ & _ & _ & _ & Hid).
  assert (session_at (prepared r d h rec1 u w1) r d = Ok (SessionRecord false (sr_state rec1) (sr_previous rec1))) as Hss
    by (by apply session_stored).
  assert (is_Some (w_sessions (prepared r d h rec1 u w1) !! (r, d))) as His.
  { unfold prepared. cbn [w_sessions w_set_sessions]. rewrite lookup_insert. eauto. }
  rewrite (run_msg_placed C Hok R r d (pMessage m) _ pt s' _ His Hss Hp).
  2: { destruct (prepared_pos r d h rec1 u w1) as [-> _]. rewrite prepared_kp. exact Hd. }
  unfold decryptPkmsg. rewrite run_bind, run_do, load_session. unfold session_at. rewrite Hs, run_bind.
  unfold builder_process. rewrite run_bind, run_do. rewrite Hid.
  rewrite (trusted_true _ _ _ Ht).
  rewrite run_bind, (process_same _ _ _ Hh), HV, run_bind, run_do. cbn [step_call run fst snd].
  rewrite run_bind. unfold decryptWithSessionRecord. rewrite run_catch, run_bind.
  set (w2 := w_set_trusted _ _).
  rewrite (run_state_placed C Hok R _ _ w2 pt s' Hp) by exact Hd. cbn [run fst snd].
  rewrite run_bind, run_do. cbn [step_call fst snd run sr_state sr_previous].
  destruct u as [i|]; [rewrite run_bind, run_do; cbn [step_call]|]; destruct (knows _ _); cbn [run];
    unfold prepared, w2; cbn; by rewrite insert_insert.
Qed.

(** Once the session is there, the wrapped message is treated as the message inside. *)
Definition settled (r d : Z) (h : preKeyWhisperMessage) (w : world) : Prop :=
  exists rec, is_Some (w_sessions w !! (r, d)) /\ session_at w r d = Ok rec /\ record_inv rec /\
    belongs rec (pVersion h) (pBaseKey h) /\ w_trusted w !! r = Some (pIdentityKey h).

Lemma pk_settled r d h m w : settled r d h w -> handshake_of h m -> run (decryptPkmsg C r d m) w = run (decryptMsg C r d (pMessage m)) w.
Proof.
  intros (rec & Hs & Hrec & _ & Hb & Ht) Hh. pose proof Hh as (_ & _ & _ & _ & _ & Hid).
  unfold decryptPkmsg, decryptMsg. rewrite run_bind, run_do, load_session, Hrec, run_bind.
  rewrite (run_bind (do (CContainsSession r d))), run_do. cbn [step_call]. rewrite bool_decide_eq_true_2 by done.
  rewrite (run_bind (do (CLoadSession r d))), run_do, load_session, Hrec.
  unfold builder_process. rewrite run_bind, run_do, Hid.
  rewrite (trusted_true w r (pIdentityKey h)) by (by right).
  rewrite run_bind, (process_same _ _ _ Hh). unfold processV3. rewrite (proj2 (hasSessionState_spec _ _ _)) by done.
  cbn [run]. rewrite run_bind, run_do. cbn [step_call run fst snd].
  assert (w_set_trusted (<[r := pIdentityKey h]> (w_trusted w)) w = w) as ->; [|done].
  rewrite insert_id by done. by destruct w.
Qed.
Lemma settled_next r d h m w pt w' : settled r d h w -> run (decryptMsg C r d m) w = (Ok pt, w') -> settled r d h w'.
Proof.
  intros (rec & Hs & Hrec & Hi & Hb & Ht) (rec0 & rec' & _ & Hrec0 & Hdec & w1 & Hw1 & ->)%decryptMsg_ok.
  rewrite Hrec in Hrec0. injection Hrec0 as <-. pose proof (decrypted_inv C _ _ _ _ Hi Hdec) as Hi'.
  exists (SessionRecord false (sr_state rec') (sr_previous rec')). split_and!.
  - cbn [w_sessions w_set_sessions]. rewrite lookup_insert. eauto.
  - apply session_stored. apply Hi'.
  - done.
  - by apply (belongs_after C _ _ _ _ _ _ Hi Hdec) in Hb.
  - cbn [w_trusted w_set_sessions]. destruct Hw1 as (_ & _ & _ & -> & _). done.
Qed.
Lemma all_settled r d h l : forall w w', settled r d h w -> Forall (fun x => handshake_of h x.1) l ->
  all_read C r d (map inner l) w w' -> all_first C r d l w w'.
Proof.
  induction l as [|x l IH]; intros w w' Hw Hl Hr; [done|]. apply Forall_cons in Hl as [Hx Hl].
  destruct Hr as (w1 & H1 & Hr). exists w1. split; [|eapply IH; [by eapply settled_next|done|done]].
  by rewrite (pk_settled _ _ _ _ _ Hw Hx).
Qed.

Lemma first_order w r d h R l :
  reachable C w -> w_sessions w !! (r, d) = None -> pVersion h = 3%N ->
  Forall (fun x => handshake_of h x.1 /\ wRatchetKey (pMessage x.1) = R /\ (run (decryptPkmsg C r d x.1) w).1 = Ok x.2) l ->
  NoDup (map (fun x => wCounter (pMessage x.1)) l) ->
  exists w', forall l', Permutation l l' -> all_first C r d l' w w'.
Proof using Hok.
  intros Hw%(reachable_inv C) Hs Hv Hl Hn. destruct (decide (l = [])) as [->|Hne].
  { exists w. intros l' ->%Permutation_nil. done. }
  assert (exists rec1 u w1, run (processV3 C sr_new h) w = (Ok (rec1, u), w1) /\ trusts w r (pIdentityKey h)) as (rec1 & u & w1 & HV & Ht).
  { destruct l as [|x l]; [done|]. apply Forall_cons in Hl as [(Hh & _ & Hx) _].
    destruct (run (decryptPkmsg C r d x.1) w) as [o w'] eqn:E. cbn in Hx. subst o.
    apply decryptPkmsg_ok in E as (rec & rec1 & u & w1 & _ & _ & Hrec & Ht & HV & _).
    unfold session_at in Hrec. rewrite Hs in Hrec. injection Hrec as <-. rewrite (process_same _ _ _ Hh) in HV.
    exists rec1, u, w1. split; [done|]. destruct Hh as (_ & _ & _ & _ & _ & <-). done. }
  pose proof (process_fresh _ _ _ _ _ HV Hv) as [Hprev Hnone].
  pose proof (processV3_inv C _ _ _ _ _ _ Hw loaded_inv_new HV) as Hi.
  pose proof (processV3_belongs C _ _ _ _ _ _ Hv HV) as Hb.
  set (pre := prepared r d h rec1 u w1). set (rec := SessionRecord false (sr_state rec1) (sr_previous rec1)).
  set (ek := kp_at C w1 (w_pos w1)). set (s := sr_state rec1).
  assert (session_at pre r d = Ok rec) as Hrec by (apply session_stored; apply Hi).
  assert (is_Some (w_sessions pre !! (r, d))) as His.
  { unfold pre, prepared. cbn [w_sessions w_set_sessions]. rewrite lookup_insert. eauto. }
  assert (good s) as Hg. { pose proof Hi as ([Hwf _] & _ & [H _]%Forall_cons). by split. }
  assert (forall m, wRatchetKey m = R -> placedP R s m) as Hp.
  { intros m Hm. right. unfold s. rewrite Hnone. split_and!; [done..|cbn; lia]. }
  assert (forall x, handshake_of h x.1 -> wRatchetKey (pMessage x.1) = R -> (run (decryptPkmsg C r d x.1) w).1 = Ok x.2 ->
    open_in C R ek s (inner x)) as Ho1.
  { intros x Hh Hr Hx. split; [by apply Hp|].
    destruct (run (decryptPkmsg C r d x.1) w) as [o w'] eqn:E. cbn in Hx. subst o.
    apply decryptPkmsg_ok in E as (rec0 & rec1' & u' & w1' & rec2 & w2 & Hrec0 & _ & HV' & _ & Hd & _).
    unfold session_at in Hrec0. rewrite Hs in Hrec0. injection Hrec0 as <-. rewrite (process_same _ _ _ Hh), HV in HV'.
    injection HV' as <- <- <-. unfold decryptWithSessionRecord in Hd. rewrite run_catch, run_bind in Hd.
    match type of Hd with context [run (decryptWithSessionState C (sr_state rec1) ?m) ?W] =>
      destruct (run_decryptWithSessionState C Hok (sr_state rec1) m W) as (w3 & _ & H3) end.
    rewrite H3 in Hd. change (kp_at C (w_set_trusted ?a w1) ?b) with (kp_at C w1 (w_pos w1)) in Hd. fold ek s in Hd. cbn [inner fst snd].
    destruct (decryptPure C s (pMessage x.1) ek) as [[pt s']|e].
    - cbn [run fst snd] in Hd. injection Hd as <- _ _. eauto.
    - rewrite Hprev in Hd. case_bool_decide; cbn in Hd; done. }
  assert (Forall (open_in C R ek s) (map inner l)) as Ho.
  { apply Forall_map. eapply Forall_impl; [exact Hl|]. intros x (Hh & Hr & Hx). by apply Ho1. }
  assert (NoDup (place <$> map inner l)) as Hn'.
  { apply (NoDup_fmap_1 snd). change (map ?f ?x) with (f <$> x) in Hn |- *. rewrite <- !list_fmap_compose. exact Hn. }
  destruct (reads_exist C R ek _ s Hg Hn' Ho) as (s' & Hs').
  exists (ended R r d pre s s' rec). intros l' Hperm.
  assert (all_read C r d (map inner l') pre (ended R r d pre s s' rec)) as Hall.
  { assert (Permutation (map inner l) (map inner l')) as Hpi by (by apply Permutation_map).
    apply (all_read_reads C Hok R r d ek) with (rec := rec); [|exact His|exact Hrec|exact Hi| | | |].
    - intros E%map_eq_nil. subst l'. apply Hne. by apply Permutation_nil.
    - intros _. unfold ek, pre. destruct (prepared_pos r d h rec1 u w1) as [-> _]. by rewrite prepared_kp.
    - by rewrite <- Hpi.
    - by rewrite <- Hpi.
    - by eapply reads_perm. }
  assert (Forall (fun x => handshake_of h x.1 /\ wRatchetKey (pMessage x.1) = R /\ (run (decryptPkmsg C r d x.1) w).1 = Ok x.2) l') as Hl' by (by rewrite <- Hperm).
  destruct l' as [|x t]; [by symmetry in Hperm; apply Permutation_nil in Hperm|].
  destruct Hall as (wx & Hx & Hall). apply Forall_cons in Hl' as [(Hh & Hr & Hxo) Ht'].
  exists wx. destruct (Ho1 x Hh Hr Hxo) as (Hpx & sx & Hdx). split.
  - rewrite (pk_first R r d h x.1 w rec1 u w1 x.2 sx Hs Ht Hh HV Hpx Hdx (proj1 Hi)). exact Hx.
  - eapply all_settled; [|eapply Forall_impl; [exact Ht'|by intros ? (? & _)]|exact Hall].
    eapply settled_next; [|exact Hx]. exists rec. split_and!; [done|done|exact Hi|exact Hb|].
    unfold pre, prepared. destruct u; cbn; by rewrite lookup_insert.
Qed.
End first.
