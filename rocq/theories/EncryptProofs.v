(** What encrypt does: C06, C15, C45. *)
From Verif Require Import PyBase Wire Protos ProtoFacts Crypto Ecc Kdf Messages State Prog Ratchet Builder Cipher.
From Verif Require Import ProgFacts StateFacts UtilFacts HelperFacts MsgFacts CipherFacts DecryptFacts SpecSession SessionProofs.
From Verif Require Import SpecUtil SpecApi PoolFacts InvFacts HistoryProofs ArchiveProofs SpecKeys KeyProofs HandshakeFacts SpecEncrypt.

(** ** Calls that store the session once, at the end *)

Definition stores_session {R} (c : call R) : bool := match c with CStoreSession _ _ _ => true | _ => false end.

(** Ends without exception and without storing a session. *)
Fixpoint final {A} (p : prog A) : Prop :=
  match p with
  | Ret _ => True
  | Raise _ => False
  | Call c k => stores_session c = false /\ forall w, final (k (step_call c w).1)
  end.
Fixpoint oneshot {A} (p : prog A) : Prop :=
  match p with
  | Ret _ | Raise _ => True
  | Call c k => if stores_session c then forall w, final (k (step_call c w).1) else forall x, oneshot (k x)
  end.

Lemma step_sessions {R} (c : call R) w : stores_session c = false -> w_sessions (step_call c w).2 = w_sessions w.
Proof. by destruct c. Qed.

Lemma final_run {A} (p : prog A) n w : final p ->
  (exists a, (run p w).1 = Ok a) /\ w_sessions (run p w).2 = w_sessions w /\ w_sessions (run_crash n p w).2 = w_sessions w.
Proof.
  revert n w. induction p as [a|e|R c k IH]; intros n w Hf; [eauto|done|]. destruct Hf as [Hc Hf].
  pose proof (step_sessions c w Hc) as Hs. specialize (Hf w). cbn [run run_crash].
  destruct (step_call c w) as [x w1]. cbn [fst snd] in *.
  destruct (IH x (n - 1) w1 Hf) as (H1 & H2 & H3). split_and!; [done|congruence|].
  destruct n as [|n]; [done|]. replace (S n - 1) with n in H3 by lia. congruence.
Qed.

Lemma oneshot_crash {A} (p : prog A) n w : oneshot p ->
  let w' := (run_crash n p w).2 in
  w_sessions w' = w_sessions w \/ exists a wf, run p w = (Ok a, wf) /\ w_sessions w' = w_sessions wf.
Proof.
  cbv zeta. revert n w. induction p as [a|e|R c k IH]; intros n w Ho; [by left..|].
  destruct n as [|n]; [by left|]. cbn [oneshot run_crash run] in *. destruct (stores_session c) eqn:Hc.
  - specialize (Ho w). destruct (step_call c w) as [x w1]. cbn [fst] in Ho.
    destruct (final_run _ n w1 Ho) as ((a & H1) & H2 & H3). right. exists a, (run (k x) w1).2.
    split; [|congruence]. rewrite <- H1. apply surjective_pairing.
  - pose proof (step_sessions c w Hc) as Hs. destruct (step_call c w) as [x w1]. cbn [snd] in Hs.
    destruct (IH x n w1 (Ho x)) as [H|H]; [left; congruence|by right].
Qed.

Lemma oneshot_err {A} (p : prog A) w e w' : oneshot p -> run p w = (Err e, w') -> w_sessions w' = w_sessions w.
Proof.
  revert w. induction p as [a|e'|R c k IH]; intros w Ho; [done|by intros [= _ <-]|].
  cbn [oneshot run] in *. destruct (stores_session c) eqn:Hc.
  - specialize (Ho w). destruct (step_call c w) as [x w1]. cbn [fst] in Ho.
    destruct (final_run _ 0 w1 Ho) as ((a & H1) & _). intros H. rewrite H in H1. done.
  - pose proof (step_sessions c w Hc) as Hs. destruct (step_call c w) as [x w1]. cbn [snd] in Hs.
    intros H. apply (IH x w1 (Ho x)) in H. congruence.
Qed.

Lemma oneshot_bind {A B} (p : prog A) (f : A -> prog B) : nostore p -> (forall a, oneshot (f a)) -> oneshot (p ≫= f).
Proof.
  intros Hp Hf. induction p as [a|e|R c k IH]; [apply Hf|done|]. destruct Hp as [Hc Hk].
  change (oneshot (Call c (fun x => k x ≫= f))). cbn [oneshot].
  destruct (stores_session c) eqn:E; [by destruct c|]. intros x. by apply IH.
Qed.
Lemma final_map {A B} (p : prog A) (f : A -> B) : final p -> final (x ← p; Ret (f x)).
Proof.
  induction p as [a|e|R c k IH]; [done..|]. intros [Hc Hk]. split; [done|]. intros w. apply IH, Hk.
Qed.
Lemma oneshot_map {A B} (p : prog A) (f : A -> B) : oneshot p -> oneshot (x ← p; Ret (f x)).
Proof.
  induction p as [a|e|R c k IH]; [done..|]. intros H.
  change (oneshot (Call c (fun x => y ← k x; Ret (f y)))). cbn [oneshot] in *. destruct (stores_session c).
  - intros w. apply final_map, H.
  - intros x. apply IH, H.
Qed.
Lemma oneshot_store {A} r d rec (f : unit -> prog A) : final (f tt) -> oneshot (do (CStoreSession r d rec) ≫= f).
Proof. intros H w. exact H. Qed.
Lemma nostore_if {A} (b : bool) (p q : prog A) : nostore p -> nostore q -> nostore (if b then p else q).
Proof. by destruct b. Qed.

(** What a call may have left behind, if it ended or not. *)
Lemma attempt_cases C r d o crash w :
  oneshot (op_prog C r d o) ->
  let x := attempt C r d o crash w in
  (w_sessions x.2 = w_sessions w /\ (forall a, x.1 <> Some (Ok a))) \/
  (exists a wf, run (op_prog C r d o) w = (Ok a, wf) /\ w_sessions x.2 = w_sessions wf /\ (x.1 = None \/ x.1 = Some (Ok a))).
Proof.
  intros Ho. cbv zeta. unfold attempt. destruct crash as [n|].
  - pose proof (oneshot_crash _ n w Ho) as Hc. cbv zeta in Hc.
    pose proof (run_crash_some n (op_prog C r d o) w) as Hs.
    destruct (run_crash n (op_prog C r d o) w) as [[[a|e]|] w'] eqn:E; cbn [fst snd] in *.
    + specialize (Hs _ _ eq_refl). right. exists a, w'. auto.
    + specialize (Hs _ _ eq_refl). left. split; [|done]. by eapply oneshot_err.
    + destruct Hc as [Hc|(a & wf & H1 & H2)]; [by left|]. right. exists a, wf. auto.
  - destruct (run (op_prog C r d o) w) as [[a|e] w'] eqn:E; cbn [fst snd].
    + right. exists a, w'. auto.
    + left. split; [|done]. by eapply oneshot_err.
Qed.

Lemma session_at_eq w w' r d : w_sessions w' = w_sessions w -> session_at w' r d = session_at w r d.
Proof. intros H. unfold session_at. by rewrite H. Qed.

Section encrypt.
Context (C : crypto) (Hok : crypto_ok C).

Lemma whisper_create_inv' version mac key counter prev ct a b m :
  whisper_create C version mac key counter prev ct a b = Ok m ->
  wRatchetKey m = key /\ wVersion m = version /\ wCounter m = counter /\ wBody m = ct /\ authentic C version a b mac (wSerialized m).
Proof using Hok.
  intros H.
  assert (counter < 2 ^ 32 /\ prev < 2 ^ 32)%N as [Hc Hp].
  { unfold whisper_create in H. apply bind_ok_inv in H as (x & [-> Hx]%set_u32_inv & H).
    by apply bind_ok_inv in H as (y & [-> Hy]%set_u32_inv & _). }
  rewrite whisper_create_ok in H by done. apply Ok_inj in H as ->. cbn. do 4 (split; [done|]).
  match goal with |- authentic _ _ _ _ _ (?x :: ?y ++ _) => set (rest := x :: y) end.
  set (mc := wm_getMac C version a b mac rest).
  exists rest, mc. split; [done|].
  pose proof (wm_getMac_length C Hok version a b mac rest) as Hl. fold mc in Hl. unfold zlen, MAC_LENGTH in Hl. split; [lia|].
  unfold mc, wm_getMac, bu_trim. rewrite py_slice_prefix by done. done.
Qed.

(** The state after an encryption. *)
Definition advanced (s : ss_s) : ss_s :=
  let c := st_senderChain s in
  ss_set_senderChain (Some (ch_set_chainKey (Some (CkS (Some (next_index c + 1)%N) (Some (hmac256 C (next_key c) [x02])))) c)) s.

Lemma encryptWithState_inv s pt ct s' :
  encryptWithState C s pt = Ok (ct, s') ->
  let v := st_getSessionVersion s in
  let c := st_senderChain s in
  exists rk local remote,
    (v = 2%N \/ v = 3%N) /\ st_getSenderRatchetKey s = Ok rk /\ (next_index c + 1 < 2 ^ 32)%N /\
    identity_of (ss_localIdentity s) local /\ identity_of (ss_remoteIdentity s) remote /\
    wRatchetKey (inner ct) = rk /\ wVersion (inner ct) = v /\ wCounter (inner ct) = next_index c /\
    sealed C local remote (keys_of C v (next_key c)) (inner ct) pt /\
    whisper_parse (wSerialized (inner ct)) = Ok (inner ct) /\
    s' = advanced s /\
    match ss_pendingPreKey s with
    | None => ct = CTWhisper (inner ct)
    | Some p => exists base sid, decodePoint (default [] (pp_baseKey p)) 0 = Ok base /\ z_to_u32 (default 0%Z (pp_signedPreKeyId p)) = Ok sid /\
        names ct (pp_preKeyId p) sid base local (default 0%N (ss_localRegId s)) /\
        (exists q, ct = CTPreKey q /\ pVersion q = v /\
          prekey_create v (st_getLocalRegistrationId s) (pp_preKeyId p) sid base local (inner ct) = Ok q)
    end.
Proof using Hok.
  cbv zeta. intros H. unfold encryptWithState in H.
  apply bind_ok_inv in H as (ck & Hck & H). unfold st_getSenderChainKey in Hck.
  apply bind_ok_inv in Hck as (kdf & [-> Hv]%createFor_inv & [= <-]).
  rewrite getChainKey_eq in H.
  set (v := st_getSessionVersion s) in *. set (c := st_senderChain s) in *.
  apply bind_ok_inv in H as (rk & Hrk & H). cbv zeta in H.
  apply bind_ok_inv in H as (body & Hbody & H).
  apply bind_ok_inv in H as (local & Hlocal & H). apply bind_ok_inv in H as (remote & Hremote & H).
  apply bind_ok_inv in H as (wm & Hwm & H). cbn [cIndex] in Hwm.
  apply bind_ok_inv in H as (ct' & Hct & H).
  apply bind_ok_inv in H as (s1 & Hs1 & H). injection H as <- <-.
  assert (st_setSenderChainKey (ck_next C (ChainKey (N.of_nat (first_block v)) (next_key c) (next_index c))) s = Ok s1 ->
    s1 = advanced s /\ (next_index c + 1 < 2 ^ 32)%N) as Hs.
  { unfold st_setSenderChainKey, ch_putChainKey, ck_next. cbn [cIndex cKey cKdf]. fold c.
    intros (x & (i & [-> Hi]%set_u32_inv & Hx)%bind_ok_inv & [= <-])%bind_ok_inv. injection Hx as <-. done. }
  apply Hs in Hs1 as [-> Hi]. clear Hs.
  exists rk, local, remote.
  assert (inner ct' = wm) as Hin.
  { destruct (st_hasUnacknowledgedPreKeyMessage s); [|by injection Hct as <-].
    apply bind_ok_inv in Hct as ([[a b] e] & _ & Hct). apply bind_ok_inv in Hct as (l & _ & Hct).
    apply bind_ok_inv in Hct as (sid & _ & Hct). apply bind_ok_inv in Hct as (p & Hp & [= <-]).
    cbn [inner]. pose proof (prekey_create_inv _ _ _ _ _ _ _ _ Hp) as (H1 & H2 & H3).
    rewrite prekey_create_ok in Hp by done. by injection Hp as <-. }
  rewrite Hin.
  pose proof (keys_of_eq C Hok v (next_key c) (next_index c)) as Hk.
  set (mk := ck_messageKeys C _) in *.
  destruct (ck_messageKeys_lengths C Hok (ChainKey (N.of_nat (first_block v)) (next_key c) (next_index c))) as (L1 & L2 & L3).
  fold mk in L1, L2, L3.
  destruct (aes_roundtrip C Hok (mCipher mk) (mIv mk) pt L1 L3) as (body' & Hb1 & Hb2 & k & Hb3 & Hb4).
  assert (body' = body) as -> by congruence. clear Hb1.
  assert (body <> []) as Hne by (intros ->; cbn in Hb3; lia).
  pose proof (whisper_roundtrip C Hok _ _ _ _ _ _ _ _ _ Hv (decodePoint_length _ _ _ Hrk) Hne Hwm) as Hparse.
  pose proof (whisper_create_inv' _ _ _ _ _ _ _ _ _ Hwm) as (W1 & W2 & W3 & W4 & Hauth).
  split_and!; try done.
  - by apply decode_iff.
  - by apply decode_iff.
  - unfold sealed. rewrite W2, W4, <- Hk. cbn [k_mac k_cipher k_iv to_keys].
    split; [done|]. by apply cbc_plain_iff.
  - unfold st_hasUnacknowledgedPreKeyMessage in Hct. destruct (ss_pendingPreKey s) as [p|] eqn:Ep.
    + apply bind_ok_inv in Hct as ([[a b] e] & Hitems & Hct). apply bind_ok_inv in Hct as (l & Hl & Hct).
      rewrite Hl in Hlocal. injection Hlocal as ->.
      apply bind_ok_inv in Hct as (sid & Hsid & Hct). apply bind_ok_inv in Hct as (q & Hq & [= <-]).
      unfold st_getUnacknowledgedPreKeyMessageItems in Hitems. rewrite Ep in Hitems. cbv zeta in Hitems.
      apply bind_ok_inv in Hitems as (base & Hbase & [= <- <- <-]). rewrite default_Some in *.
      exists base, sid. split_and!; [done|done| |].
      * pose proof (prekey_create_inv _ _ _ _ _ _ _ _ Hq) as (H1 & H2 & H3).
        exists q. rewrite prekey_create_ok in Hq by done. injection Hq as <-. split_and!; done.
      * exists q. split_and!; [done| |done].
        pose proof (prekey_create_inv _ _ _ _ _ _ _ _ Hq) as (H1 & H2 & H3).
        rewrite prekey_create_ok in Hq by done. by injection Hq as <-.
    + by injection Hct as <-.
Qed.

Lemma oneshot_op r d o : oneshot (op_prog C r d o).
Proof.
  destruct o as [pt|m|m]; cbn [op_prog]; apply oneshot_map.
  - unfold encrypt. apply oneshot_bind; [by apply nostore_do|]. intros rec.
    apply oneshot_bind; [apply nostore_lift|]. intros x. by apply oneshot_store.
  - unfold decryptMsg. apply oneshot_bind; [by apply nostore_do|]. intros []; [|done].
    apply oneshot_bind; [by apply nostore_do|]. intros rec.
    apply oneshot_bind; [apply readonly_nostore, readonly_decryptWithSessionRecord|]. intros x. by apply oneshot_store.
  - unfold decryptPkmsg. apply oneshot_bind; [by apply nostore_do|]. intros rec.
    apply oneshot_bind.
    { unfold builder_process. apply nostore_bind; [by apply nostore_do|]. intros []; [|done].
      apply nostore_bind; [apply readonly_nostore, readonly_processV3|]. intros x.
      apply nostore_bind; [by apply nostore_do|done]. }
    intros x. apply oneshot_bind; [apply readonly_nostore, readonly_decryptWithSessionRecord|]. intros y.
    apply oneshot_store. destruct (x.2); [|done]. split; [done|]. intros w. exact I.
Qed.

Lemma run_map {A B} (p : prog A) (f : A -> B) w : run (x ← p; Ret (f x)) w = (f <$> (run p w).1, (run p w).2).
Proof. rewrite run_bind. by destruct (run p w) as [[a|e] w']. Qed.

(** ** C06 *)

Lemma advanced_wf s : ss_wf s -> (next_index (st_senderChain s) + 1 < 2 ^ 32)%N -> ss_wf (advanced s).
Proof.
  intros H Hi. eapply (st_setSenderChainKey_wf (ChainKey 0 (hmac256 C (next_key (st_senderChain s)) [x02]) (next_index (st_senderChain s) + 1)) s); [done|].
  unfold st_setSenderChainKey, ch_putChainKey. cbn [cIndex cKey]. by rewrite set_u32_ok.
Qed.

Lemma loaded_wf w r d rec : session_at w r d = Ok rec -> rec_wf rec.
Proof.
  unfold session_at. destruct (w_sessions w !! (r, d)) as [bs|]; [by apply sr_deserialize_wf|].
  intros [= <-]. split; [exact ss_empty_wf|constructor].
Qed.

Lemma encrypt_ok r d pt w ct w' :
  run (encrypt C r d pt) w = (Ok ct, w') ->
  exists rec, session_at w r d = Ok rec /\ encryptWithState C (sr_state rec) pt = Ok (ct, advanced (sr_state rec)) /\
    session_at w' r d = Ok (SessionRecord false (advanced (sr_state rec)) (sr_previous rec)) /\
    w' = w_set_sessions (<[(r, d) := sr_serialize (sr_setState (advanced (sr_state rec)) rec)]> (w_sessions w)) w.
Proof using Hok.
  intros H. unfold encrypt in H. apply run_bind_ok in H as (rec & w1 & H1 & H).
  rewrite run_do, load_session in H1. injection H1 as H1 <-.
  apply run_bind_ok in H as ([ct' s'] & w1 & H2 & H). apply run_lift_inv in H2 as [H2 ->].
  rewrite run_bind, run_do in H. cbn [step_call fst snd] in H. injection H as -> <-.
  pose proof (encryptWithState_inv _ _ _ _ H2) as (rk & local & remote & _ & _ & Hi & _ & _ & _ & _ & _ & _ & _ & -> & _).
  exists rec. split_and!; [done|done| |done].
  destruct (loaded_wf _ _ _ _ H1) as [Hw1 Hw2].
  rewrite session_stored; [done|]. split; [by apply advanced_wf|done].
Qed.

Lemma enc_attempt r d pt crash w x w' :
  attempt C r d (OEncrypt pt) crash w = (x, w') ->
  (session_at w' r d = session_at w r d /\ forall a, x <> Some (Ok a)) \/
  (exists rec ct, session_at w r d = Ok rec /\ encryptWithState C (sr_state rec) pt = Ok (ct, advanced (sr_state rec)) /\
    session_at w' r d = Ok (SessionRecord false (advanced (sr_state rec)) (sr_previous rec)) /\
    (x = None \/ x = Some (Ok (Encrypted ct)))).
Proof using Hok.
  intros H. pose proof (attempt_cases C r d (OEncrypt pt) crash w (oneshot_op r d _)) as Hc. rewrite H in Hc. cbv zeta in Hc. cbn [fst snd] in Hc.
  destruct Hc as [[H1 H2]|(a & wf & H1 & H2 & H3)].
  - left. split; [|done]. by apply session_at_eq.
  - right. cbn [op_prog] in H1. rewrite run_map in H1. destruct (run (encrypt C r d pt) w) as [[ct|e] wf'] eqn:E; [|done].
    cbn [fst snd] in H1. injection H1 as <- <-. apply encrypt_ok in E as (rec & E1 & E2 & E3 & _).
    exists rec, ct. split_and!; try done. by rewrite <- E3; apply session_at_eq.
Qed.

(** All ciphertexts of a sequence of encryptions belong to the sending chain the first of
    them finds. *)
Definition from_chain (rec : sessionRecord) (pt : bytes) (ct : ciphertextMessage) : Prop :=
  let s := sr_state rec in
  let c := st_senderChain s in
  st_getSenderRatchetKey s = Ok (wRatchetKey (inner ct)) /\ (next_index c <= wCounter (inner ct))%N /\
  wVersion (inner ct) = st_getSessionVersion s /\
  exists local remote, identity_of (ss_localIdentity s) local /\ identity_of (ss_remoteIdentity s) remote /\
  sealed C local remote
    (keys_of C (st_getSessionVersion s) (stepped C (next_key c) (N.to_nat (wCounter (inner ct) - next_index c)))) (inner ct) pt.

Lemma stepped_S k n : stepped C k (S n) = stepped C (hmac256 C k [x02]) n.
Proof. unfold stepped. by rewrite Nat.iter_succ_r. Qed.

Lemma from_chain_next rec pt ct f :
  from_chain (SessionRecord f (advanced (sr_state rec)) (sr_previous rec)) pt ct ->
  from_chain rec pt ct /\ (next_index (st_senderChain (sr_state rec)) < wCounter (inner ct))%N.
Proof.
  unfold from_chain. cbn [sr_state]. intros (H1 & H2 & H3 & local & remote & H4 & H5 & H6).
  set (s := sr_state rec) in *. 
  assert (next_index (st_senderChain (advanced s)) = next_index (st_senderChain s) + 1)%N as E1 by done.
  assert (next_key (st_senderChain (advanced s)) = hmac256 C (next_key (st_senderChain s)) [x02]) as E2 by done.
  rewrite E1 in *. rewrite E2 in *.
  split; [|lia]. split_and!; [done|lia|done|].
  exists local, remote. split_and!; [done..|].
  replace (N.to_nat (wCounter (inner ct) - next_index (st_senderChain s)))
    with (S (N.to_nat (wCounter (inner ct) - (next_index (st_senderChain s) + 1)))) by lia.
  by rewrite stepped_S.
Qed.

Lemma history_cons r d o crash l w :
  (history C r d ((o, crash) :: l) w).1 = (attempt C r d o crash w).1 :: (history C r d l (attempt C r d o crash w).2).1.
Proof. cbn [history]. destruct (attempt C r d o crash w) as [x w1]. cbn. by destruct (history C r d l w1). Qed.

Lemma history_length r d l w : length (history C r d l w).1 = length l.
Proof.
  revert w. induction l as [|[o crash] l IH]; intros w; [done|]. rewrite history_cons. cbn. by rewrite IH.
Qed.

Lemma enc_history r d l : forall w j pt crash ct,
  l !! j = Some (pt, crash) -> (history C r d (enc_ops l) w).1 !! j = Some (Some (Ok (Encrypted ct))) ->
  exists rec, session_at w r d = Ok rec /\ from_chain rec pt ct.
Proof using Hok.
  induction l as [|[pt0 crash0] l IH]; intros w j pt crash ct Hl Hh; [done|].
  change (enc_ops ((pt0, crash0) :: l)) with ((OEncrypt pt0, crash0) :: enc_ops l) in Hh. rewrite history_cons in Hh.
  destruct (attempt C r d (OEncrypt pt0) crash0 w) as [x w1] eqn:E. apply enc_attempt in E. cbn [fst snd] in Hh.
  destruct j as [|j]; cbn in Hl, Hh.
  - injection Hl as -> ->. injection Hh as ->.
    destruct E as [[_ E]|(rec & ct' & E1 & E2 & _ & [E|E])]; [by destruct (E (Encrypted ct))|done|]. injection E as <-.
    exists rec. split; [done|]. apply encryptWithState_inv in E2 as (rk & local & remote & H1 & H2 & H3 & H4 & H5 & H6 & H7 & H8 & H9 & _).
    unfold from_chain. cbv zeta. rewrite H8. split_and!; [congruence|done|done|]. exists local, remote. split_and!; [done..|].
    by rewrite N.sub_diag.
  - destruct (IH _ _ _ _ _ Hl Hh) as (rec1 & G1 & G2).
    destruct E as [[E _]|(rec & ct' & E1 & E2 & E3 & _)]; [rewrite E in G1; eauto|].
    rewrite E3 in G1. injection G1 as <-. apply from_chain_next in G2 as [G2 _]. eauto.
Qed.

Lemma enc_increasing r d l : forall w i j ci cj,
  i < j -> (history C r d (enc_ops l) w).1 !! i = Some (Some (Ok (Encrypted ci))) ->
  (history C r d (enc_ops l) w).1 !! j = Some (Some (Ok (Encrypted cj))) ->
  wRatchetKey (inner ci) = wRatchetKey (inner cj) /\ (wCounter (inner ci) < wCounter (inner cj))%N.
Proof using Hok.
  induction l as [|[pt0 crash0] l IH]; intros w i j ci cj Hij Hi Hj; [done|].
  destruct j as [|j]; [lia|].
  pose proof (enc_history r d ((pt0, crash0) :: l) w i) as Hhi.
  change (enc_ops ((pt0, crash0) :: l)) with ((OEncrypt pt0, crash0) :: enc_ops l) in *. rewrite history_cons in *.
  destruct (attempt C r d (OEncrypt pt0) crash0 w) as [x w1] eqn:E. apply enc_attempt in E. cbn [fst snd] in *.
  destruct i as [|i]; cbn in Hi, Hj; [|eapply (IH w1 i j); [lia|done|done]].
  injection Hi as ->. destruct E as [[_ E]|(rec & ct' & E1 & E2 & E3 & [E|E])]; [by destruct (E (Encrypted ci))|done|]. injection E as <-.
  assert (exists y, l !! j = Some y) as ([pt crash] & Hl).
  { apply lookup_lt_is_Some. assert (j < length (history C r d (enc_ops l) w1).1) as Hlt by (by eapply lookup_lt_Some).
    rewrite history_length in Hlt. unfold enc_ops in Hlt. by rewrite fmap_length in Hlt. }
  destruct (enc_history r d l w1 j pt crash cj Hl Hj) as (rec1 & G1 & G2). rewrite E3 in G1. injection G1 as <-.
  apply from_chain_next in G2 as [(G2 & _) G3].
  apply encryptWithState_inv in E2 as (rk & local & remote & H1 & H2 & H3 & H4 & H5 & H6 & H7 & H8 & _). split; [congruence|lia].
Qed.

Lemma from_chain_sending rec pt ct : from_chain rec pt ct -> from_sending C (sr_state rec) pt ct.
Proof.
  intros (H1 & H2 & H3 & local & remote & H4 & H5 & H6). unfold st_getSenderRatchetKey, st_senderChain in *.
  destruct (ss_senderChain (sr_state rec)) as [c|] eqn:Ec; [|done]. rewrite default_Some in *.
  exists c, (st_getSessionVersion (sr_state rec)), local, remote. split_and!; try done.
  - by apply chain_of_iff.
  - by apply version_of_iff.
Qed.

Lemma enc_sending r d l w j pt crash ct :
  l !! j = Some (pt, crash) -> (history C r d (enc_ops l) w).1 !! j = Some (Some (Ok (Encrypted ct))) ->
  exists rec, session_at w r d = Ok rec /\ from_sending C (sr_state rec) pt ct.
Proof using Hok.
  intros H1 H2. destruct (enc_history _ _ _ _ _ _ _ _ H1 H2) as (rec & H3 & H4). eauto using from_chain_sending.
Qed.

(** ** C15 *)

Lemma asAlice_fields w id base a b c e s w' :
  run (initializeSessionAsAlice C st_new id base a b c e) w = (Ok s, w') ->
  ss_localIdentity s = Some (x05 :: kp_pub id) /\ ss_pendingPreKey s = None.
Proof.
  intros H. unfold initializeSessionAsAlice in H. apply run_bind_ok in H as (ek & w1 & _ & H). apply run_lift_inv in H as [H _].
  do 4 (apply bind_ok_inv in H as (? & _ & H)).
  destruct (calculateDerivedKeys C _) as [rk ck].
  apply bind_ok_inv in H as (? & _ & H). apply bind_ok_inv in H as (s1 & H1 & H). apply bind_ok_inv in H as (s2 & H2 & [= <-]).
  unfold st_addReceiverChain in H1. unfold st_setSenderChain in H2.
  repeat (apply bind_ok_inv in H1 as (? & _ & H1)). repeat (apply bind_ok_inv in H2 as (? & _ & H2)).
  injection H1 as <-. injection H2 as <-. done.
Qed.

(** A session that still has to name the bundle. *)
Definition unanswered (pp : pp_s) (local : option bytes) (reg : option N) (rec : sessionRecord) : Prop :=
  ss_pendingPreKey (sr_state rec) = Some pp /\ ss_localIdentity (sr_state rec) = local /\ ss_localRegId (sr_state rec) = reg.

Lemma bundle_unanswered r d b w w' :
  stored_ok loaded_inv w -> run (processPreKeyBundle C r d b) w = (Ok tt, w') ->
  exists base rec, length base = 32 /\ session_at w' r d = Ok rec /\ 
   (bu_signedPreKeyId b < 2 ^ 31)%N /\
   ss_aliceBaseKey (sr_state rec) = Some (x05 :: base) /\
   unanswered (PpS (match bu_preKey b with Some _ => bu_preKeyId b | None => None end) (Some (x05 :: base)) (Some (Z.of_N (bu_signedPreKeyId b))))
    (Some (x05 :: kp_pub (w_identity w))) (Some (w_regid w)) rec.
Proof using Hok.
  intros Hw H. unfold processPreKeyBundle in H.
  apply run_bind_ok in H as (t & w0 & H0 & H). rewrite run_do in H0. injection H0 as _ <-. destruct t; [|done].
  destruct (bu_signedPreKey b) as [spk|]; [|done].
  apply run_bind_ok in H as (t & w0 & H0 & H). rewrite run_lift in H0. injection H0 as _ <-. destruct t; [|done].
  apply run_bind_ok in H as (rec & w0 & H0 & H). rewrite run_do, load_session in H0. injection H0 as Hrec <-.
  apply run_bind_ok in H as (base & w1 & Hbase & H).
  assert (same_stores w w1) as S1 by (by eapply run_readonly_eq; [apply readonly_generateKeyPair|]).
  rewrite (run_generateKeyPair C Hok) in Hbase. injection Hbase as <- Hw1.
  apply run_bind_ok in H as (id & w2 & H0' & H). rewrite run_do in H0'. injection H0' as <- <-.
  pose proof (Hw _ _ _ Hrec) as Hl. pose proof (stored_same _ _ S1 Hw) as Hws.
  apply run_bind_ok in H as (s & w2 & Hs & H). pose proof Hs as Hs'.
  apply (run_keeps_ok _ good) in Hs as (Hg & Hw2 & S2);
    [|by apply spec_asAlice, good0_archived|apply readonly_initializeSessionAsAlice|done].
  rewrite (archived_state _ _ _ _ Hrec) in Hs'. apply asAlice_fields in Hs' as (F1 & F2).
  apply run_bind_ok in H as (s1 & w3 & Hs1 & H). rewrite run_lift in Hs1. injection Hs1 as Hs1 <-.
  apply run_bind_ok in H as (reg & w3 & Hr & H). rewrite run_do in Hr. injection Hr as <- <-.
  apply run_bind_ok in H as (s2 & w3 & Hs2 & H). rewrite run_lift in Hs2. injection Hs2 as Hs2 <-.
  apply run_bind_ok in H as (s3 & w3 & Hs3 & H). rewrite run_lift in Hs3. injection Hs3 as Hs3 <-.
  rewrite run_bind, run_do in H. cbn [step_call] in H. rewrite run_do in H. injection H as <-.
  set (kb := kp_at C w (w_pos w)) in *.
  set (s4 := st_setAliceBaseKey (pub_serialize (kp_pub kb)) s3) in *.
  assert (good s4) as Hg3.
  { destruct Hg as [Hs Hi]. split.
    - apply st_setAliceBaseKey_wf. eapply st_setRemoteRegistrationId_wf; [|done]. eapply st_setLocalRegistrationId_wf; [|done].
      by eapply st_setUnacknowledgedPreKeyMessage_wf.
    - unfold s4. apply bind_ok_inv in Hs3 as (? & _ & [= <-]). apply bind_ok_inv in Hs2 as (? & _ & [= <-]).
      apply bind_ok_inv in Hs1 as (? & _ & Hs1). by apply bind_ok_inv in Hs1 as (? & _ & [= <-]). }
  exists (kp_pub kb). eexists. split; [apply kp_at_ok, Hok|]. split.
  { apply session_stored. eapply proj1. eapply good_set; [|exact Hg3]. apply record_inv_archive, Hl. }
  cbn [sr_state sr_setState].
  assert (w_regid w2 = w_regid w /\ w_identity w1 = w_identity w) as [R1 R2].
  { destruct S1 as (?&?&?&?&?&?&?&?), S2 as (?&?&?&?&?&?&?&?). split; congruence. }
  unfold st_setUnacknowledgedPreKeyMessage in Hs1. cbv zeta in Hs1.
  apply bind_ok_inv in Hs1 as (z & Hz & Hs1). apply bind_ok_inv in Hs1 as (p & Hp & [= <-]).
  apply bind_ok_inv in Hs2 as (reg & [-> _]%set_u32_inv & [= <-]).
  apply bind_ok_inv in Hs3 as (reg' & _ & [= <-]). cbn [step_call fst] in *.
  assert (z = Z.of_N (bu_signedPreKeyId b) /\ (bu_signedPreKeyId b < 2 ^ 31)%N) as [-> Hlt].
  { revert Hz. unfold set_i32. destruct (N.ltb_spec (bu_signedPreKeyId b) (2 ^ 31)); [|done]. by intros [= <-]. }
  split; [done|]. split; [done|].
  unfold unanswered. rewrite <- R1, <- R2. split_and!; try done.
  cbn [ss_pendingPreKey ss_set_pendingPreKey s4 st_setAliceBaseKey]. f_equal.
  rewrite F2 in Hp. 
  destruct (match bu_preKey b with Some _ => bu_preKeyId b | None => None end) as [i|] eqn:Ei.
  - apply bind_ok_inv in Hp as (i' & [-> _]%set_u32_inv & [= <-]). done.
  - by injection Hp as <-.
Qed.

Lemma run_crash_map {A B} n (p : prog A) (f : A -> B) w : (run_crash n (x ← p; Ret (f x)) w).2 = (run_crash n p w).2.
Proof.
  revert n w. induction p as [a|e|R c k IH]; intros n w; [done..|]. 
  change (x ← Call c k; Ret (f x)) with (Call c (fun y => x ← k y; Ret (f x))). cbn [run_crash].
  destruct n as [|n]; [done|]. destruct (step_call c w) as [y w1]. apply IH.
Qed.

Lemma attempt_reachable r d o crash w : reachable C w -> reachable C (attempt C r d o crash w).2.
Proof.
  intros Hr. eapply reachable_step; [exact Hr|].
  set (a := match o with OEncrypt pt => AEncrypt r d pt | OMsg m => AMsg r d m | OPkmsg m => APkmsg r d m end).
  unfold attempt. destruct crash as [n|].
  - assert ((run_crash n (op_prog C r d o) w).2 = (run_crash n (api C a) w).2) as ->; [|constructor].
    destruct o; unfold a; cbn [op_prog api]; by rewrite !run_crash_map.
  - assert ((run (op_prog C r d o) w).2 = (run (api C a) w).2) as E.
    { destruct o; unfold a; cbn [op_prog api]; by rewrite !run_map. }
    destruct (run (op_prog C r d o) w) as [x w']. cbn [snd] in *. rewrite E. constructor.
Qed.

Lemma decrypted_answered rec m pt rec' : decrypted C rec m pt rec' -> ss_pendingPreKey (sr_state rec') = None.
Proof.
  intros (j & s & ek & s' & Hj & Hd & ->).
  apply decryptPure_ok_inv in Hd as (_ & _ & kdf & c & i & s1 & c' & _ & _ & _ & _ & ->).
  by destruct j.
Qed.

Lemma received_answered r d o w x w' :
  reachable C w -> receives o -> run (op_prog C r d o) w = (Ok x, w') ->
  exists rec, session_at w' r d = Ok rec /\ ss_pendingPreKey (sr_state rec) = None.
Proof.
  intros Hr%reachable_inv Ho H. destruct o as [pt|m|m]; [done|..]; cbn [op_prog] in H; rewrite run_map in H.
  - destruct (run (decryptMsg C r d m) w) as [[pt|e] w1] eqn:E; [|done]. cbn [fst snd] in H. injection H as _ <-.
    apply decryptMsg_ok in E as (rec & rec' & _ & Hrec & Hd & w2 & _ & ->).
    pose proof (decrypted_inv C _ _ _ _ (proj1 (Hr _ _ _ Hrec)) Hd) as [Hwf _].
    eexists. split; [by apply session_stored|]. exact (decrypted_answered _ _ _ _ Hd).
  - destruct (run (decryptPkmsg C r d m) w) as [[pt|e] w1] eqn:E; [|done]. cbn [fst snd] in H. injection H as _ <-.
    apply decryptPkmsg_ok in E as (rec & rec1 & used & v1 & rec2 & w2 & Hrec & _ & HV & _ & Hd & _ & ->).
    pose proof (pspec_run _ _ _ _ _ (pspec_decryptWithSessionRecord C _ _ rec1 (pMessage m)) Hd) as Hdec. cbn [fst snd] in Hdec.
    pose proof (processV3_inv C _ _ _ _ _ _ Hr (Hr _ _ _ Hrec) HV) as Hi1.
    pose proof (decrypted_inv C _ _ _ _ Hi1 Hdec) as [Hwf _].
    exists (SessionRecord false (sr_state rec2) (sr_previous rec2)). split; [|exact (decrypted_answered _ _ _ _ Hdec)].
    pose proof (session_stored w2 r d rec2 Hwf) as Hss. by destruct used.
Qed.

(** Once answered, always answered. *)
Lemma answered_attempt r d o crash w x w' rec :
  reachable C w -> session_at w r d = Ok rec -> ss_pendingPreKey (sr_state rec) = None ->
  attempt C r d o crash w = (x, w') ->
  (exists rec', session_at w' r d = Ok rec' /\ ss_pendingPreKey (sr_state rec') = None) /\
  (forall ct, x = Some (Ok (Encrypted ct)) -> exists m, ct = CTWhisper m).
Proof using Hok.
  intros Hr Hrec Hp H. destruct o as [pt|m|m].
  - apply enc_attempt in H as [[H1 H2]|(rec0 & ct & H1 & H2 & H3 & H4)].
    + rewrite H1. split; [eauto|]. intros ct ->. by destruct (H2 (Encrypted ct)).
    + rewrite Hrec in H1. injection H1 as <-. split; [eauto|].
      apply encryptWithState_inv in H2 as (rk & local & remote & _ & _ & _ & _ & _ & _ & _ & _ & _ & _ & _ & H2). rewrite Hp in H2.
      intros ct' ->. destruct H4 as [H4|[= ->]]; [done|eauto].
  - pose proof (attempt_cases C r d (OMsg m) crash w (oneshot_op r d _)) as Hc. rewrite H in Hc. cbv zeta in Hc. cbn [fst snd] in Hc.
    destruct Hc as [[H1 H2]|(a & wf & H1 & H2 & H3)].
    + rewrite (session_at_eq _ _ _ _ H1). split; [eauto|]. intros ct ->. by destruct (H2 (Encrypted ct)).
    + rewrite (session_at_eq _ _ _ _ H2). split; [by eapply (received_answered r d (OMsg m))|].
      cbn [op_prog] in H1. rewrite run_map in H1. destruct (run (decryptMsg C r d m) w) as [[pt|e] w1]; [|done].
      injection H1 as <- _. intros ct ->. by destruct H3.
  - pose proof (attempt_cases C r d (OPkmsg m) crash w (oneshot_op r d _)) as Hc. rewrite H in Hc. cbv zeta in Hc. cbn [fst snd] in Hc.
    destruct Hc as [[H1 H2]|(a & wf & H1 & H2 & H3)].
    + rewrite (session_at_eq _ _ _ _ H1). split; [eauto|]. intros ct ->. by destruct (H2 (Encrypted ct)).
    + rewrite (session_at_eq _ _ _ _ H2). split; [by eapply (received_answered r d (OPkmsg m))|].
      cbn [op_prog] in H1. rewrite run_map in H1. destruct (run (decryptPkmsg C r d m) w) as [[pt|e] w1]; [|done].
      injection H1 as <- _. intros ct ->. by destruct H3.
Qed.

Lemma answered_history r d l : forall w rec j ct,
  reachable C w -> session_at w r d = Ok rec -> ss_pendingPreKey (sr_state rec) = None ->
  (history C r d l w).1 !! j = Some (Some (Ok (Encrypted ct))) -> exists m, ct = CTWhisper m.
Proof using Hok.
  induction l as [|[o crash] l IH]; intros w rec j ct Hr Hrec Hp Hj; [done|]. rewrite history_cons in Hj.
  pose proof (attempt_reachable r d o crash w Hr) as Hr'.
  destruct (attempt C r d o crash w) as [x w1] eqn:E.
  destruct (answered_attempt _ _ _ _ _ _ _ _ Hr Hrec Hp E) as [(rec' & H1 & H2) H3]. cbn [fst snd] in *.
  destruct j as [|j]; [injection Hj as ->; by apply H3|]. by eapply IH.
Qed.

Lemma plain_after_answer r d l : forall w i j o crash x ct,
  reachable C w -> i < j -> l !! i = Some (o, crash) -> receives o ->
  (history C r d l w).1 !! i = Some (Some (Ok x)) -> (history C r d l w).1 !! j = Some (Some (Ok (Encrypted ct))) ->
  exists m, ct = CTWhisper m.
Proof using Hok.
  induction l as [|[o0 crash0] l IH]; intros w i j o crash x ct Hr Hij Hl Ho Hi Hj; [done|]. rewrite history_cons in *.
  pose proof (attempt_reachable r d o0 crash0 w Hr) as Hr'.
  pose proof (attempt_cases C r d o0 crash0 w (oneshot_op r d _)) as Hc. cbv zeta in Hc.
  destruct (attempt C r d o0 crash0 w) as [y w1] eqn:E. cbn [fst snd] in *.
  destruct j as [|j]; [lia|]. cbn in Hj. destruct i as [|i]; cbn in Hl, Hi.
  - injection Hl as -> ->. injection Hi as ->. destruct Hc as [[_ Hc]|(a & wf & H1 & H2 & H3)]; [by destruct (Hc x)|].
    apply received_answered in H1 as (rec & H4 & H5); [|done|done]. eapply (answered_history r d l w1 rec j); [done| |done|done].
    by rewrite (session_at_eq _ _ _ _ H2).
  - eapply (IH w1 i j); [done|lia|done..].
Qed.

(** Until then the bundle is named. *)
Lemma named_until r d pp key reg base sid : 
  pp_baseKey pp = Some (x05 :: base) -> length base = 32 -> pp_signedPreKeyId pp = Some (Z.of_N sid) -> length key = 32 ->
  forall l w rec j ct,
  session_at w r d = Ok rec -> unanswered pp (Some (x05 :: key)) (Some reg) rec ->
  (forall i o crash, i < j -> l !! i = Some (o, crash) -> receives o ->
     exists e, (history C r d l w).1 !! i = Some (Some (Err e))) ->
  (history C r d l w).1 !! j = Some (Some (Ok (Encrypted ct))) ->
  names ct (pp_preKeyId pp) sid base key reg.
Proof using Hok.
  intros Hb Hbl Hs Hkl l. induction l as [|[o crash] l IH]; intros w rec j ct Hrec (U1 & U2 & U3) Hbefore Hj; [done|].
  rewrite history_cons in *. destruct (attempt C r d o crash w) as [x w1] eqn:E. cbn [fst snd] in *.
  destruct o as [pt|m|m].
  { apply enc_attempt in E as [[E1 E2]|(rec0 & ct0 & E1 & E2 & E3 & E4)].
    - destruct j as [|j]; cbn in Hj; [injection Hj as ->; by destruct (E2 (Encrypted ct))|].
      eapply (IH w1 rec j ct); [congruence|by split_and!| |done].
      intros i o cr Hi Hl Ho. by apply (Hbefore (S i) o cr); [lia|..].
    - rewrite Hrec in E1. injection E1 as <-. destruct j as [|j]; cbn in Hj.
      + injection Hj as ->. destruct E4 as [E4|[= ->]]; [done|].
        apply encryptWithState_inv in E2 as (rk & local & remote & _ & _ & _ & Hloc & _ & _ & _ & _ & _ & _ & _ & E2).
        rewrite U1 in E2. destruct E2 as (base' & sid' & D1 & D2 & D3 & _).
        assert (base' = base) as ->.
        { rewrite Hb, default_Some in D1. change (x05 :: base) with (pub_serialize base) in D1.
          rewrite decodePoint_serialize in D1 by lia. by injection D1. }
        assert (sid' = sid) as ->.
        { rewrite Hs, default_Some in D2. unfold z_to_u32 in D2. destruct (Z.of_N sid <? 0)%Z; [done|]. injection D2 as D2. lia. }
        assert (local = key) as ->.
        { destruct Hloc as (t & Ht & ->). rewrite U2 in Ht. injection Ht as <-. by rewrite take_ge by lia. }
        by rewrite U3 in D3.
      + eapply (IH w1 _ j ct); [exact E3| | |done].
        * by split_and!.
        * intros i o cr Hi Hl Ho. by apply (Hbefore (S i) o cr); [lia|..]. }
  all: destruct j as [|j]; cbn in Hj.
  all: try (injection Hj as ->; apply (f_equal fst) in E; cbn [fst] in E;
    match type of E with (attempt _ ?r' ?d' ?o ?cr ?v).1 = _ =>
      pose proof (attempt_cases C r' d' o cr v (oneshot_op r' d' _)) as Hc end; cbv zeta in Hc; rewrite E in Hc;
    destruct Hc as [[_ Hc]|(a & wf & H1 & _ & [H3|H3])]; [by destruct (Hc (Encrypted ct))|done|];
    injection H3 as <-; cbn [op_prog] in H1; rewrite run_map in H1; match type of H1 with context [run ?p ?v] => by destruct (run p v) as [[]] end).
  all: destruct (Hbefore 0 _ _ (Nat.lt_0_succ _) eq_refl I) as (e & He); cbn in He; injection He as ->;
    match type of E with attempt _ ?r' ?d' ?o ?cr ?v = _ =>
      pose proof (attempt_cases C r' d' o cr v (oneshot_op r' d' _)) as Hc end; cbv zeta in Hc; rewrite E in Hc; cbn [fst snd] in Hc;
    destruct Hc as [[Hc _]|(a & wf & H1 & _ & [H3|H3])]; [|done|done];
    eapply (IH w1 rec j ct); [by rewrite (session_at_eq _ _ _ _ Hc)|by split_and!| |done];
    intros i o cr Hi Hl Ho; by apply (Hbefore (S i) o cr); [lia|..].
Qed.

Lemma bundle_named r d b w w1 :
  reachable C w -> length (kp_pub (w_identity w)) = 32 -> run (processPreKeyBundle C r d b) w = (Ok tt, w1) ->
  exists base, length base = 32 /\ forall l j ct,
  (forall i o crash, i < j -> l !! i = Some (o, crash) -> receives o ->
     exists e, (history C r d l w1).1 !! i = Some (Some (Err e))) ->
  (history C r d l w1).1 !! j = Some (Some (Ok (Encrypted ct))) ->
  names ct (match bu_preKey b with Some _ => bu_preKeyId b | None => None end) (bu_signedPreKeyId b) base
    (kp_pub (w_identity w)) (w_regid w).
Proof using Hok.
  intros Hr%reachable_inv Hid H. apply bundle_unanswered in H as (base & rec & H1 & H2 & H3 & H4 & H5); [|done].
  exists base. split; [done|]. intros l j ct Hb Hj. match type of H5 with unanswered ?pp _ _ _ =>
    eapply (named_until r d pp (kp_pub (w_identity w)) (w_regid w) base (bu_signedPreKeyId b) eq_refl H1 eq_refl Hid l w1 rec j ct);
    done end.
Qed.

(** ** C45 *)


Lemma pair_done1 {A B} l (p : prog A) (q : prog B) w :
  match p with Call _ _ => False | _ => True end ->
  run_pair l p q w = ((run p w).1, (run q w).1, (run q w).2).
Proof.
  revert q w. induction l as [|[] l IH]; intros q w Hp; cbn [run_pair].
  - destruct p; [..|done]; cbn [run]; by destruct (run q w).
  - destruct p; [..|done]; by apply IH.
  - destruct q as [b|e|R c k]; [by apply IH..|]. cbn [run]. destruct (step_call c w) as [x w1]. rewrite IH by done.
    by destruct p.
Qed.
Lemma pair_done2 {A B} l (p : prog A) (q : prog B) w :
  match q with Call _ _ => False | _ => True end ->
  run_pair l p q w = ((run p w).1, (run q w).1, (run p w).2).
Proof.
  revert p w. induction l as [|[] l IH]; intros p w Hq; cbn [run_pair].
  - destruct (run p w) as [a w1]. by destruct q.
  - destruct p as [b|e|R c k]; [by apply IH..|]. cbn [run]. destruct (step_call c w) as [x w1]. rewrite IH by done.
    by destruct q.
  - destruct q; [..|done]; by apply IH.
Qed.

(** At most two outside calls. *)
Definition two_calls {A} (p : prog A) : Prop :=
  match p with
  | Call c k => forall x, match k x with Call c' k' => forall y, match k' y with Call _ _ => False | _ => True end | _ => True end
  | _ => True
  end.
Lemma encrypt_two r d pt : two_calls (encrypt C r d pt).
Proof.
  unfold encrypt. intros [rec|e]; [|done]. cbn. destruct (encryptWithState C (sr_state rec) pt) as [x|e]; [|done]. cbn.
  by intros [[]|e].
Qed.

Lemma pair_apart {A B} l (p : prog A) (q : prog B) w :
  two_calls p -> two_calls q -> apart l ->
  (let x := run p w in let y := run q x.2 in run_pair l p q w = (x.1, y.1, y.2)) \/
  (let y := run q w in let x := run p y.2 in run_pair l p q w = (x.1, y.1, x.2)).
Proof.
  intros Hp Hq [| |l'|l'].
  - left. cbn [run_pair]. destruct (run p w) as [a w1]. cbn. by destruct (run q w1).
  - left. cbn [run_pair]. destruct p as [a|e|R c k]; cbn [run].
    + cbn. by destruct (run q w).
    + cbn. by destruct (run q w).
    + destruct (step_call c w) as [x w1]. cbn [run]. destruct (run (k x) w1) as [a w2]. cbn. by destruct (run q w2).
  - left. cbn [run_pair]. destruct p as [a|e|R c k]; [by rewrite pair_done1..|]. specialize (Hp (step_call c w).1). cbn [run].
    destruct (step_call c w) as [x w1]. cbn [fst] in Hp.
    destruct (k x) as [a|e|R' c' k']; [by rewrite pair_done1..|]. specialize (Hp (step_call c' w1).1). cbn [run].
    destruct (step_call c' w1) as [y w2]. cbn [fst] in Hp. rewrite pair_done1 by done. by destruct (k' y).
  - right. cbn [run_pair]. destruct q as [a|e|R c k]; [by rewrite pair_done2..|]. specialize (Hq (step_call c w).1). cbn [run].
    destruct (step_call c w) as [x w1]. cbn [fst] in Hq.
    destruct (k x) as [a|e|R' c' k']; [by rewrite pair_done2..|]. specialize (Hq (step_call c' w1).1). cbn [run].
    destruct (step_call c' w1) as [y w2]. cbn [fst] in Hq. rewrite pair_done2 by done. by destruct (k' y).
Qed.

Lemma encrypt_twice r d p1 p2 w c1 w1 c2 w2 :
  run (encrypt C r d p1) w = (Ok c1, w1) -> run (encrypt C r d p2) w1 = (Ok c2, w2) ->
  wRatchetKey (inner c1) = wRatchetKey (inner c2) /\ (wCounter (inner c1) < wCounter (inner c2))%N.
Proof using Hok.
  intros (rec & H1 & H2 & H3 & _)%encrypt_ok (rec' & H4 & H5 & _)%encrypt_ok. rewrite H3 in H4. injection H4 as <-.
  apply encryptWithState_inv in H2 as (rk & ? & ? & _ & R1 & _ & _ & _ & W1 & _ & W2 & _).
  apply encryptWithState_inv in H5 as (rk' & ? & ? & _ & R1' & _ & _ & _ & W1' & _ & W2' & _). cbn [sr_state] in *.
  assert (st_getSenderRatchetKey (advanced (sr_state rec)) = st_getSenderRatchetKey (sr_state rec)) as E by done.
  assert (next_index (st_senderChain (advanced (sr_state rec))) = next_index (st_senderChain (sr_state rec)) + 1)%N as E' by done.
  split; [congruence|lia].
Qed.

Lemma encrypt_apart r d p1 p2 l w c1 c2 w' :
  apart l -> run_pair l (encrypt C r d p1) (encrypt C r d p2) w = (Ok c1, Ok c2, w') ->
  wCounter (inner c1) <> wCounter (inner c2).
Proof using Hok.
  intros Hl H. destruct (pair_apart l (encrypt C r d p1) (encrypt C r d p2) w) as [E|E]; [apply encrypt_two..|done| |]; cbv zeta in E; rewrite H in E.
  - destruct (run (encrypt C r d p1) w) as [a w1] eqn:E1. cbn [fst snd] in E. destruct (run (encrypt C r d p2) w1) as [b w2] eqn:E2.
    injection E as <- <- <-. destruct (encrypt_twice _ _ _ _ _ _ _ _ _ E1 E2). lia.
  - destruct (run (encrypt C r d p2) w) as [b w1] eqn:E1. cbn [fst snd] in E. destruct (run (encrypt C r d p1) w1) as [a w2] eqn:E2.
    injection E as <- <- <-. destruct (encrypt_twice _ _ _ _ _ _ _ _ _ E1 E2). lia.
Qed.

(** The result is fixed. *)
Fixpoint yields {A} (p : prog A) (o : res A) : Prop :=
  match p with
  | Ret a => o = Ok a
  | Raise e => o = Err e
  | Call c k => forall w, yields (k (step_call c w).1) o
  end.
Lemma yields_run {A} (p : prog A) o w : yields p o -> (run p w).1 = o.
Proof.
  revert w. induction p as [a|e|R c k IH]; intros w; [by intros ->..|]. intros H. specialize (H w). cbn [run].
  destruct (step_call c w) as [x w1]. by apply IH.
Qed.
Lemma pair_yields {A B} l (p : prog A) (q : prog B) a b w : yields p a -> yields q b -> (run_pair l p q w).1 = (a, b).
Proof.
  revert p q w. induction l as [|[] l IH]; intros p q w Hp Hq; cbn [run_pair].
  - pose proof (yields_run _ _ w Hp) as E1. destruct (run p w) as [x w1]. cbn in E1. subst x.
    pose proof (yields_run _ _ w1 Hq) as E2. destruct (run q w1) as [x w2]. cbn in E2. by subst x.
  - destruct p as [x|e|R c k]; [by apply IH..|]. specialize (Hp w). destruct (step_call c w) as [x w1]. by apply IH.
  - destruct q as [x|e|R c k]; [by apply IH..|]. specialize (Hq w). destruct (step_call c w) as [x w1]. by apply IH.
Qed.

Definition after_load r d pt (o : res sessionRecord) : prog ciphertextMessage :=
  rec ← lift o; x ← lift (encryptWithState C (sr_state rec) pt); _ ← do (CStoreSession r d (sr_setState x.2 rec)); Ret x.1.
Lemma encrypt_load r d pt : encrypt C r d pt = Call (CLoadSession r d) (after_load r d pt).
Proof. done. Qed.
Lemma after_load_yields r d pt rec : yields (after_load r d pt (Ok rec)) (x ← encryptWithState C (sr_state rec) pt; Ok x.1).
Proof. unfold after_load. cbn. destruct (encryptWithState C (sr_state rec) pt); done. Qed.

Lemma encrypt_both r d p1 p2 l w c1 c2 w' :
  ~ apart l -> run_pair l (encrypt C r d p1) (encrypt C r d p2) w = (Ok c1, Ok c2, w') ->
  wRatchetKey (inner c1) = wRatchetKey (inner c2) /\ wCounter (inner c1) = wCounter (inner c2).
Proof using Hok.
  intros Hl H.
  assert (exists rec, session_at w r d = Ok rec /\ exists s1 s2, encryptWithState C (sr_state rec) p1 = Ok (c1, s1) /\
            encryptWithState C (sr_state rec) p2 = Ok (c2, s2)) as (rec & _ & s1 & s2 & E1 & E2).
  { assert (forall l' w0, run_pair l' (after_load r d p1 (session_at w r d)) (after_load r d p2 (session_at w r d)) w0 = (Ok c1, Ok c2, w') ->
      exists rec, session_at w r d = Ok rec /\ exists s1 s2, encryptWithState C (sr_state rec) p1 = Ok (c1, s1) /\
            encryptWithState C (sr_state rec) p2 = Ok (c2, s2)) as Hboth.
    { intros l' w0 H'. destruct (session_at w r d) as [rec|e].
      - exists rec. split; [done|]. pose proof (pair_yields l' _ _ _ _ w0 (after_load_yields r d p1 rec) (after_load_yields r d p2 rec)) as E.
        rewrite H' in E. cbn [fst] in E. injection E as Ea Eb. symmetry in Ea, Eb.
        apply bind_ok_inv in Ea as ([x s1] & Ea & [= <-]). apply bind_ok_inv in Eb as ([y s2] & Eb & [= <-]). eauto.
      - exfalso. revert H'. unfold after_load. cbn. rewrite pair_done1 by done. done. }
    rewrite !encrypt_load in H.
    destruct l as [|[] [|[] l]]; try (by destruct Hl; constructor); cbn [run_pair] in H.
    - rewrite !load_session in H. by apply (Hboth l w).
    - cbn [run] in H. rewrite !load_session in H. by apply (Hboth [] w).
    - rewrite !load_session in H. by apply (Hboth l w). }
  apply encryptWithState_inv in E1 as (rk & ? & ? & _ & R1 & _ & _ & _ & W1 & _ & W2 & _).
  apply encryptWithState_inv in E2 as (rk' & ? & ? & _ & R1' & _ & _ & _ & W1' & _ & W2' & _).
  split; congruence.
Qed.
End encrypt.
