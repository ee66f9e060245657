(** What stays secret when the storage is read: C91, C92. *)
From Verif Require Import PyBase Wire Protos ProtoFacts Crypto Ecc Kdf Messages State Prog Ratchet Builder Cipher Groups.
From Verif Require Import ProgFacts StateFacts UtilFacts HelperFacts MsgFacts CipherFacts DecryptFacts SpecSession SessionProofs LockoutProofs.
From Verif Require Import SpecUtil SpecApi InvFacts HistoryProofs ArchiveProofs SpecKeys KeyProofs HandshakeFacts SpecEncrypt EncryptProofs FreshProofs SpecRatchet RatchetProofs.
From Verif Require Import SpecGroup SpecGroupHist SpecGroupStep GroupFacts GroupEffects SpecSetup SetupEffects SpecSecret.

Section secret.
Context (C : crypto) (Hok : crypto_ok C).

(** ** Sending *)

(** Two states that differ at most in the key of the sending chain, which has the same
    successor. *)
Definition enc_same (s s' : ss_s) : Prop :=
  ss_set_senderChain None s = ss_set_senderChain None s' /\
  ch_set_chainKey None (st_senderChain s) = ch_set_chainKey None (st_senderChain s') /\
  next_index (st_senderChain s) = next_index (st_senderChain s') /\
  hmac256 C (next_key (st_senderChain s)) [x02] = hmac256 C (next_key (st_senderChain s')) [x02].

Definition same_length (p p' : bytes) (x y : ciphertextMessage) : Prop :=
  length p / 16 = length p' / 16 -> length (ct_serialize x) = length (ct_serialize y).

Lemma padded (p p' : bytes) k k' : length p / 16 = length p' / 16 -> length p < 16 * k <= length p + 16 -> length p' < 16 * k' <= length p' + 16 -> k = k'.
Proof using.
  intros E H H'. pose proof (Nat.div_mod_eq (length p) 16). pose proof (Nat.div_mod_eq (length p') 16).
  pose proof (Nat.mod_upper_bound (length p) 16 ltac:(lia)). pose proof (Nat.mod_upper_bound (length p') 16 ltac:(lia)). lia.
Qed.

Lemma optB_len n (x y : bytes) : length x = length y ->
  length (concat (map enc_field (optB n (Some x)))) = length (concat (map enc_field (optB n (Some y)))).
Proof using.
  intros E. unfold optB, map, concat, enc_field. cbn [fst snd wtype]. rewrite !app_length, E. done.
Qed.

Lemma wm_enc_len a b c (x y : bytes) : length x = length y ->
  length (wm_enc (WmS a b c (Some x))) = length (wm_enc (WmS a b c (Some y))).
Proof using.
  intros E. unfold wm_enc, wm_fields. cbn [wm_ratchetKey wm_counter wm_previousCounter wm_ciphertext].
  unfold enc_fields. rewrite !map_app, !concat_app, !app_length, (optB_len 4 x y E). done.
Qed.
Lemma pk_enc_len a b c e f (x y : bytes) : length x = length y ->
  length (pk_enc (PkS a b c (Some x) e f)) = length (pk_enc (PkS a b c (Some y) e f)).
Proof using.
  intros E. unfold pk_enc, pk_fields. cbn [pk_preKeyId pk_baseKey pk_identityKey pk_message pk_registrationId pk_signedPreKeyId].
  unfold enc_fields. rewrite !map_app, !concat_app, !app_length, (optB_len 4 x y E). done.
Qed.
Lemma sk_enc_len a b (x y : bytes) : length x = length y ->
  length (sk_enc (SkS a b (Some x))) = length (sk_enc (SkS a b (Some y))).
Proof using.
  intros E. unfold sk_enc, sk_fields. cbn [sk_id sk_iteration sk_ciphertext].
  unfold enc_fields. rewrite !map_app, !concat_app, !app_length, (optB_len 3 x y E). done.
Qed.

Lemma whisper_alike version mac mac' key counter prev ct ct' a b :
  alike (fun m m' => same_header m m' /\ (length ct = length ct' -> length (wSerialized m) = length (wSerialized m')))
    (whisper_create C version mac key counter prev ct a b) (whisper_create C version mac' key counter prev ct' a b).
Proof using Hok.
  destruct (decide (counter < 2 ^ 32 /\ prev < 2 ^ 32)%N) as [[H1 H2]|Hn].
  - rewrite !whisper_create_ok by done. cbn [alike]. split; [done|]. intros E. cbn [wSerialized].
    pose proof (wm_getMac_length C Hok) as L. cbn [length]. rewrite !app_length. f_equal.
    match goal with |- _ + length (wm_getMac C ?v ?a ?b ?k ?s) = _ + length (wm_getMac C ?v' ?a' ?b' ?k' ?s') =>
      pose proof (L v a b k s); pose proof (L v' a' b' k' s') end.
    unfold zlen in *. rewrite (wm_enc_len _ _ _ ct ct' E). lia.
  - unfold whisper_create. destruct (set_u32 counter) as [c|e] eqn:E1; [|done].
    destruct (set_u32 prev) as [c'|e] eqn:E2; [|done]. apply set_u32_inv in E1 as [_ E1], E2 as [_ E2]. by destruct Hn.
Qed.

Lemma prekey_alike version rid pid spid base ident m m' :
  same_header m m' ->
  alike (fun p p' => same_wrapper p p' /\ (length (wSerialized m) = length (wSerialized m') -> length (pSerialized p) = length (pSerialized p')))
    (prekey_create version rid pid spid base ident m) (prekey_create version rid pid spid base ident m').
Proof using.
  intros Hm. destruct (prekey_create version rid pid spid base ident m) as [p|e] eqn:E.
  - pose proof (prekey_create_inv _ _ _ _ _ _ _ _ E) as (H1 & H2 & H3). rewrite prekey_create_ok in * by done.
    apply Ok_inj in E as ->. cbn [alike]. split; [done|]. intros El. cbn [pSerialized length]. f_equal. by apply pk_enc_len.
  - unfold prekey_create in *. destruct (set_u32 spid) as [a|]; [|cbn in *; congruence]. destruct (set_u32 rid) as [b|]; [|cbn in *; congruence].
    rewrite !bind_ok in *. destruct (match pid with None => _ | Some _ => _ end) as [o|]; [|cbn in *; congruence].
    rewrite !bind_ok in *. cbv zeta in *. rewrite !combine_vb in *. done.
Qed.

Lemma enc_state_eq s s' :
  enc_same s s' -> advanced C s = advanced C s'.
Proof using.
  destruct s as [v li ri rk pc sc rc pk pp rr lr nr ab], s' as [v' li' ri' rk' pc' sc' rc' pk' pp' rr' lr' nr' ab'].
  intros (H1 & H2 & H3 & H4). cbn in H1. injection H1 as -> -> -> -> -> -> -> -> -> -> -> ->.
  unfold advanced. rewrite <- H3, <- H4.
  unfold st_senderChain in *. cbn [ss_senderChain] in *.
  destruct (default ch_empty sc) as [x1 x2 x3 x4], (default ch_empty sc') as [y1 y2 y3 y4]. cbn in H2. injection H2 as -> -> ->. done.
Qed.

Lemma set_next s x :
  st_setSenderChainKey (ck_next C (ChainKey x (next_key (st_senderChain s)) (next_index (st_senderChain s)))) s =
  (_ ← set_u32 (next_index (st_senderChain s) + 1); Ok (advanced C s)).
Proof using.
  unfold st_setSenderChainKey, ch_putChainKey, ck_next, advanced. cbn [cIndex cKey cKdf].
  destruct (set_u32 _) as [i|] eqn:E; [|done]. apply set_u32_inv in E as [-> _]. done.
Qed.

Lemma enc_alike s s' p p' :
  enc_same s s' ->
  alike (fun x y => same_but_contents x.1 y.1 /\ same_length p p' x.1 y.1 /\ x.2 = y.2)
    (encryptWithState C s p) (encryptWithState C s' p').
Proof using Hok.
  intros Hs. pose proof (enc_state_eq _ _ Hs) as Hadv. destruct Hs as (H1 & H2 & H3 & H4).
  assert (st_getSessionVersion s = st_getSessionVersion s' /\ st_getSenderRatchetKey s = st_getSenderRatchetKey s' /\
    st_getPreviousCounter s = st_getPreviousCounter s' /\ st_getLocalIdentityKey s = st_getLocalIdentityKey s' /\
    st_getRemoteIdentityKey s = st_getRemoteIdentityKey s' /\ st_hasUnacknowledgedPreKeyMessage s = st_hasUnacknowledgedPreKeyMessage s' /\
    st_getUnacknowledgedPreKeyMessageItems s = st_getUnacknowledgedPreKeyMessageItems s' /\
    st_getLocalRegistrationId s = st_getLocalRegistrationId s') as (E1 & E2 & E3 & E4 & E5 & E6 & E7 & E8).
  { unfold st_getSenderRatchetKey. assert (ch_ratchetKey (st_senderChain s) = ch_ratchetKey (st_senderChain s')) as ->.
    { apply (f_equal ch_ratchetKey) in H2. exact H2. }
    destruct s as [v li ri rk pc sc rc pk pp rr lr nr ab], s' as [v' li' ri' rk' pc' sc' rc' pk' pp' rr' lr' nr' ab'].
    cbn in H1. injection H1 as -> -> -> -> -> -> -> -> -> -> -> ->. done. }
  unfold encryptWithState, st_getSenderChainKey. rewrite <- E1, <- E2, <- E3, <- E4, <- E5, <- E6, <- E7, <- E8.
  destruct (hkdf_createFor (st_getSessionVersion s)) as [kdf|]; [|done]. rewrite !bind_ok, !getChainKey_eq.
  rewrite !set_next, <- H3, <- Hadv.
  destruct (st_getSenderRatchetKey s) as [rk|]; [|done]. rewrite !bind_ok. cbv zeta.
  cbn [cIndex].
  match goal with |- alike _ (_ ← aes_encrypt C (mCipher (ck_messageKeys C ?ck)) _ _; _) (_ ← aes_encrypt C (mCipher (ck_messageKeys C ?ck')) _ _; _) =>
    destruct (ck_messageKeys_lengths C Hok ck) as (L1 & L2 & L3); destruct (ck_messageKeys_lengths C Hok ck') as (L1' & L2' & L3');
    set (mk := ck_messageKeys C ck) in *; set (mk' := ck_messageKeys C ck') in * end.
  destruct (aes_roundtrip C Hok _ _ p L1 L3) as (body & -> & _ & k & Hk1 & Hk2).
  destruct (aes_roundtrip C Hok _ _ p' L1' L3') as (body' & -> & _ & k' & Hk1' & Hk2'). rewrite !bind_ok.
  assert (length p / 16 = length p' / 16 -> length body = length body') as Hlen.
  { intros E. rewrite (padded p p' k k') in Hk1 by done. lia. }
  destruct (st_getLocalIdentityKey s) as [local|]; [|done]. rewrite !bind_ok.
  destruct (st_getRemoteIdentityKey s) as [remote|]; [|done]. rewrite !bind_ok.
  pose proof (whisper_alike (st_getSessionVersion s) (mMac mk) (mMac mk') rk (next_index (st_senderChain s)) (st_getPreviousCounter s) body body' local remote) as Hw.
  destruct (whisper_create C _ (mMac mk) _ _ _ _ _ _) as [m|e], (whisper_create C _ (mMac mk') _ _ _ _ _ _) as [m'|e']; try done.
  cbn [alike] in Hw. destruct Hw as [Hh Hl]. rewrite !bind_ok.
  destruct (st_hasUnacknowledgedPreKeyMessage s).
  - destruct (st_getUnacknowledgedPreKeyMessageItems s) as [[[pid spid] base]|]; [|done]. rewrite !bind_ok.
    destruct (z_to_u32 spid) as [sp|]; [|done]. rewrite !bind_ok.
    pose proof (prekey_alike (st_getSessionVersion s) (st_getLocalRegistrationId s) pid sp base local m m' Hh) as Hp.
    destruct (prekey_create _ _ _ _ _ _ m) as [q|e], (prekey_create _ _ _ _ _ _ m') as [q'|e']; try done.
    cbn [alike] in Hp. destruct Hp as [Hq Hql]. rewrite !bind_ok.
    destruct (set_u32 _); [|done]. rewrite !bind_ok. cbn [alike fst snd]. split_and!; try done.
    intros E. apply Hql, Hl, Hlen, E.
  - rewrite !bind_ok. destruct (set_u32 _); [|done]. rewrite !bind_ok. cbn [alike fst snd]. split_and!; try done; try apply Hh.
    intros E. apply Hl, Hlen, E.
Qed.

Lemma enc_same_refl s : enc_same s s.
Proof using. done. Qed.
Lemma enc_same_other s key : hmac256 C (next_key (sending s)) [x02] = hmac256 C key [x02] ->
  enc_same s (with_sending s (ss_rootKey s) (rekeyed (sending s) key)).
Proof using. intros H. by destruct s. Qed.

Lemma send_run r d p w : run (encrypt C r d p) w =
  match session_at w r d with
  | Ok rec => match encryptWithState C (sr_state rec) p with
              | Ok x => (Ok x.1, w_set_sessions (<[(r, d) := sr_serialize (sr_setState x.2 rec)]> (w_sessions w)) w)
              | Err e => (Err e, w)
              end
  | Err e => (Err e, w)
  end.
Proof using.
  unfold encrypt. rewrite run_bind, run_do, load_session. destruct (session_at w r d) as [rec|]; [|done].
  rewrite run_bind, run_lift. by destruct (encryptWithState _ _ _).
Qed.

Lemma send_plain w r d p p' :
  (run (encrypt C r d p) w).2 = (run (encrypt C r d p') w).2 /\
  alike (fun x y => same_but_contents x y /\ (length p / 16 = length p' / 16 -> length (ct_serialize x) = length (ct_serialize y)))
    (run (encrypt C r d p) w).1 (run (encrypt C r d p') w).1.
Proof using Hok.
  rewrite !send_run. destruct (session_at w r d) as [rec|]; [|done].
  pose proof (enc_alike _ _ p p' (enc_same_refl (sr_state rec))) as H.
  destruct (encryptWithState C (sr_state rec) p) as [[c s]|e], (encryptWithState C (sr_state rec) p') as [[c' s']|e']; try done.
  cbn in H. destruct H as (H1 & H2 & ->). cbn [fst snd alike]. done.
Qed.

Lemma send_key w r d s key w' p p' ct w1 :
  other_session w r d 0 s (with_sending s (ss_rootKey s) (rekeyed (sending s) key)) w' ->
  hmac256 C (next_key (sending s)) [x02] = hmac256 C key [x02] ->
  run (encrypt C r d p) w = (Ok ct, w1) -> exists ct', run (encrypt C r d p') w' = (Ok ct', w1).
Proof using Hok.
  intros (rec & rec' & bs & Hr & Hr' & Hs & Hst & ->) Hk. rewrite !send_run, Hr, Hr'.
  injection Hs as <-. assert (sr_state rec' = with_sending (sr_state rec) (ss_rootKey (sr_state rec)) (rekeyed (sending (sr_state rec)) key) /\ sr_previous rec' = sr_previous rec) as [E1 E2].
  { unfold states in Hst. cbn in Hst. by injection Hst. }
  rewrite E1. pose proof (enc_alike _ _ p p' (enc_same_other _ _ Hk)) as H.
  destruct (encryptWithState C (sr_state rec) p) as [[c s]|e]; [|done].
  destruct (encryptWithState C _ p') as [[c' s']|e']; [|done].
  cbn in H. destruct H as (_ & _ & ->). cbn [fst snd]. intros [= -> <-]. exists c'.
  cbn [w_sessions w_set_sessions]. rewrite insert_insert.
  assert (sr_serialize (sr_setState s' rec') = sr_serialize (sr_setState s' rec)) as ->; [|done].
  unfold sr_serialize, sr_setState. cbn [sr_state sr_previous]. by rewrite E2.
Qed.

(** ** Receiving *)

(** Does a state draw a key pair for the message? *)
Definition draws (s : ss_s) (m : whisperMessage) : nat :=
  if negb (st_hasSenderChain s) then 0
  else if negb (wVersion m =? st_getSessionVersion s)%N then 0
  else match st_hasReceiverChain (wRatchetKey m) s with
       | Ok false =>
           match (rootKey ← st_getRootKey s; ourEphemeral ← st_getSenderRatchetKeyPair s;
                  rk_createChain C rootKey (wRatchetKey m) ourEphemeral) with
           | Ok _ => 1
           | Err _ => 0
           end
       | _ => 0
       end.

Lemma set_pos_id w : w_set_pos (w_pos w) w = w.
Proof using. by destruct w. Qed.

Lemma state_run s m w :
  run (decryptWithSessionState C s m) w = (decryptPure C s m (kp_at C w (w_pos w)), w_set_pos (w_pos w + draws s m) w).
Proof using Hok.
  unfold decryptWithSessionState, decryptPure, draws.
  destruct (negb (st_hasSenderChain s)); [by rewrite Nat.add_0_r, set_pos_id|].
  destruct (negb _); [by rewrite Nat.add_0_r, set_pos_id|].
  rewrite run_bind. unfold getOrCreateChainKey, chainStep. rewrite run_bind, run_lift.
  destruct (st_hasReceiverChain _ s) as [[]|e]; cbn [mbind res_bind].
  - rewrite run_bind, run_lift, Nat.add_0_r, set_pos_id. destruct (st_getReceiverChainKey _ s); [|done].
    cbn [mbind res_bind run]. by rewrite run_lift.
  - rewrite run_bind, run_lift.
    destruct (st_getRootKey s ≫= _) as [x|e]; cbn [mbind res_bind]; [|by rewrite Nat.add_0_r, set_pos_id].
    rewrite run_bind, (run_generateKeyPair C Hok), run_lift. rewrite Nat.add_comm.
    match goal with |- context [match ?y with Ok _ => _ | Err _ => _ end] => destruct y as [z|e] end; [|done]. by rewrite run_lift.
  - by rewrite Nat.add_0_r, set_pos_id.
Qed.

Definition dsum (m : whisperMessage) (l : list ss_s) : nat := sum_list ((fun s => draws s m) <$> l).

Lemma kp_at_pos w p n : kp_at C (w_set_pos p w) n = kp_at C w n.
Proof using. done. Qed.

Lemma previous_run rec m l : forall i w j s pt t,
  l !! j = Some s -> (forall k x, k < j -> l !! k = Some x -> verdict C x m = Err EInvalidMessage) ->
  decryptPure C s m (kp_at C w (w_pos w + dsum m (take j l))) = Ok (pt, t) ->
  run (decryptWithPrevious C rec m i l) w
  = (Ok (pt, record_after (S (i + j)) t rec), w_set_pos (w_pos w + dsum m (take (S j) l)) w).
Proof using Hok.
  induction l as [|x l IH]; intros i w j s pt t Hj Hb Hd; [done|]. cbn [decryptWithPrevious]. rewrite run_catch, run_bind, state_run.
  destruct j as [|j].
  - injection Hj as ->. cbn [take dsum fmap list_fmap sum_list fold_right] in Hd. rewrite Nat.add_0_r in Hd. rewrite Hd. cbn [run].
    rewrite Nat.add_0_r. unfold dsum. cbn. by rewrite Nat.add_0_r.
  - assert (verdict C x m = Err EInvalidMessage) as Hx by (apply (Hb 0); [lia|done]).
    apply (verdict_err C x m (kp_at C w (w_pos w))) in Hx; [|by apply kp_at_ok]. rewrite Hx. rewrite bool_decide_true by done.
    erewrite (IH (S i) _ j s pt t); [|done| |].
    + rewrite Nat.add_succ_r. unfold dsum. cbn. by rewrite Nat.add_assoc.
    + intros k y Hk Hy. apply (Hb (S k)); [lia|done].
    + rewrite kp_at_pos. cbn [w_pos w_set_pos]. rewrite <- Hd. unfold dsum. cbn. by rewrite Nat.add_assoc.
Qed.

Lemma record_run rec m w i s pt t :
  sr_states rec !! i = Some s -> (forall k x, k < i -> sr_states rec !! k = Some x -> verdict C x m = Err EInvalidMessage) ->
  decryptPure C s m (kp_at C w (w_pos w + dsum m (take i (sr_states rec)))) = Ok (pt, t) ->
  run (decryptWithSessionRecord C rec m) w
  = (Ok (pt, record_after i t rec), w_set_pos (w_pos w + dsum m (take (S i) (sr_states rec))) w).
Proof using Hok.
  intros Hi Hb Hd. unfold decryptWithSessionRecord. rewrite run_catch, run_bind, state_run. destruct i as [|i].
  - injection Hi as <-. cbn [take dsum fmap list_fmap sum_list fold_right] in Hd. rewrite Nat.add_0_r in Hd. rewrite Hd. cbn [run].
    unfold dsum. cbn. by rewrite Nat.add_0_r.
  - assert (verdict C (sr_state rec) m = Err EInvalidMessage) as Hx by (apply (Hb 0); [lia|done]).
    apply (verdict_err C _ m (kp_at C w (w_pos w))) in Hx; [|by apply kp_at_ok]. rewrite Hx. rewrite bool_decide_true by done.
    erewrite (previous_run rec m _ 0 _ i s pt t); [|done| |].
    + f_equal. cbn. unfold dsum. cbn. by rewrite Nat.add_assoc.
    + intros k y Hk Hy. apply (Hb (S k)); [lia|done].
    + rewrite kp_at_pos. cbn [w_pos w_set_pos]. rewrite <- Hd. unfold dsum. cbn. by rewrite Nat.add_assoc.
Qed.

Lemma record_run_inv rec m w pt rec' w1 :
  run (decryptWithSessionRecord C rec m) w = (Ok (pt, rec'), w1) ->
  exists i s t, sr_states rec !! i = Some s /\ (forall k x, k < i -> sr_states rec !! k = Some x -> verdict C x m = Err EInvalidMessage) /\
    decryptPure C s m (kp_at C w (w_pos w + dsum m (take i (sr_states rec)))) = Ok (pt, t) /\
    rec' = record_after i t rec /\ w1 = w_set_pos (w_pos w + dsum m (take (S i) (sr_states rec))) w.
Proof using Hok.
  intros H. pose proof H as H0. apply run_record_draw in H as (i & s & t & n & Hi & Hb & Hd & -> & _); [|done].
  assert (verdict C s m = Ok pt) as Hv.
  { apply (verdict_ok C s m (kp_at C w n)); [by apply kp_at_ok|eauto]. }
  apply (verdict_ok C s m (kp_at C w (w_pos w + dsum m (take i (sr_states rec))))) in Hv as [t' Ht']; [|by apply kp_at_ok].
  rewrite (record_run _ _ _ _ _ _ _ Hi Hb Ht') in H0. injection H0 as E <-. exists i, s, t'. split_and!; done.
Qed.

(** *** The same states, messages that differ in the contents *)

Lemma draws_header s m m' : same_header m m' -> draws s m = draws s m'.
Proof using. intros (E1 & E2 & _). unfold draws. by rewrite E1, E2. Qed.
Lemma dsum_header l m m' : same_header m m' -> dsum m l = dsum m' l.
Proof using. intros H. unfold dsum. f_equal. apply list_fmap_ext. intros i x _. by apply draws_header. Qed.

Lemma pure_header s m m' kp pt t pt' t' :
  same_header m m' -> decryptPure C s m kp = Ok (pt, t) -> decryptPure C s m' kp = Ok (pt', t') -> t = t'.
Proof using.
  intros (E1 & E2 & E3 & _) (_ & _ & kdf & c & j & s1 & c1 & Hk & Hst & Hf & Ho & ->)%decryptPure_ok_inv
    (_ & _ & kdf' & c' & j' & s1' & c1' & Hk' & Hst' & Hf' & Ho' & ->)%decryptPure_ok_inv.
  rewrite Hk in Hk'. injection Hk' as <-. rewrite <- E1 in Hst', Hf'. rewrite Hst in Hst'. injection Hst' as _ _ <-.
  rewrite Hf in Hf'. injection Hf' as <- <-.
  unfold openWith in Ho, Ho'. rewrite <- E3 in Ho'.
  apply bind_ok_inv in Ho as (y & Hy & Ho). rewrite Hy, bind_ok in Ho'.
  do 4 (apply bind_ok_inv in Ho as (? & _ & Ho)). do 4 (apply bind_ok_inv in Ho' as (? & _ & Ho')).
  injection Ho as _ <-. injection Ho' as _ <-. done.
Qed.

Lemma knows_verdict (w : world) s m m' : knows_both C m m' s -> verdict C s m = Err EInvalidMessage <-> verdict C s m' = Err EInvalidMessage.
Proof using Hok.
  assert (forall m, answers C s m (Err EInvalidMessage) <-> verdict C s m = Err EInvalidMessage) as H.
  { intros x. pose proof (answers_verdict C Hok s x) as Ha. split.
    - intros H. specialize (H w). by rewrite (Ha w) in H.
    - intros H. by rewrite H in Ha. }
  unfold knows_both. by rewrite !H.
Qed.

Lemma record_header rec m m' w pt rec1 w1 pt' rec1' w1' :
  same_header m m' -> (forall s, s ∈ states rec -> knows_both C m m' s) ->
  run (decryptWithSessionRecord C rec m) w = (Ok (pt, rec1), w1) ->
  run (decryptWithSessionRecord C rec m') w = (Ok (pt', rec1'), w1') -> rec1 = rec1' /\ w1 = w1'.
Proof using Hok.
  intros Hh Hk (i & s & t & Hi & Hb & Hd & -> & ->)%record_run_inv (i' & s' & t' & Hi' & Hb' & Hd' & -> & ->)%record_run_inv.
  assert (i = i') as <-.
  { assert (forall m i s w pt t, sr_states rec !! i = Some s -> decryptPure C s m (kp_at C w (w_pos w + dsum m (take i (sr_states rec)))) = Ok (pt, t) -> verdict C s m <> Err EInvalidMessage) as Hno.
    { intros m0 i0 s0 w0 p0 t0 _ H. assert (verdict C s0 m0 = Ok p0) as ->; [|done].
      eapply verdict_ok; [|by eexists]. by apply kp_at_ok. }
    destruct (lt_eq_lt_dec i i') as [[Hlt|]|Hlt]; [exfalso|done|exfalso].
    - eapply (Hno m i s); [done|done|]. apply (knows_verdict w _ m m'); [|by eapply Hb'].
      apply Hk. by eapply states_lookup.
    - eapply (Hno m' i' s'); [done|done|]. apply (knows_verdict w _ m m'); [|by eapply Hb].
      apply Hk. by eapply states_lookup. }
  rewrite Hi in Hi'. injection Hi' as <-. rewrite <- !(dsum_header _ _ _ Hh) in *.
  by rewrite (pure_header _ _ _ _ _ _ _ _ Hh Hd Hd').
Qed.

Lemma msg_header w r d m m' pt w1 pt' w1' :
  same_header m m' -> (forall rec s, session_at w r d = Ok rec -> s ∈ states rec -> knows_both C m m' s) ->
  run (decryptMsg C r d m) w = (Ok pt, w1) -> run (decryptMsg C r d m') w = (Ok pt', w1') -> w1 = w1'.
Proof using Hok.
  intros Hh Hk H H'. unfold decryptMsg in H, H'.
  apply run_bind_ok in H as (has & w0 & H0 & H). apply run_bind_ok in H' as (has' & w0' & H0' & H').
  rewrite run_do in H0, H0'. injection H0 as <- <-. injection H0' as <- <-. case_bool_decide as Hs; [|done].
  apply run_bind_ok in H as (rec & w0 & H0 & H). apply run_bind_ok in H' as (rec' & w0' & H0' & H').
  rewrite run_do, load_session in H0, H0'. injection H0 as Hrec <-. rewrite Hrec in H0'. injection H0' as <- <-.
  apply run_bind_ok in H as ([p1 r1] & w2 & H1 & H). apply run_bind_ok in H' as ([p1' r1'] & w2' & H1' & H').
  destruct (record_header _ _ _ _ _ _ _ _ _ _ Hh (fun s => Hk rec s Hrec) H1 H1') as [<- <-].
  rewrite run_bind, run_do in H, H'. cbn in H, H'. injection H as _ <-. by injection H' as _ <-.
Qed.

Lemma msg_header_only w r d m m' pt w1 pt' w1' rec :
  same_header m m' -> session_at w r d = Ok rec -> sr_previous rec = [] ->
  run (decryptMsg C r d m) w = (Ok pt, w1) -> run (decryptMsg C r d m') w = (Ok pt', w1') -> w1 = w1'.
Proof using Hok.
  intros Hh Hrec Hp H H'. pose proof H as H2. pose proof H' as H2'. revert H2 H2'. apply msg_header; [done|].
  intros rec' s Hr. rewrite Hrec in Hr. injection Hr as <-. unfold states. rewrite Hp. intros ->%elem_of_list_singleton.
  assert (forall m pt w1, run (decryptMsg C r d m) w = (Ok pt, w1) -> exists pt, answers C (sr_state rec) m (Ok pt)) as Ha.
  { clear H H'. intros m0 p0 w0 H. unfold decryptMsg in H. apply run_bind_ok in H as (has & w2 & H0 & H).
    rewrite run_do in H0. injection H0 as <- <-. case_bool_decide as Hs; [|done].
    apply run_bind_ok in H as (rec' & w2 & H0 & H). rewrite run_do, load_session, Hrec in H0. injection H0 as <- <-.
    apply run_bind_ok in H as ([p1 r1] & w2 & H1 & H). apply record_run_inv in H1 as (i & s & t & Hi & _ & Hd & _).
    unfold sr_states in Hi. rewrite Hp in Hi. destruct i as [|i]; [|by destruct i]. injection Hi as <-.
    exists p1. assert (verdict C (sr_state rec) m0 = Ok p1) as <-; [|by apply answers_verdict].
    eapply verdict_ok; [|by eexists]. by apply kp_at_ok. }
  apply Ha in H as [a Ha1], H' as [b Hb1]. split; intros E; exfalso.
  - specialize (E w). by rewrite (Ha1 w) in E.
  - specialize (E w). by rewrite (Hb1 w) in E.
Qed.

Lemma builder_wrapper r rec m m' : same_wrapper m m' -> builder_process C r rec m = builder_process C r rec m'.
Proof using. intros (E1 & E2 & E3 & E4 & E5 & E6 & _). unfold builder_process, processV3. by rewrite E1, E2, E3, E4, E5, E6. Qed.

Lemma pkmsg_header w r d m m' pt w1 pt' w1' :
  reachable C w -> same_wrapper m m' ->
  (forall rec s, session_at w r d = Ok rec -> s ∈ states rec \/ SpecRatchet.answering C w m s -> knows_both C (pMessage m) (pMessage m') s) ->
  run (decryptPkmsg C r d m) w = (Ok pt, w1) -> run (decryptPkmsg C r d m') w = (Ok pt', w1') -> w1 = w1'.
Proof using Hok.
  intros Hr%(reachable_inv C) Hw Hk H H'. unfold decryptPkmsg in H, H'.
  apply run_bind_ok in H as (rec & w0 & H0 & H). apply run_bind_ok in H' as (rec' & w0' & H0' & H').
  rewrite run_do, load_session in H0, H0'. injection H0 as Hrec <-. rewrite Hrec in H0'. injection H0' as <- <-.
  rewrite <- (builder_wrapper _ _ _ _ Hw) in H'.
  apply run_bind_ok in H as (x & w2 & H1 & H). apply run_bind_ok in H' as (x' & w2' & H1' & H').
  rewrite H1 in H1'. injection H1' as <- <-.
  apply run_bind_ok in H as ([p1 r1] & w3 & H2 & H). apply run_bind_ok in H' as ([p1' r1'] & w3' & H2' & H').
  destruct Hw as (_ & _ & _ & _ & _ & _ & Hh).
  assert (forall s, s ∈ states x.1 -> knows_both C (pMessage m) (pMessage m') s) as Hk'.
  { unfold builder_process in H1. apply run_bind_ok in H1 as (tr & w4 & H0 & H1). rewrite run_do in H0. injection H0 as _ <-.
    destruct tr; [|done]. apply run_bind_ok in H1 as (y & w4 & H0 & H1). rewrite run_bind, run_do in H1. cbn in H1. injection H1 as <- _.
    destruct (processV3_answering C Hok _ _ _ _ _ _ _ (Hr _ _ _ Hrec) Hrec H0) as [(_ & -> & _)|(_ & s0 & Ha & ->)].
    - intros s Hs. eapply Hk; [done|by left].
    - intros s [->|Hs]%elem_of_cons; eapply Hk; [done|by right|done|left].
      unfold archive_of in Hs. destruct (sr_fresh rec); [by apply elem_of_nil in Hs|]. by eapply elem_of_take in Hs as (? & ?%elem_of_list_lookup_2 & _). }
  destruct (record_header _ _ _ _ _ _ _ _ _ _ Hh Hk' H2 H2') as [<- <-].
  destruct x.2; repeat first [rewrite run_bind in H | rewrite run_bind in H' | rewrite run_do in H | rewrite run_do in H' | progress cbn in H | progress cbn in H'];
    injection H as _ <-; by injection H' as _ <-.
Qed.

(** *** Other secrets *)

Lemma first_unique {A} (P : A -> Prop) l1 c l2 l1' c' l2' :
  P c -> P c' -> Forall (fun x => ~ P x) l1 -> Forall (fun x => ~ P x) l1' -> l1 ++ c :: l2 = l1' ++ c' :: l2' ->
  l1 = l1' /\ c = c' /\ l2 = l2'.
Proof using.
  intros Hc Hc' H. revert l1'. induction H as [|x l1 Hx _ IH]; intros [|y l1'] H' E; cbn in E.
  - by injection E.
  - injection E as <- _. by inversion H'.
  - by injection E as -> _.
  - injection E as <- E. inversion H'; subst. destruct (IH l1') as (-> & -> & ->); done.
Qed.

Lemma others_not l k : Forall (fun x => exists k', chain_of x k' /\ k' <> k) l -> Forall (fun x => ~ chain_of x k) l.
Proof using.
  intros H. eapply Forall_impl; [exact H|]. intros x (k' & (t & Ht & ->) & Hne) (t' & Ht' & ->). rewrite Ht in Ht'. by injection Ht' as ->.
Qed.

Lemma no_receiving_not s l1 c l2 k : ss_receiverChains s = l1 ++ c :: l2 -> chain_of c k -> no_receiving s k -> False.
Proof using.
  intros E Hc Hn. unfold no_receiving in Hn. rewrite E in Hn. apply others_not, Forall_app in Hn as [_ [Hn _]%Forall_cons]. done.
Qed.

Lemma read_ahead_same v c c' n k k' d x y :
  ch_ratchetKey c = ch_ratchetKey c' -> ch_ratchetKeyPrivate c = ch_ratchetKeyPrivate c' -> ch_messageKeys c = ch_messageKeys c' ->
  next_index c = next_index c' -> next_key c = k -> next_key c' = k' ->
  n = (next_index c + N.of_nat d)%N -> same_around C v k k' d -> chain_read C v c n x -> chain_read C v c' n y -> x = y.
Proof using.
  intros E1 E2 E3 E4 <- <- -> [H1 H2] Hx Hy. inversion Hx as [? ? ? Hlt|Hle]; subst; [lia|].
  inversion Hy as [? ? ? Hlt'|Hle']; subst; [lia|]. rewrite <- E1, <- E2, <- E3, <- E4.
  replace (N.to_nat (next_index c + N.of_nat d + 1 - next_index c)) with (S d) by lia.
  replace (N.to_nat (next_index c + N.of_nat d - next_index c)) with d by lia. rewrite H2. f_equal. f_equal.
  apply map_ext_in. intros i Hi%in_seq. unfold stored_key. rewrite H1 by lia. done.
Qed.

Lemma other_decrypted s s' v m m' kp t t' :
  same_header m m' -> other_secrets C s v (wRatchetKey m) (wCounter m) s' ->
  decrypted_to C v s m kp t -> decrypted_to C v s' m' kp t' -> t = t'.
Proof using.
  intros (E1 & E2 & E3 & _) Ho Ht Ht'. destruct Ho as [l1 c l2 key d Hl Hc Hl1 Hn Hk | l1 c l2 a e b e' Hl Hc Hl1 Hn Hm He He' Ha | root private key c Hno Hroot Hch].
  - destruct Ht as [l1a ca l2a ca' Hla Hca Hl1a Hr|ca' remote root root1 Hno _ _]; [|exfalso; by eapply no_receiving_not].
    destruct Ht' as [l1b cb l2b cb' Hlb Hcb Hl1b Hr'|cb' remote root root1 Hno _ _].
    2: { exfalso. eapply no_receiving_not; [|  |exact Hno]; [cbn; reflexivity|]. unfold remote. rewrite <- E1. exact Hc. }
    rewrite <- E1 in Hcb, Hl1b. rewrite <- E3 in Hr'. cbn in Hlb.
    rewrite Hl in Hla. apply (first_unique (fun x => chain_of x (wRatchetKey m))) in Hla as (<- & <- & <-); try done; try by apply others_not.
    apply (first_unique (fun x => chain_of x (wRatchetKey m))) in Hlb as (<- & <- & <-); try done; try by apply others_not.
    cbn. f_equal. f_equal. f_equal. eapply (read_ahead_same v c (rekeyed c key)); try done.
  - destruct Ht as [l1a ca l2a ca' Hla Hca Hl1a Hr|ca' remote root root1 Hno _ _]; [|exfalso; by eapply no_receiving_not].
    destruct Ht' as [l1b cb l2b cb' Hlb Hcb Hl1b Hr'|cb' remote root root1 Hno _ _].
    2: { exfalso. eapply no_receiving_not; [|  |exact Hno]; [cbn; reflexivity|]. unfold remote. rewrite <- E1. exact Hc. }
    rewrite <- E1 in Hcb, Hl1b. rewrite <- E3 in Hr'. cbn in Hlb.
    rewrite Hl in Hla. apply (first_unique (fun x => chain_of x (wRatchetKey m))) in Hla as (<- & <- & <-); try done; try by apply others_not.
    apply (first_unique (fun x => chain_of x (wRatchetKey m))) in Hlb as (<- & <- & <-); try done; try by apply others_not.
    cbn. f_equal. f_equal. f_equal.
    inversion Hr as [a1 e1 b1 Hlt Hm1 Hi1 Ha1|Hle]; subst; [|lia].
    inversion Hr' as [a2 e2 b2 Hlt' Hm2 Hi2 Ha2|Hle]; subst; [|unfold next_index in *; cbn in *; lia].
    cbn in Hm2 |- *. rewrite Hm in Hm1.
    apply (first_unique (fun x => default 0%N (mk_index x) = wCounter m)) in Hm1 as (<- & <- & <-); try done.
    apply (first_unique (fun x => default 0%N (mk_index x) = wCounter m)) in Hm2 as (<- & <- & <-); try done.
  - destruct Ht as [l1a ca l2a ca' Hla Hca Hl1a Hr|ca' remote root0 root1 Hno1 Hlen Hr]; [exfalso; by eapply no_receiving_not|].
    destruct Ht' as [l1b cb l2b cb' Hlb Hcb Hl1b Hr'|cb' remote' root0' root1' Hno2 Hlen' Hr'].
    1: { exfalso. rewrite <- E1 in Hcb. by eapply no_receiving_not. }
    rewrite <- E3 in Hr'. subst remote remote' root0 root0' root1 root1'. rewrite <- !E1 in Hr' |- *.
    cbn -[dh_root dh_chain] in Hr' |- *. rewrite <- Hroot.
    assert (ca' = cb') as <-; [|done].
    eapply read_ahead_same; [.. |exact Hch|exact Hr|exact Hr']; try done. cbn. lia.
Qed.

Lemma other_chains s s' v k n : other_secrets C s v k n s' -> length (ss_receiverChains s') = length (ss_receiverChains s).
Proof using. intros [l1 c l2 key d Hl|l1 c l2 a e b e' Hl|root private key c]; cbn; rewrite ?Hl, ?app_length; done. Qed.

Lemma draws_ok s m kp x : decryptPure C s m kp = Ok x ->
  draws s m = match find_chain (wRatchetKey m) (ss_receiverChains s) 0 with Ok None => 1 | _ => 0 end.
Proof using.
  unfold decryptPure, draws. destruct (negb _); [done|]. destruct (negb _); [done|].
  unfold chainStep, st_hasReceiverChain, st_getReceiverChain.
  destruct (find_chain (wRatchetKey m) (ss_receiverChains s) 0) as [[[c j]|]|]; [done| |done].
  rewrite !bind_ok. by destruct (st_getRootKey s ≫= _).
Qed.

Lemma other_draws s s' v m : other_secrets C s v (wRatchetKey m) (wCounter m) s' ->
  match find_chain (wRatchetKey m) (ss_receiverChains s) 0 with Ok None => 1 | _ => 0 end =
  match find_chain (wRatchetKey m) (ss_receiverChains s') 0 with Ok None => 1 | _ => 0 end.
Proof using.
  assert (forall s l1 c l2, ss_receiverChains s = l1 ++ c :: l2 -> chain_of c (wRatchetKey m) ->
    Forall (fun x => exists k, chain_of x k /\ k <> wRatchetKey m) l1 -> exists j, find_chain (wRatchetKey m) (ss_receiverChains s) 0 = Ok (Some (c, j))) as Hf.
  { intros x l1 c l2 Hl Hc Hl1. apply receiving_iff. by exists l1, l2. }
  intros [l1 c l2 key d Hl Hc Hl1|l1 c l2 a e b e' Hl Hc Hl1|root private key c Hno].
  - destruct (Hf s l1 c l2) as [j ->]; [done..|]. destruct (Hf (with_receiving s (l1 ++ rekeyed c key :: l2)) l1 (rekeyed c key) l2) as [j' ->]; done.
  - destruct (Hf s l1 c l2) as [j ->]; [done..|].
    match goal with |- context [with_receiving s (l1 ++ ?x :: l2)] => destruct (Hf (with_receiving s (l1 ++ x :: l2)) l1 x l2) as [j' ->] end; done.
  - done.
Qed.

Lemma after_same i s s' t rec rec' :
  states rec !! i = Some s -> states rec' = <[i := s']> (states rec) ->
  sr_serialize (record_after i t rec') = sr_serialize (record_after i t rec).
Proof using.
  unfold states. intros Hi E. destruct i as [|i].
  - cbn in E. injection E as E1 E2. unfold sr_serialize. cbn. by rewrite E2.
  - change (<[S i := s']> (sr_state rec :: sr_previous rec)) with (sr_state rec :: <[i := s']> (sr_previous rec)) in E.
    injection E as E1 E2. unfold sr_serialize, record_after. cbn [sr_promoteState sr_state sr_previous sr_fresh].
    rewrite E1, E2, !delete_take_drop, take_insert, drop_insert_gt by lia. done.
Qed.

Lemma msg_run w r d rec m i s pt t :
  session_at w r d = Ok rec -> sr_states rec !! i = Some s ->
  (forall k x, k < i -> sr_states rec !! k = Some x -> verdict C x m = Err EInvalidMessage) ->
  decryptPure C s m (kp_at C w (w_pos w + dsum m (take i (sr_states rec)))) = Ok (pt, t) ->
  run (decryptMsg C r d m) w
  = (Ok pt, w_set_sessions (<[(r, d) := sr_serialize (record_after i t rec)]> (w_sessions w))
              (w_set_pos (w_pos w + dsum m (take (S i) (sr_states rec))) w)).
Proof using Hok.
  intros Hrec Hi Hb Hd. unfold decryptMsg. rewrite run_bind, run_do. cbn [step_call].
  rewrite bool_decide_true.
  - rewrite run_bind, run_do, load_session, Hrec, run_bind.
    rewrite (record_run _ _ _ _ _ _ _ Hi Hb Hd). done.
  - unfold session_at in Hrec. destruct (w_sessions w !! (r, d)) as [bs|]; [done|].
    injection Hrec as <-. destruct i as [|i]; [|by destruct i]. injection Hi as <-. done.
Qed.

Lemma other_msg w w' r d i s s' m m' pt pt' :
  reachable C w -> other_session w r d i s s' w' ->
  other_secrets C s (wVersion m) (wRatchetKey m) (wCounter m) s' -> same_header m m' ->
  (forall rec k x, session_at w r d = Ok rec -> k < i -> states rec !! k = Some x ->
    answers C x m (Err EInvalidMessage) /\ answers C x m' (Err EInvalidMessage)) ->
  answers C s m (Ok pt) -> answers C s' m' (Ok pt') ->
  exists w1, run (decryptMsg C r d m) w = (Ok pt, w1) /\ run (decryptMsg C r d m') w' = (Ok pt', w1).
Proof using Hok.
  intros Hr%(reachable_inv C) (rec & rec' & bs & Hrec & Hrec' & Hi & Hst & Hw') Ho Hh Hb Ha Ha'.
  pose proof (Hr _ _ _ Hrec) as [(_ & _ & Hinv) _].
  assert (forall s m o, answers C s m o -> verdict C s m = o) as Hav.
  { intros s0 m0 o H. specialize (H w). by rewrite (answers_verdict C Hok s0 m0 w) in H. }
  assert (i < length (states rec)) as Hil by (by eapply lookup_lt_Some).
  assert (states rec' !! i = Some s') as Hi' by (rewrite Hst; by apply list_lookup_insert).
  set (n := w_pos w + dsum m (take i (states rec))).
  destruct (proj1 (verdict_ok C s m (kp_at C w n) pt (kp_at_ok C Hok w n)) (Hav _ _ _ Ha)) as [t Ht].
  destruct (proj1 (verdict_ok C s' m' (kp_at C w n) pt' (kp_at_ok C Hok w n)) (Hav _ _ _ Ha')) as [t' Ht'].
  assert (length (ss_receiverChains s) <= 5) as Hlen.
  { rewrite Forall_lookup in Hinv. by destruct (Hinv i s Hi). }
  assert (t = t') as <-.
  { destruct (effect C Hok _ _ _ _ _ Hlen Ht) as [_ H1].
    destruct (effect C Hok s' m' (kp_at C w n) pt' t') as [_ H2]; [by rewrite (other_chains _ _ _ _ _ Ho)|done|].
    destruct Hh as (E1 & E2 & E3 & E4). rewrite <- E2 in H2. eapply other_decrypted; [|done|exact H1|exact H2]. by split_and!. }
  assert (draws s m = draws s' m') as Hdr.
  { rewrite (draws_ok _ _ _ _ Ht), (draws_ok _ _ _ _ Ht'). destruct Hh as (<- & _). by eapply other_draws. }
  assert (take i (states rec') = take i (states rec)) as Htk by (rewrite Hst; by rewrite take_insert).
  assert (dsum m (take (S i) (states rec)) = dsum m' (take (S i) (states rec'))) as Hds.
  { rewrite (take_S_r _ _ s) by done. rewrite (take_S_r _ _ s') by done. rewrite Htk. unfold dsum. rewrite !fmap_app.
    assert (forall l1 l2 : list nat, sum_list (l1 ++ l2) = sum_list l1 + sum_list l2) as Hsa.
    { intros l1 l2. induction l1 as [|? ? IH]; [done|]. cbn. rewrite IH. lia. }
    rewrite !Hsa. pose proof (dsum_header (take i (states rec)) _ _ Hh) as E. unfold dsum in E. rewrite E. cbn. by rewrite Hdr. }
  eexists. split.
  - eapply (msg_run w r d rec m i s); [done|done| |exact Ht]. intros k x Hk Hx. apply Hav. by eapply Hb.
  - erewrite (msg_run w' r d rec' m' i s'); [|done|done| |].
    + rewrite (after_same i s s' t rec rec' Hi Hst). subst w'. cbn [w_sessions w_set_sessions w_pos]. unfold sr_states, states in *. rewrite <- Hds.
      f_equal. destruct w. cbn. by rewrite insert_insert.
    + intros k x Hk Hx. apply Hav. eapply Hb; [done|done|]. change (states rec' !! k = Some x) in Hx. rewrite Hst, list_lookup_insert_ne in Hx by lia. done.
    + change (sr_states rec') with (states rec'). rewrite Htk, <- (dsum_header _ _ _ Hh). subst w'. exact Ht'.
Qed.

(** ** Groups *)

Lemma group_send_run w name pt s rec :
  senderkey_at w name = Ok (s :: rec) ->
  exists ct k, length ct = 16 * k /\ length pt < 16 * k <= length pt + 16 /\
    let signed := x33 :: sk_enc (SkS (Some (key_id s)) (Some (chain_at s)) (Some ct)) in
    let bs := signed ++ sign C (resize 64 x00 (w_tape w (w_pos w))) (signing_private s) signed in
    let st := moved s (chain_at s + 1) (group_stepped C (chain_key s) 1) (st_senderMessageKeys s) in
    (length (signing_private s) = 32 -> (chain_at s + 1 < 2 ^ 32)%N ->
      length bs = 65 + length (sk_enc (SkS (Some (key_id s)) (Some (chain_at s)) (Some ct))) /\
      sk_msg_parse bs = Ok (SenderKeyMessage 3 (key_id s) (chain_at s) ct bs)) /\
    run (group_encrypt C name pt) w =
    if bool_decide (length (signing_private s) = 32 /\ (chain_at s + 1 < 2 ^ 32)%N)
    then (Ok bs, w_set_senderkeys (<[name := skr_serialize (st :: rec)]> (w_senderkeys w)) (w_set_pos (1 + w_pos w) w))
    else (Err EValueError, w_set_pos (1 + w_pos w) w).
Proof using Hok.
  intros Hr. pose proof (senderkey_wf _ _ _ Hr) as [Hw Hws]%Forall_cons. destruct (chain_bound s Hw) as [Hcb Hid].
  unfold group_encrypt. rewrite run_rethrow, run_bind, run_do, load_senderkey, Hr. rewrite run_bind, run_lift. cbn [first_state].
  rewrite (sck_message_okm C Hok). cbn [smCipher smIv smIteration]. change (scKey (sks_getSenderChainKey s)) with (chain_key s).
  set (seed := group_seed C (chain_key s)).
  assert (length (take 16 (group_okm C seed)) = 16 /\ length (take 32 (drop 16 (group_okm C seed))) = 32) as [L1 L2].
  { pose proof (mk_senderMessageKey_lengths C Hok 0 seed) as [A B]. rewrite (mk_sender_okm C Hok) in A, B. done. }
  destruct (aes_roundtrip C Hok (take 32 (drop 16 (group_okm C seed))) (take 16 (group_okm C seed)) pt L2 L1) as (ct & He & Hd & k & Hk1 & Hk2).
  exists ct, k. split; [done|]. split; [done|]. cbv zeta.
  set (signed := x33 :: sk_enc (SkS (Some (key_id s)) (Some (chain_at s)) (Some ct))).
  split.
  { intros Hp Hn. assert (length (sign C (resize 64 x00 (w_tape w (w_pos w))) (signing_private s) signed) = 64) as Hsig
      by (apply (co_sign_len C Hok); [apply resize_length|done]). split.
    - rewrite app_length, Hsig. unfold signed. cbn [length]. lia.
    - apply sk_parse_signed; [done|lia|done]. }
  rewrite run_bind, run_lift, He. rewrite run_bind, run_lift.
  change (scIteration (sks_getSenderChainKey s)) with (chain_at s). change (sks_getKeyId s) with (key_id s).
  rewrite sk_tosign_ok by lia. rewrite run_bind. change (sks_getSigningKeyPrivate s) with (signing_private s).
  destruct (Nat.eq_dec (length (signing_private s)) 32) as [E|E].
  - rewrite run_calculateSignature by done. rewrite run_bind, run_lift. unfold sks_setSenderChainKey. cbn [sck_next scIteration scKey].
    change (scIteration (sks_getSenderChainKey s)) with (chain_at s). change (scKey (sks_getSenderChainKey s)) with (chain_key s).
    destruct (set_u32 (chain_at s + 1)) as [x|e] eqn:Eu.
    + apply set_u32_inv in Eu as [-> Hu]. rewrite bool_decide_true by done. done.
    + apply set_u32_err in Eu as [-> Hu]. rewrite (bool_decide_false (length (signing_private s) = 32 /\ _)) by (intros [_ ?]; lia). done.
  - unfold calculateSignature. rewrite run_bind, run_do. cbn [step_call]. rewrite run_lift. unfold calculateSignature_with, c_calculateSignature.
    rewrite resize_length, (proj2 (Nat.eqb_neq _ _) E). cbn [Nat.eqb andb]. rewrite (bool_decide_false (length (signing_private s) = 32 /\ _)) by (by intros [? _]). done.
Qed.

Lemma group_send_plain w name p p' :
  (run (group_encrypt C name p) w).2 = (run (group_encrypt C name p') w).2 /\
  alike (fun x y => same_group_header x y /\ (length p / 16 = length p' / 16 -> length x = length y))
    (run (group_encrypt C name p) w).1 (run (group_encrypt C name p') w).1.
Proof using Hok.
  destruct (senderkey_at w name) as [[|s rec]|e] eqn:Hr.
  1,3: unfold group_encrypt; rewrite !run_rethrow, !run_bind, !run_do, !load_senderkey, Hr; done.
  destruct (group_send_run w name p s rec Hr) as (ct & k & Hk1 & Hk2 & Hb & ->).
  destruct (group_send_run w name p' s rec Hr) as (ct' & k' & Hk1' & Hk2' & Hb' & ->).
  case_bool_decide as Hc; [|done]. destruct Hc as [Hp Hn]. destruct (Hb Hp Hn) as [Hl Hpa], (Hb' Hp Hn) as [Hl' Hpa'].
  cbn [fst snd alike]. split; [done|]. split.
  - eexists _, _. split_and!; [exact Hpa|exact Hpa'|done|done].
  - intros E. rewrite Hl, Hl'. f_equal. apply sk_enc_len. rewrite (padded p p' k k') in Hk1 by done. lia.
Qed.

Lemma group_send_key w name s key w' p p' ct w1 :
  other_group w name 0 s (moved s (chain_at s) key (st_senderMessageKeys s)) w' ->
  group_stepped C (chain_key s) 1 = group_stepped C key 1 ->
  run (group_encrypt C name p) w = (Ok ct, w1) -> exists ct', run (group_encrypt C name p') w' = (Ok ct', w1).
Proof using Hok.
  intros (rec0 & bs & Hr & Hi & Hr' & ->) Hk. destruct rec0 as [|s0 rec]; [done|]. injection Hi as ->. cbn in Hr'.
  destruct (group_send_run w name p s rec Hr) as (c1 & k & _ & _ & _ & ->).
  destruct (group_send_run _ name p' _ rec Hr') as (c2 & k' & _ & _ & _ & ->).
  change (signing_private (moved s (chain_at s) key (st_senderMessageKeys s))) with (signing_private s).
  change (chain_at (moved s (chain_at s) key (st_senderMessageKeys s))) with (chain_at s).
  case_bool_decide as Hc; [|done]. intros [= _ <-]. eexists. f_equal.
  change (chain_key (moved s (chain_at s) key (st_senderMessageKeys s))) with key. rewrite <- Hk.
  destruct w. cbn. by rewrite insert_insert.
Qed.

Lemma group_read_fun s n seed t seed' t' : group_read C s n seed t -> group_read C s n seed' t' -> seed = seed' /\ t = t'.
Proof using.
  intros [a e b Hlt Hm Hi Ha|d Hd Hn] [a' e' b' Hlt' Hm' Hi' Ha'|d' Hd' Hn']; [|lia|lia|].
  - rewrite Hm in Hm'. apply (first_unique (fun x => iteration_of x = n)) in Hm' as (<- & <- & <-); done.
  - assert (d = d') as <- by lia. done.
Qed.

Lemma group_read_other s s' n seed t seed' t' : other_seed C s n s' -> group_read C s n seed t -> group_read C s' n seed' t' -> t = t'.
Proof using.
  intros [key d Hn [H1 H2]|a e b e' Hlt Hm He He' Ha].
  - intros [a e b Hlt|d1 Hd1 Hn1]; [lia|]. intros [a' e' b' Hlt'|d2 Hd2 Hn2]; [cbn in *; lia|].
    change (chain_at (moved s (chain_at s) key (st_senderMessageKeys s))) with (chain_at s) in *.
    change (chain_key (moved s (chain_at s) key (st_senderMessageKeys s))) with key.
    assert (d1 = d) as -> by lia. assert (d2 = d) as -> by lia. rewrite H2. unfold moved. cbn [st_senderKeyId st_senderSigningKey st_senderMessageKeys].
    f_equal. f_equal. apply map_ext_in. intros i Hi%in_seq. by rewrite H1 by lia.
  - intros [a1 e1 b1 Hlt1 Hm1 Hi1 Ha1|d1 Hd1 Hn1]; [|lia].
    intros [a2 e2 b2 Hlt2 Hm2 Hi2 Ha2|d2 Hd2 Hn2]; [|unfold chain_at in *; cbn in *; lia].
    cbn in *. rewrite Hm in Hm1. apply (first_unique (fun x => iteration_of x = n)) in Hm1 as (<- & <- & <-); try done.
    apply (first_unique (fun x => iteration_of x = n)) in Hm2 as (<- & <- & <-); done.
Qed.

Lemma group_msg_header w name bs bs' pt w1 pt' w1' :
  same_group_header bs bs' -> run (group_decrypt C name bs) w = (Ok pt, w1) -> run (group_decrypt C name bs') w = (Ok pt', w1') -> w1 = w1'.
Proof using Hok.
  intros (m & m' & Hm & Hm' & E1 & E2) H H'.
  apply (group_opens_iff C Hok) in H as (m1 & l1 & s & l2 & pub & seed & t & Hp & Hr & Hk & Hf & _ & _ & Hread & _ & _ & ->).
  apply (group_opens_iff C Hok) in H' as (m1' & l1' & s' & l2' & pub' & seed' & t' & Hp' & Hr' & Hk' & Hf' & _ & _ & Hread' & _ & _ & ->).
  rewrite Hm in Hp. injection Hp as <-. rewrite Hm' in Hp'. injection Hp' as <-. rewrite <- E1, <- E2 in *.
  rewrite Hr in Hr'. apply Ok_inj in Hr'.
  apply (first_unique (fun x => key_id x = gKeyId m)) in Hr' as (<- & <- & <-); try done.
  destruct (group_read_fun _ _ _ _ _ _ Hread Hread') as [_ <-]. done.
Qed.

Lemma other_seed_id s n s' : other_seed C s n s' -> key_id s' = key_id s.
Proof using. by intros []. Qed.

Lemma group_other_msg w w' name i s s' bs bs' m pt w1 pt' w1' :
  other_group w name i s s' w' -> sk_msg_parse bs = Ok m -> gKeyId m = key_id s ->
  (forall rec k x, senderkey_at w name = Ok rec -> k < i -> rec !! k = Some x -> key_id x <> gKeyId m) ->
  other_seed C s (gIteration m) s' -> same_group_header bs bs' ->
  run (group_decrypt C name bs) w = (Ok pt, w1) -> run (group_decrypt C name bs') w' = (Ok pt', w1') -> w1 = w1'.
Proof using Hok.
  intros (rec & sbs & Hrec & Hi & Hrec' & ->) Hp0 Hid Hbefore Ho (m0 & m' & Hm & Hm' & E1 & E2) H H'.
  rewrite Hp0 in Hm. injection Hm as <-.
  apply (group_opens_iff C Hok) in H as (m1 & l1 & x & l2 & pub & seed & t & Hp & Hr & Hk & Hf & _ & _ & Hread & _ & _ & ->).
  apply (group_opens_iff C Hok) in H' as (m1' & l1' & x' & l2' & pub' & seed' & t' & Hp' & Hr' & Hk' & Hf' & _ & _ & Hread' & _ & _ & ->).
  rewrite Hp0 in Hp. injection Hp as <-. rewrite Hm' in Hp'. injection Hp' as <-. rewrite <- E1, <- E2 in *.
  rewrite Hrec in Hr. apply Ok_inj in Hr. rewrite Hrec' in Hr'. apply Ok_inj in Hr'.
  assert (rec = take i rec ++ s :: drop (S i) rec) as Hsp by (symmetry; by apply take_drop_middle).
  assert (Forall (fun x => key_id x <> gKeyId m) (take i rec)) as Hft.
  { apply Forall_lookup. intros k y [Hy Hlt]%lookup_take_Some. by eapply Hbefore. }
  symmetry in Hr. apply (eq_trans (eq_sym Hsp)) in Hr. apply (first_unique (fun x => key_id x = gKeyId m)) in Hr as (<- & <- & <-); try done.
  assert (<[i := s']> rec = take i rec ++ s' :: drop (S i) rec) as Hsp'.
  { apply insert_take_drop. by eapply lookup_lt_Some. }
  rewrite Hsp' in Hr'. apply (first_unique (fun x => key_id x = gKeyId m)) in Hr' as (<- & <- & <-); try done.
  2: { rewrite (other_seed_id _ _ _ Ho). done. }
  assert (t = t') as <- by (by eapply group_read_other).
  destruct w. cbn. by rewrite insert_insert.
Qed.
(** *** One-time prekeys *)

Lemma bob_agree s id sp rk a b ti tb :
  length (kp_priv a) = 32 -> length (kp_priv b) = 32 -> agree C (kp_priv a) tb = agree C (kp_priv b) tb ->
  initializeSessionAsBob C s id sp rk (Some a) ti tb = initializeSessionAsBob C s id sp rk (Some b) ti tb.
Proof using.
  intros Ha Hb E. unfold initializeSessionAsBob.
  assert (calculateAgreement C tb (kp_priv a) = calculateAgreement C tb (kp_priv b)) as ->; [|done].
  unfold calculateAgreement, c_calculateAgreement. by rewrite Ha, Hb, E.
Qed.

Lemma processV3_prekey w i k k' w' rec m x w1 :
  other_prekey w i k k' w' -> pPreKeyId m = Some i -> length k = 32 -> length k' = 32 -> agree C k (pBaseKey m) = agree C k' (pBaseKey m) ->
  run (processV3 C rec m) w = (Ok x, w1) -> w1 = w /\ run (processV3 C rec m) w' = (Ok x, w').
Proof using.
  intros (bs & bs' & pr & pr' & Hbs & Hpr & Hpr' & Hne & Epub & Ek & Ek' & ->) Hi Hk Hk' E. unfold processV3. rewrite Hi.
  destruct (sr_hasSessionState _ _ _); [by intros [= <- <-]|]. intros H.
  apply run_bind_ok in H as (spr & w2 & H1 & H). pose proof H1 as [-> _]%load_signed.
  apply run_bind_ok in H as (spk & w2 & [Hspk ->]%run_lift_inv & H).
  apply run_bind_ok in H as (id & w2 & Hid & H). rewrite run_do in Hid. injection Hid as <- <-.
  apply run_bind_ok in H as (otpk & w2 & Hotpk & H).
  apply run_bind_ok in Hotpk as (pr0 & w3 & [-> (bs0 & Hb0 & Hpr0)]%load_prekey & Hotpk).
  rewrite Hbs in Hb0. injection Hb0 as <-. rewrite Hpr in Hpr0. injection Hpr0 as <-.
  apply run_bind_ok in Hotpk as (kp & w3 & [Hkp ->]%run_lift_inv & [= <- <-]).
  apply run_bind_ok in H as (s & w2 & [Hs ->]%run_lift_inv & H).
  apply run_bind_ok in H as (reg & w2 & Hreg & H). rewrite run_do in Hreg. injection Hreg as <- <-.
  apply run_bind_ok in H as (s1 & w2 & [Hs1 ->]%run_lift_inv & H).
  apply run_bind_ok in H as (s2 & w2 & [Hs2 ->]%run_lift_inv & H).
  injection H as <- <-. split; [done|].
  assert (prekeyrecord_parse bs' = Ok pr') as Hp' by (unfold prekeyrecord_parse; by destruct bs').
  set (w' := w_set_prekeys _ w).
  assert (exists kp', prekeyrecord_getKeyPair pr' = Ok kp' /\ kp_priv kp' = k') as (kp' & Hkp' & Ekp').
  { unfold prekeyrecord_getKeyPair, stored_keypair in *. rewrite <- Epub.
    apply bind_ok_inv in Hkp as (pub & -> & _). eexists. split; [reflexivity|]. done. }
  apply stored_keypair_inv in Hkp. rewrite Ek in Hkp.
  rewrite run_bind. assert (run (do (CLoadSignedPreKey (pSignedPreKeyId m))) w' = (Ok spr, w')) as ->.
  { rewrite run_do in H1 |- *. cbn [step_call] in H1 |- *. injection H1 as H1. by rewrite <- H1. }
  rewrite run_bind, run_lift, Hspk, run_bind, run_do. cbn [step_call]. rewrite run_bind, run_bind.
  assert (run (do (CLoadPreKey i)) w' = (Ok pr', w')) as ->.
  { rewrite run_do. cbn [step_call]. unfold w'. cbn [w_set_prekeys w_prekeys]. rewrite lookup_insert. by rewrite Hp'. }
  rewrite run_bind, run_lift, Hkp'. cbn [run]. rewrite run_bind, run_lift.
  rewrite <- (bob_agree _ _ _ _ kp kp') by (rewrite ?Hkp, ?Ekp'; done).
  change (w_identity w') with (w_identity w). rewrite Hs, run_bind, run_do. cbn [step_call]. rewrite run_bind, run_lift.
  change (w_regid w') with (w_regid w). rewrite Hs1, run_bind, run_lift, Hs2. done.
Qed.

Lemma pkmsg_prekey w i k k' w' r d m pt w1 :
  other_prekey w i k k' w' -> pPreKeyId m = Some i -> length k = 32 -> length k' = 32 -> agree C k (pBaseKey m) = agree C k' (pBaseKey m) ->
  run (decryptPkmsg C r d m) w = (Ok pt, w1) -> w_prekeys w1 !! i = None -> run (decryptPkmsg C r d m) w' = (Ok pt, w1).
Proof using Hok.
  intros Ho Hi Hk Hk' E H Hgone. pose proof Ho as (bs & bs' & pr & pr' & Hbs & _ & _ & _ & _ & _ & _ & Hw').
  unfold decryptPkmsg in *. apply run_bind_ok in H as (rec & w0 & H0 & H). rewrite run_do, load_session in H0. injection H0 as Hrec <-.
  rewrite run_bind, run_do, load_session. assert (session_at w' r d = Ok rec) as -> by (by rewrite Hw').
  apply run_bind_ok in H as (x & w2 & H1 & H). unfold builder_process in H1 |- *.
  apply run_bind_ok in H1 as (tr & w3 & H0 & H1). rewrite run_do in H0. cbn [step_call] in H0. injection H0 as Htr <-.
  rewrite !run_bind, run_do. cbn [step_call]. replace (w_trusted w') with (w_trusted w) by (by rewrite Hw'). rewrite Htr.
  destruct tr; [|done]. apply run_bind_ok in H1 as (y & w4 & H0 & H1).
  destruct (processV3_prekey _ _ _ _ _ _ _ _ _ Ho Hi Hk Hk' E H0) as [-> Hv]. rewrite run_bind, Hv.
  rewrite run_bind, run_do in H1. cbn [step_call run] in H1. injection H1 as <- <-.
  rewrite run_bind, run_do. cbn [step_call run]. replace (w_trusted w') with (w_trusted w) by (by rewrite Hw').
  apply run_bind_ok in H as ([p1 rec1] & w3 & H2 & H).
  apply record_run_inv in H2 as (j & s & t & Hj & Hb & Hd & -> & ->).
  rewrite run_bind. erewrite record_run; [|exact Hj|exact Hb|subst w'; exact Hd].
  cbn [snd fst] in H |- *. rewrite run_bind, run_do in H |- *. cbn [step_call] in H |- *.
  destruct y.2 as [i'|]; cbn [run] in H |- *.
  - rewrite run_bind, run_do in H |- *. cbn [step_call run] in H |- *. injection H as <- <-. f_equal.
    cbn in Hgone. rewrite lookup_delete_None in Hgone. destruct Hgone as [->|Hgone]; [|by rewrite Hbs in Hgone].
    subst w'. cbn. rewrite delete_insert_delete. done.
  - injection H as <- <-. cbn in Hgone. by rewrite Hbs in Hgone.
Qed.
(** *** Key exchanges *)

Lemma exchange_kept w r d m w' :
  reachable C w -> run (processKeyExchangeMessage C r d m) w = (Ok None, w') ->
  w' = w \/
  exists rec s id base rat n, session_at w' r d = Ok rec /\ s ∈ sr_previous rec /\
    started s (xSequence m) id base rat /\ exchange_session C w (w_pos w) id base rat m (sr_state rec) n.
Proof using Hok.
  intros Hr H. destruct (response_effect C Hok _ _ _ _ _ Hr H) as (rec & Hrec & _ & _ & [(-> & _)|(id & base & rat & s & n & Hs & _ & He & Hh & _)]); [by left|].
  right. exists (SessionRecord false s (archive_of rec)), (sr_state rec), id, base, rat, n. split_and!; try done. cbn [sr_previous].
  unfold archive_of. destruct (sr_fresh rec) eqn:Ef.
  - exfalso. destruct Hs as (p & Hp & _). apply session_at_fresh in Hrec; [|done]. by rewrite Hrec in Hp.
  - unfold states. cbn. by left.
Qed.
End secret.
