(** Sender keys: C29 to C33. *)
From Verif Require Import PyBase Wire Protos ProtoFacts Crypto Ecc Kdf Messages State Prog Groups Helper.
From Verif Require Import ProgFacts StateFacts UtilFacts HelperFacts MsgFacts SpecSession SpecGroup GroupFacts SessionProofs.

Section proofs.
Context (C : crypto).

(** ** C30, C31 *)

Lemma group_decrypt_ok name bs w pt w' :
  run (group_decrypt C name bs) w = (Ok pt, w') ->
  exists m rec s pub,
    sk_msg_parse bs = Ok m /\ senderkey_at w name = Ok rec /\ s ∈ rec /\ sks_getKeyId s = gKeyId m /\
    sks_getSigningKeyPublic s = Ok pub /\
    verifies C pub (take (length bs - 64) bs) (drop (length bs - 64) bs).
Proof.
  rewrite run_group_decrypt. destruct (senderkey_at w name) as [[|s0 rec]|e]; [done| |done].
  destruct (groupOpen C (s0 :: rec) bs) as [x|e] eqn:E; [|done]. intros _.
  unfold groupOpen in E.
  apply bind_ok_inv in E as (m & Hm & E). apply bind_ok_inv in E as ([i s] & Hs & E).
  apply bind_ok_inv in E as (pub & Hp & E). apply bind_ok_inv in E as ([] & Hv & _).
  apply find_state_some in Hs as (n & _ & Hl & Hk & _). cbn [snd] in Hp.
  exists m, (s0 :: rec), s, pub. apply sk_verify_inv in Hv.
  apply sk_parse_inv in Hm as Hi. destruct Hi as (Hi & _). rewrite Hi in Hv.
  split_and!; try done. by eapply elem_of_list_lookup_2.
Qed.

Lemma group_decrypt_err name bs w e w' :
  run (group_decrypt C name bs) w = (Err e, w') -> w' = w.
Proof.
  rewrite run_group_decrypt. destruct (senderkey_at w name) as [[|s0 rec]|e1]; try congruence.
  destruct (groupOpen C (s0 :: rec) bs) as [x|e1]; congruence.
Qed.

(** Every change of the group store is that of this name. *)
Lemma group_decrypt_effect name bs w o w' :
  run (group_decrypt C name bs) w = (o, w') ->
  w' = w \/ exists l, w' = w_set_senderkeys (<[name := skr_serialize l]> (w_senderkeys w)) w.
Proof.
  rewrite run_group_decrypt. destruct (senderkey_at w name) as [[|s0 rec]|e1]; intros H; [left; congruence| |left; congruence].
  destruct (groupOpen C (s0 :: rec) bs) as [x|e1]; [right|left; congruence]. injection H as <- <-. eauto.
Qed.

Lemma group_encrypt_none name pt w :
  w_senderkeys w !! name = None -> run (group_encrypt C name pt) w = (Err ENoSession, w).
Proof.
  intros H. unfold group_encrypt. rewrite run_rethrow, run_bind, run_do, load_senderkey.
  unfold senderkey_at. rewrite H. done.
Qed.

Lemma group_decrypt_none name bs w :
  w_senderkeys w !! name = None -> run (group_decrypt C name bs) w = (Err ENoSession, w).
Proof. intros H. rewrite run_group_decrypt. unfold senderkey_at. by rewrite H. Qed.

Lemma group_decrypt_unknown name bs w m rec :
  senderkey_at w name = Ok rec -> rec <> [] -> sk_msg_parse bs = Ok m ->
  (forall s, s ∈ rec -> sks_getKeyId s <> gKeyId m) ->
  run (group_decrypt C name bs) w = (Err EInvalidMessage, w).
Proof.
  intros Hr Hn Hm Hk. rewrite run_group_decrypt, Hr. destruct rec as [|s rec]; [done|].
  unfold groupOpen. rewrite Hm, bind_ok, find_state_none by done. done.
Qed.

Context (Hok : crypto_ok C).

(** ** A chain known from position [it0] on *)

Context (it0 : nat).

(** The [n]-th chain key and message key seed. *)
Definition gkey (ck0 : bytes) (n : nat) : bytes := Nat.iter (n - it0) (fun k => hmac256 C k [x02]) ck0.
Definition gseed (ck0 : bytes) (n : nat) : bytes := hmac256 C (gkey ck0 n) [x01].
Definition gmk (ck0 : bytes) (n : nat) : senderMessageKey := mk_senderMessageKey C (N.of_nat n) (gseed ck0 n).
Definition gentry (ck0 : bytes) (n : nat) : smk_s := SmkS (Some (N.of_nat n)) (Some (gseed ck0 n)).

(** A state at position [m] that has the skipped keys [l]. *)
Definition gstate (id : N) (ck0 pub : bytes) (priv : option bytes) (m : nat) (l : list nat) : st_s :=
  StS (Some id) (Some (SckS (Some (N.of_nat m)) (Some (gkey ck0 m)))) (Some (SskS (Some (x05 :: pub)) priv))
    (gentry ck0 <$> l).

Lemma gkey_S ck0 n : it0 <= n -> gkey ck0 (S n) = hmac256 C (gkey ck0 n) [x02].
Proof. intros H. unfold gkey. rewrite Nat.sub_succ_l by done. by rewrite Nat.iter_succ. Qed.

Lemma gstate_chain id ck0 pub priv m l :
  sks_getSenderChainKey (gstate id ck0 pub priv m l) = SenderChainKey (N.of_nat m) (gkey ck0 m).
Proof. done. Qed.

Lemma gstate_next ck0 m :
  it0 <= m -> sck_next C (SenderChainKey (N.of_nat m) (gkey ck0 m)) = SenderChainKey (N.of_nat (S m)) (gkey ck0 (S m)).
Proof. intros H. unfold sck_next, sck_derivative. cbn [scIteration scKey]. rewrite gkey_S by done. f_equal. lia. Qed.

Lemma gstate_mk ck0 m : sck_messageKey C (SenderChainKey (N.of_nat m) (gkey ck0 m)) = gmk ck0 m.
Proof. done. Qed.

Lemma gstate_wf id ck0 pub priv m l :
  (id < 2 ^ 32)%N -> (N.of_nat m < 2 ^ 32)%N -> Forall (fun i => N.of_nat i < 2 ^ 32)%N l ->
  st_wf (gstate id ck0 pub priv m l).
Proof.
  intros Hid Hm Hl. unfold st_wf. cbn. split_and!; try done.
  apply Forall_fmap. eapply Forall_impl; [exact Hl|]. intros x Hx. done.
Qed.

Lemma skip_gstate n id ck0 pub priv m l :
  it0 <= m -> (N.of_nat (m + n) <= 2 ^ 32)%N ->
  skipSenderKeys C n (SenderChainKey (N.of_nat m) (gkey ck0 m)) (gstate id ck0 pub priv m l)
  = Ok (SenderChainKey (N.of_nat (m + n)) (gkey ck0 (m + n)), gstate id ck0 pub priv m (l ++ seq m n)).
Proof.
  assert (forall n k l, it0 <= k -> (N.of_nat (k + n) <= 2 ^ 32)%N ->
    skipSenderKeys C n (SenderChainKey (N.of_nat k) (gkey ck0 k)) (gstate id ck0 pub priv m l)
    = Ok (SenderChainKey (N.of_nat (k + n)) (gkey ck0 (k + n)), gstate id ck0 pub priv m (l ++ seq k n))) as H; [|apply H].
  clear. intros n. induction n as [|n IH]; intros k l Hk Hb; cbn [skipSenderKeys seq].
  { by rewrite Nat.add_0_r, app_nil_r. }
  unfold sks_addSenderMessageKey. rewrite gstate_mk, gstate_next by done.
  rewrite set_u32_ok by (change (smIteration (gmk ck0 k)) with (N.of_nat k); lia). rewrite bind_ok.
  replace (st_set_senderMessageKeys _ _) with (gstate id ck0 pub priv m (l ++ [k]))
    by (unfold gstate; by rewrite fmap_app).
  rewrite bind_ok, IH by lia. rewrite <- app_assoc. cbn [app]. by replace (S k + n) with (k + S n) by lia.
Qed.

Lemma getSenderKey_ahead id ck0 pub priv m l i :
  it0 <= m -> m <= i -> (N.of_nat (S i) < 2 ^ 32)%N ->
  getSenderKey C (gstate id ck0 pub priv m l) (N.of_nat i)
  = Ok (gmk ck0 i, gstate id ck0 pub priv (S i) (l ++ seq m (i - m))).
Proof.
  intros H0 Hm Hi. unfold getSenderKey. rewrite gstate_chain. cbn [scIteration].
  rewrite (proj2 (N.ltb_ge _ _)) by lia. rewrite (proj2 (Z.ltb_ge _ _)) by lia.
  replace (N.to_nat (N.of_nat i - N.of_nat m)) with (i - m) by lia.
  rewrite skip_gstate by lia. rewrite bind_ok. cbn [fst snd].
  replace (m + (i - m)) with i by lia. rewrite gstate_next by lia. unfold sks_setSenderChainKey. cbn [scIteration scKey].
  rewrite set_u32_ok by done. done.
Qed.

Lemma take_gentry ck0 l1 i l2 :
  i ∉ l1 -> take_senderMessageKey (N.of_nat i) (gentry ck0 <$> l1 ++ i :: l2) = Some (gentry ck0 i, gentry ck0 <$> l1 ++ l2).
Proof.
  induction l1 as [|x l1 IH]; intros Hi; cbn [app fmap list_fmap take_senderMessageKey]; unfold smk_hasIteration at 1; cbn [gentry smk_iteration]; rewrite default_Some.
  - by rewrite N.eqb_refl.
  - apply not_elem_of_cons in Hi as [Hx Hi]. rewrite (proj2 (N.eqb_neq _ _)) by lia.
    cbn [app fmap list_fmap] in IH. change (list_fmap _ _ (gentry ck0) (l1 ++ i :: l2)) with (gentry ck0 <$> l1 ++ i :: l2).
    by rewrite IH.
Qed.

Lemma has_gentry ck0 l i : existsb (smk_hasIteration (N.of_nat i)) (gentry ck0 <$> l) = bool_decide (i ∈ l).
Proof.
  induction l as [|x l IH]; [done|].
  change (existsb (smk_hasIteration (N.of_nat i)) (gentry ck0 <$> x :: l)) with
    ((N.of_nat x =? N.of_nat i)%N || existsb (smk_hasIteration (N.of_nat i)) (gentry ck0 <$> l)).
  rewrite IH. destruct (N.eqb_spec (N.of_nat x) (N.of_nat i)) as [E|E]; cbn [orb].
  - rewrite bool_decide_eq_true_2; [done|]. apply elem_of_cons. left. lia.
  - apply bool_decide_ext. rewrite elem_of_cons. split; [auto|]. intros [->|]; [lia|done].
Qed.

Lemma getSenderKey_stored id ck0 pub priv m l1 i l2 :
  i < m -> i ∉ l1 ->
  getSenderKey C (gstate id ck0 pub priv m (l1 ++ i :: l2)) (N.of_nat i)
  = Ok (gmk ck0 i, gstate id ck0 pub priv m (l1 ++ l2)).
Proof.
  intros Hm Hi. unfold getSenderKey. rewrite gstate_chain. cbn [scIteration].
  rewrite (proj2 (N.ltb_lt _ _)) by lia.
  unfold sks_hasSenderMessageKey. cbn [gstate st_senderMessageKeys]. rewrite has_gentry.
  rewrite bool_decide_eq_true_2 by set_solver.
  unfold sks_removeSenderMessageKey. cbn [gstate st_senderMessageKeys]. by rewrite take_gentry.
Qed.

Lemma getSenderKey_used id ck0 pub priv m l i :
  i < m -> i ∉ l ->
  getSenderKey C (gstate id ck0 pub priv m l) (N.of_nat i) = Err EDuplicateMessage.
Proof.
  intros Hm Hi. unfold getSenderKey. rewrite gstate_chain. cbn [scIteration].
  rewrite (proj2 (N.ltb_lt _ _)) by lia.
  unfold sks_hasSenderMessageKey. cbn [gstate st_senderMessageKeys]. rewrite has_gentry.
  by rewrite bool_decide_eq_false_2.
Qed.

(** ** Messages *)

(** Bytes [b] are message number [i] of the chain, with plaintext [pt]. *)
Definition gmessage (id : N) (ck0 pub : bytes) (i : nat) (pt : bytes) (b : bytes) : Prop :=
  exists ct sig, aes_encrypt C (smCipher (gmk ck0 i)) (smIv (gmk ck0 i)) pt = Ok ct /\
    b = (x33 :: sk_enc (SkS (Some id) (Some (N.of_nat i)) (Some ct))) ++ sig /\
    length sig = 64 /\ length pub = 32 /\
    verify C pub (x33 :: sk_enc (SkS (Some id) (Some (N.of_nat i)) (Some ct))) sig = 0%Z.

Lemma gmk_lengths ck0 i : length (smIv (gmk ck0 i)) = 16 /\ length (smCipher (gmk ck0 i)) = 32.
Proof using Hok. apply (mk_senderMessageKey_lengths C Hok). Qed.

Lemma sk_verify_ok v id it ct b sig pub :
  length sig = 64 -> length pub = 32 -> verify C pub b sig = 0%Z ->
  sk_verifySignature C (SenderKeyMessage v id it ct (b ++ sig)) pub = Ok tt.
Proof.
  intros Hs Hp Hv. unfold sk_verifySignature, bu_split2, SIGNATURE_LENGTH. cbn [gSerialized].
  replace (zlen (b ++ sig) - 64)%Z with (Z.of_nat (length b)) by (unfold zlen; rewrite app_length; lia).
  replace (Z.of_nat (length b) + 64)%Z with (Z.of_nat (length (b ++ sig))) by (rewrite app_length; lia).
  rewrite py_slice_prefix, py_slice_nonneg by (rewrite ?app_length; lia). rewrite Nat2Z.id.
  rewrite take_app, drop_app, take_ge by (rewrite app_length; lia).
  unfold verifySignature, c_verifySignature. rewrite Hs, Hp, Hv. done.
Qed.

(** Opening a genuine message with a record whose first state with the id is [s]. *)
Lemma groupOpen_genuine id ck0 pub priv m l i pt b rec1 rec2 :
  (id < 2 ^ 32)%N -> (N.of_nat i < 2 ^ 32)%N -> gmessage id ck0 pub i pt b ->
  (forall s, s ∈ rec1 -> sks_getKeyId s <> id) ->
  groupOpen C (rec1 ++ gstate id ck0 pub priv m l :: rec2) b =
  (ks ← getSenderKey C (gstate id ck0 pub priv m l) (N.of_nat i);
   plaintext ← res_rethrow (fun _ => true) EInvalidMessage
     (ct ← aes_encrypt C (smCipher (gmk ck0 i)) (smIv (gmk ck0 i)) pt;
      aes_decrypt C (smCipher ks.1) (smIv ks.1) ct);
   Ok (plaintext, rec1 ++ ks.2 :: rec2)).
Proof.
  intros Hid Hi (ct & sig & Hct & -> & Hsig & Hpub & Hv) Hr1. unfold groupOpen.
  rewrite sk_parse_signed by done. rewrite bind_ok. cbn [gKeyId gIteration gCiphertext].
  rewrite find_state_app by done. cbn [find_state].
  change (sks_getKeyId (gstate id ck0 pub priv m l)) with id. rewrite N.eqb_refl, bind_ok. cbn [fst snd].
  unfold sks_getSigningKeyPublic. cbn [gstate st_senderSigningKey ssk_public]. rewrite !default_Some.
  cbn [ssk_public]. rewrite default_Some.
  change (x05 :: pub) with (pub_serialize pub). rewrite decodePoint_serialize by lia. rewrite bind_ok.
  rewrite sk_verify_ok by done. rewrite bind_ok. rewrite Hct.
  destruct (getSenderKey C (gstate id ck0 pub priv m l) (N.of_nat i)) as [ks|e]; [|done].
  rewrite !bind_ok. destruct (res_rethrow _ _ _) as [p|e]; [|done]. rewrite !bind_ok.
  do 2 f_equal. unfold put_state. rewrite insert_app_r_alt by lia. by replace (0 + length rec1 - length rec1) with 0 by lia.
Qed.

Lemma groupOpen_key id ck0 pub priv m l i pt b rec1 rec2 m' l' :
  (id < 2 ^ 32)%N -> (N.of_nat i < 2 ^ 32)%N -> gmessage id ck0 pub i pt b ->
  (forall s, s ∈ rec1 -> sks_getKeyId s <> id) ->
  getSenderKey C (gstate id ck0 pub priv m l) (N.of_nat i) = Ok (gmk ck0 i, gstate id ck0 pub priv m' l') ->
  groupOpen C (rec1 ++ gstate id ck0 pub priv m l :: rec2) b
  = Ok (pt, rec1 ++ gstate id ck0 pub priv m' l' :: rec2).
Proof using Hok.
  intros Hid Hi Hb Hr1 Hk. rewrite (groupOpen_genuine _ _ _ _ _ _ i pt) by done. rewrite Hk, bind_ok. cbn [fst snd].
  destruct (gmk_lengths ck0 i) as [H1 H2].
  destruct (aes_roundtrip C Hok (smCipher (gmk ck0 i)) (smIv (gmk ck0 i)) pt H2 H1) as (ct & -> & H & _).
  rewrite bind_ok, H. done.
Qed.
End proofs.
