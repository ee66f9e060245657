(** Facts about sessioncipher.py and sessionbuilder.py: which calls are read-only, and the
    decryption with one session state as a pure function of the state, the message and
    the ratchet key pair that may have to be drawn. *)
From Verif Require Import PyBase Wire Protos ProtoFacts Crypto Ecc Kdf Messages State Prog Ratchet Builder Cipher Helper.
From Verif Require Import ProgFacts StateFacts UtilFacts HelperFacts MsgFacts.

Ltac ro := repeat first
  [ apply readonly_lift | by apply readonly_do | apply readonly_generateKeyPair
  | apply readonly_calculateSignature | exact I
  | apply readonly_bind; [|intros ?] | apply readonly_catch; [|intros ?] | apply readonly_if ].

Section cipher.
Context (C : crypto).

Lemma readonly_getOrCreateChainKey s k : readonly (getOrCreateChainKey C s k).
Proof. unfold getOrCreateChainKey. ro. Qed.
Lemma readonly_decryptWithSessionState s m : readonly (decryptWithSessionState C s m).
Proof. unfold decryptWithSessionState. ro. Qed.
Lemma readonly_decryptWithPrevious rec m i l : readonly (decryptWithPrevious C rec m i l).
Proof.
  revert i. induction l as [|s l IH]; intros i; [exact I|]. cbn [decryptWithPrevious].
  ro. apply IH.
Qed.
Lemma readonly_decryptWithSessionRecord rec m : readonly (decryptWithSessionRecord C rec m).
Proof.
  unfold decryptWithSessionRecord. ro. apply readonly_decryptWithPrevious.
Qed.
Lemma readonly_initializeSessionAsAlice s a b c d e f : readonly (initializeSessionAsAlice C s a b c d e f).
Proof. unfold initializeSessionAsAlice. ro. Qed.
Lemma readonly_initializeSession s a b c d e f : readonly (initializeSession C s a b c d e f).
Proof. unfold initializeSession. ro. Qed.
Lemma readonly_processV3 rec m : readonly (processV3 C rec m).
Proof. unfold processV3. ro. destruct (pPreKeyId m); ro. Qed.

(** ** decryptWithSessionState as a pure function *)

(** getOrCreateChainKey given the key pair it would draw. *)
Definition chainStep (s : ss_s) (key : bytes) (ek : keypair) : res (chainKey * ss_s) :=
  has ← st_hasReceiverChain key s;
  if (has : bool) then ck ← st_getReceiverChainKey key s; Ok (ck, s)
  else
    x ← (rootKey ← st_getRootKey s;
         ourEphemeral ← st_getSenderRatchetKeyPair s;
         rk_createChain C rootKey key ourEphemeral);
    senderChain ← rk_createChain C x.1 key ek;
    let s := st_setRootKey senderChain.1 s in
    s ← st_addReceiverChain key x.2 s;
    old ← st_getSenderChainKey s;
    s ← st_setPreviousCounter (cIndex old - 1) s;
    s ← st_setSenderChain ek senderChain.2 s;
    Ok (x.2, s).

(** decryptWithSessionState given the key pair it would draw. *)
Definition decryptPure (s : ss_s) (m : whisperMessage) (ek : keypair) : res (bytes * ss_s) :=
  if negb (st_hasSenderChain s) then Err EInvalidMessage
  else if negb (wVersion m =? st_getSessionVersion s)%N then Err EInvalidMessage
  else
    x ← chainStep s (wRatchetKey m) ek;
    y ← getOrCreateMessageKeys C x.2 (wRatchetKey m) x.1 (wCounter m);
    let mk := y.1 in let s := y.2 in
    remoteId ← st_getRemoteIdentityKey s;
    localId ← st_getLocalIdentityKey s;
    _ ← whisper_verifyMac C m (wVersion m) remoteId localId (mMac mk);
    plaintext ← aes_decrypt C (mCipher mk) (mIv mk) (wBody m);
    Ok (plaintext, st_clearUnacknowledgedPreKeyMessage s).

Context (Hok : crypto_ok C).

Lemma run_getOrCreateChainKey s key w :
  exists w', same_stores w w' /\
  run (getOrCreateChainKey C s key) w = (chainStep s key (kp_at C w (w_pos w)), w').
Proof using Hok.
  unfold getOrCreateChainKey, chainStep. rewrite run_bind, run_lift.
  destruct (st_hasReceiverChain key s) as [[]|e]; cbn [mbind res_bind].
  - exists w. split; [done|]. rewrite run_bind, run_lift. by destruct (st_getReceiverChainKey key s).
  - rewrite run_bind, run_lift.
    destruct (st_getRootKey s ≫= _) as [x|e]; cbn [mbind res_bind]; [|by exists w].
    rewrite run_bind, (run_generateKeyPair C Hok). rewrite run_lift.
    exists (w_set_pos (S (w_pos w)) w). split; [apply same_stores_pos|]. done.
  - by exists w.
Qed.

Lemma run_decryptWithSessionState s m w :
  exists w', same_stores w w' /\
  run (decryptWithSessionState C s m) w = (decryptPure s m (kp_at C w (w_pos w)), w').
Proof using Hok.
  unfold decryptWithSessionState, decryptPure.
  destruct (negb (st_hasSenderChain s)); [by exists w|].
  destruct (negb _); [by exists w|].
  destruct (run_getOrCreateChainKey s (wRatchetKey m) w) as (w' & Hw & H).
  exists w'. split; [done|]. rewrite run_bind, H.
  destruct (chainStep _ _ _) as [x|e]; [|done]. by rewrite run_lift.
Qed.

(** ** Taking a message key from a chain *)

(** What getOrCreateMessageKeys does to the one chain structure concerned. *)
Definition mk_stored (m : messageKeys) : mk_s := MkS (Some (mCounter m)) (Some (mCipher m)) (Some (mMac m)) (Some (mIv m)).

Definition chainTake (kdf : N) (c : ch_s) (n : N) : res (messageKeys * ch_s) :=
  let ck := ch_getChainKey kdf c in
  if (n <? cIndex ck)%N then
    match take_messageKey n (ch_messageKeys c) with
    | Some (m, r) => Ok (mk_toMessageKeys m, ch_set_messageKeys r c)
    | None => Err EDuplicateMessage
    end
  else if (2000 <? n - cIndex ck)%N then Err EInvalidMessage
  else
    let d := N.to_nat (n - cIndex ck) in
    if (n + 1 <? 2 ^ 32)%N then
      Ok (ck_messageKeys C (Nat.iter d (ck_next C) ck),
          ch_set_chainKey (Some (CkS (Some (n + 1)%N) (Some (cKey (Nat.iter (S d) (ck_next C) ck)))))
            (ch_set_messageKeys (ch_messageKeys c ++
               map (fun i => mk_stored (ck_messageKeys C (Nat.iter i (ck_next C) ck))) (seq 0 d)) c))
    else Err EValueError.

(** Replacing chains *)

Lemma put_put j c c' s : st_putReceiverChain j c' (st_putReceiverChain j c s) = st_putReceiverChain j c' s.
Proof. unfold st_putReceiverChain. cbn [ss_receiverChains ss_set_receiverChains]. by rewrite list_insert_insert. Qed.

Lemma put_id j c s : ss_receiverChains s !! j = Some c -> st_putReceiverChain j c s = s.
Proof. intros H. unfold st_putReceiverChain. rewrite list_insert_id by done. by destruct s. Qed.

Lemma theReceiverChain_ok key s x :
  find_chain key (ss_receiverChains s) 0 = Ok (Some x) -> st_theReceiverChain key s = Ok x.
Proof. intros H. unfold st_theReceiverChain, st_getReceiverChain. by rewrite H. Qed.

Lemma find_chain_put key s c j c' :
  find_chain key (ss_receiverChains s) 0 = Ok (Some (c, j)) -> ch_ratchetKey c' = ch_ratchetKey c ->
  find_chain key (ss_receiverChains (st_putReceiverChain j c' s)) 0 = Ok (Some (c', j)).
Proof. intros. by apply find_chain_insert with c. Qed.

Lemma ch_set_messageKeys_id c : ch_set_messageKeys (ch_messageKeys c) c = c.
Proof. by destruct c. Qed.
Lemma ch_set_messageKeys_set a b c : ch_set_messageKeys a (ch_set_messageKeys b c) = ch_set_messageKeys a c.
Proof. done. Qed.

(** The skipping loop stores the keys of the skipped messages in order. *)
Lemma skipMessageKeys_ok n key ck s c j :
  find_chain key (ss_receiverChains s) 0 = Ok (Some (c, j)) ->
  (n = 0%nat \/ (cIndex ck + N.of_nat n <= 2 ^ 32)%N) ->
  skipMessageKeys C n key ck s
  = Ok (Nat.iter n (ck_next C) ck,
        st_putReceiverChain j (ch_set_messageKeys (ch_messageKeys c ++
          map (fun i => mk_stored (ck_messageKeys C (Nat.iter i (ck_next C) ck))) (seq 0 n)) c) s).
Proof.
  revert ck s c. induction n as [|n IH]; intros ck s c Hf Hn.
  - cbn [skipMessageKeys map seq Nat.iter]. rewrite app_nil_r, ch_set_messageKeys_id.
    rewrite put_id; [done|]. by eapply find_chain_lookup.
  - cbn [skipMessageKeys]. unfold st_setMessageKeys.
    rewrite (theReceiverChain_ok _ _ _ Hf), bind_ok.
    rewrite ck_messageKeys_counter, set_u32_ok by lia. rewrite !bind_ok. cbn [fst snd].
    erewrite IH; [| by eapply find_chain_put|].
    2: { right. cbn [ck_next cIndex]. lia. }
    f_equal. f_equal; [by rewrite Nat.iter_succ_r|].
    rewrite put_put. f_equal. rewrite ch_set_messageKeys_set. f_equal.
    cbn [ch_messageKeys ch_set_messageKeys].
    rewrite <- app_assoc. f_equal. cbn [seq map app]. f_equal.
    rewrite <- seq_shift, map_map. apply map_ext. intros i. by rewrite Nat.iter_succ_r.
Qed.

Lemma skipMessageKeys_err n key ck s c j :
  find_chain key (ss_receiverChains s) 0 = Ok (Some (c, j)) ->
  (n <> 0)%nat -> (2 ^ 32 < cIndex ck + N.of_nat n)%N ->
  skipMessageKeys C n key ck s = Err EValueError.
Proof.
  revert ck s c. induction n as [|n IH]; intros ck s c Hf Hn0 Hn; [done|].
  cbn [skipMessageKeys]. unfold st_setMessageKeys.
  rewrite (theReceiverChain_ok _ _ _ Hf), bind_ok. rewrite ck_messageKeys_counter.
  destruct (set_u32 (cIndex ck)) as [i|e] eqn:E.
  - apply set_u32_inv in E as [-> Hi]. rewrite !bind_ok. cbn [fst snd].
    eapply IH; [by eapply find_chain_put|lia|]. cbn [ck_next cIndex]. lia.
  - apply set_u32_err in E as [-> _]. done.
Qed.

Lemma ck_next_iter_index n ck : cIndex (Nat.iter n (ck_next C) ck) = (cIndex ck + N.of_nat n)%N.
Proof. by rewrite ck_next_iter. Qed.

(** getOrCreateMessageKeys only touches the chain of the given key. *)
Lemma getOrCreateMessageKeys_eq s key c j kdf n :
  find_chain key (ss_receiverChains s) 0 = Ok (Some (c, j)) ->
  getOrCreateMessageKeys C s key (ch_getChainKey kdf c) n
  = (y ← chainTake kdf c n; Ok (y.1, st_putReceiverChain j y.2 s)).
Proof.
  intros Hf. unfold getOrCreateMessageKeys, chainTake.
  set (ck := ch_getChainKey kdf c).
  destruct (n <? cIndex ck)%N eqn:E1.
  - unfold st_hasMessageKeys, st_removeMessageKeys. rewrite (theReceiverChain_ok _ _ _ Hf), !bind_ok.
    cbn [fst snd]. destruct (take_messageKey n (ch_messageKeys c)) as [[m r]|] eqn:E.
    + destruct (existsb _ _) eqn:Ex; [done|].
      apply existsb_hasIndex in Ex. apply take_messageKey_none in Ex. congruence.
    + apply take_messageKey_none in E. rewrite (proj2 (existsb_hasIndex _ _)) by done. done.
  - destruct (2000 <? n - cIndex ck)%N eqn:E2; [done|].
    apply N.ltb_ge in E1, E2.
    destruct (n + 1 <? 2 ^ 32)%N eqn:E3; [apply N.ltb_lt in E3|apply N.ltb_ge in E3].
    + rewrite (skipMessageKeys_ok _ _ _ _ _ _ Hf) by (right; lia). rewrite !bind_ok. cbn [fst snd].
      unfold st_setReceiverChainKey.
      erewrite theReceiverChain_ok; [|by eapply find_chain_put]. rewrite bind_ok. cbn [fst snd].
      unfold ch_putChainKey.
      assert (cIndex (ck_next C (Nat.iter (N.to_nat (n - cIndex ck)) (ck_next C) ck)) = n + 1)%N as Hi.
      { cbn [ck_next cIndex]. rewrite ck_next_iter_index, N2Nat.id. lia. }
      rewrite Hi, set_u32_ok by done. rewrite !bind_ok. f_equal. f_equal. rewrite put_put. f_equal.
    + destruct (decide (N.to_nat (n - cIndex ck) <> 0%nat /\ 2 ^ 32 < n)%N) as [[H1 H2]|H].
      * by rewrite (skipMessageKeys_err _ _ _ _ _ _ Hf) by (done || lia).
      * rewrite (skipMessageKeys_ok _ _ _ _ _ _ Hf) by lia. rewrite !bind_ok. cbn [fst snd].
        unfold st_setReceiverChainKey.
        erewrite theReceiverChain_ok; [|by eapply find_chain_put]. rewrite bind_ok. cbn [fst snd].
        unfold ch_putChainKey.
        assert (cIndex (ck_next C (Nat.iter (N.to_nat (n - cIndex ck)) (ck_next C) ck)) = n + 1)%N as Hi.
        { cbn [ck_next cIndex]. rewrite ck_next_iter_index, N2Nat.id. lia. }
        rewrite Hi. destruct (set_u32 (n + 1)) eqn:E; [apply set_u32_inv in E; lia|].
        apply set_u32_err in E as [-> _]. done.
Qed.

(** ** The DH ratchet step *)

Lemma rk_createChain_inv r p kp y :
  rk_createChain C r p kp = Ok y ->
  length p = 32 /\ length (kp_priv kp) = 32 /\ rKdf y.1 = rKdf r /\ cKdf y.2 = rKdf r /\ cIndex y.2 = 0%N.
Proof.
  unfold rk_createChain, calculateAgreement, c_calculateAgreement.
  destruct (length (kp_priv kp) =? 32)%nat eqn:E1; [|done].
  destruct (length p =? 32)%nat eqn:E2; [|done]. apply Nat.eqb_eq in E1, E2.
  cbn [andb]. rewrite bind_ok. destruct (bu_split2 _ _ _). intros [= <-]. done.
Qed.

(** A new receiving chain structure. *)
Definition newChain (key : bytes) (ck : chainKey) : ch_s :=
  ChS (Some (pub_serialize key)) None (Some (CkS (Some (cIndex ck)) (Some (cKey ck)))) [].

Definition trimChains (l : list ch_s) : list ch_s := if (5 <? length l)%nat then drop 1 l else l.

(** The state after a DH ratchet step: new root key, appended receiving chain, previous
    counter, new sending chain. *)
Definition steppedState (s : ss_s) (key : bytes) (recvCk : chainKey) (rk : rootKey) (ek : keypair) (sendCk : chainKey) : ss_s :=
  ss_set_senderChain (Some (ch_set_chainKey (Some (CkS (Some (cIndex sendCk)) (Some (cKey sendCk))))
      (ch_set_ratchetKeyPrivate (Some (kp_priv ek)) (ch_set_ratchetKey (Some (pub_serialize (kp_pub ek))) (st_senderChain s)))))
  (ss_set_previousCounter (Some (default 0%N (ck_index (default ck_empty (ch_chainKey (st_senderChain s)))) - 1)%N)
  (ss_set_receiverChains (trimChains (ss_receiverChains s ++ [newChain key recvCk]))
  (ss_set_rootKey (Some (rKey rk)) s))).

Lemma newChain_pub key ck : length key = 32 -> chain_pub (newChain key ck) = Ok key.
Proof. intros H. unfold chain_pub, newChain. cbn [ch_ratchetKey]. rewrite default_Some. apply decodePoint_serialize. lia. Qed.

Lemma find_trim key l c :
  find_chain key l 0 = Ok None -> chain_pub c = Ok key ->
  find_chain key (trimChains (l ++ [c])) 0 = Ok (Some (c, (length (trimChains (l ++ [c])) - 1)%nat)).
Proof.
  intros Hl%find_chain_none Hc. unfold trimChains. case_match.
  - destruct l as [|x l]; [done|]. change (drop 1 ((x :: l) ++ [c])) with (l ++ [c]). rewrite app_length. cbn [length].
    replace (length l + 1 - 1)%nat with (0 + length l)%nat by lia.
    apply find_chain_app; [done|]. by inversion Hl.
  - rewrite app_length. cbn [length]. replace (length l + 1 - 1)%nat with (0 + length l)%nat by lia.
    by apply find_chain_app.
Qed.

(** chainStep either finds the chain or makes a DH ratchet step; either way the chain is
    then there. *)
Lemma chainStep_inv s key ek ck s' :
  chainStep s key ek = Ok (ck, s') ->
  exists kdf c j,
    hkdf_createFor (st_getSessionVersion s) = Ok kdf /\
    find_chain key (ss_receiverChains s') 0 = Ok (Some (c, j)) /\ ck = ch_getChainKey kdf c /\
    ((s' = s) \/
     (find_chain key (ss_receiverChains s) 0 = Ok None /\ length key = 32 /\
      exists our x y,
        st_getSenderRatchetKeyPair s = Ok our /\
        rk_createChain C (RootKey kdf (default [] (ss_rootKey s))) key our = Ok x /\
        rk_createChain C x.1 key ek = Ok y /\
        c = newChain key x.2 /\ s' = steppedState s key x.2 y.1 ek y.2)).
Proof.
  unfold chainStep, st_hasReceiverChain, st_getReceiverChain.
  intros ([] & Hhas & H)%bind_ok_inv.
  - apply bind_ok_inv in Hhas as (o & Hf & Ho). destruct o as [[c j]|]; [|done].
    apply bind_ok_inv in H as (ck' & Hck & [= -> ->]).
    unfold st_getReceiverChainKey in Hck. rewrite (theReceiverChain_ok _ _ _ Hf), bind_ok in Hck.
    apply bind_ok_inv in Hck as (kdf & Hkdf & [= <-]).
    exists kdf, c, j. split_and!; auto.
  - apply bind_ok_inv in Hhas as (o & Hf & Ho). destruct o as [[c j]|]; [done|]. clear Ho.
    apply bind_ok_inv in H as (x & Hx & H).
    apply bind_ok_inv in Hx as (rk & Hrk & (our & Hour & Hx)%bind_ok_inv).
    apply bind_ok_inv in Hrk as (kdf & Hkdf & [= <-]).
    apply bind_ok_inv in H as (y & Hy & H).
    apply bind_ok_inv in H as (s1 & Hs1 & H).
    apply bind_ok_inv in H as (old & Hold & H).
    apply bind_ok_inv in H as (s2 & Hs2 & H).
    apply bind_ok_inv in H as (s3 & Hs3 & [= <- <-]).
    pose proof (rk_createChain_inv _ _ _ _ Hx) as (Hkl & Hpl & Hr & Hck & Hci).
    cbn [rKdf] in *.
    apply bind_ok_inv in Hs1 as (z & [-> Hz]%ch_putChainKey_inv & [= <-]).
    change (ch_set_chainKey _ _) with (newChain key x.2) in *.
    apply bind_ok_inv in Hold as (kdf' & Hkdf' & [= <-]).
    apply bind_ok_inv in Hs2 as (pc & [-> Hpc]%set_u32_inv & [= <-]).
    apply bind_ok_inv in Hs3 as (z' & [-> Hz']%ch_putChainKey_inv & [= <-]).
    exists kdf, (newChain key x.2), (length (trimChains (ss_receiverChains s ++ [newChain key x.2])) - 1)%nat.
    split_and!.
    + done.
    + apply find_trim; [done|by apply newChain_pub].
    + unfold ch_getChainKey, newChain. cbn [ch_chainKey]. rewrite default_Some. cbn [ck_key ck_index].
      rewrite !default_Some. destruct x as [xr [k i c0]]. cbn in Hck |- *. by rewrite Hck.
    + right. split_and!; [done..|]. exists our, x, y. split_and!; done.
Qed.
End cipher.
