(** What stays secret when the storage of a device is read, as relations between two runs:
    an independent description used by C91 and C92. *)
From Verif Require Import PyBase Protos Crypto Ecc Messages State Prog Builder Cipher.
From Verif Require Import SpecUtil SpecSession SpecApi SpecKeys SpecRatchet SpecGroup SpecGroupHist SpecGroupStep.

(** ** Plaintexts *)

(** Two messages that say the same except for the contents. *)
Definition same_header (m m' : whisperMessage) : Prop :=
  wRatchetKey m = wRatchetKey m' /\ wVersion m = wVersion m' /\ wCounter m = wCounter m' /\ wPreviousCounter m = wPreviousCounter m'.
Definition same_wrapper (p p' : preKeyWhisperMessage) : Prop :=
  pVersion p = pVersion p' /\ pRegistrationId p = pRegistrationId p' /\ pPreKeyId p = pPreKeyId p' /\
  pSignedPreKeyId p = pSignedPreKeyId p' /\ pBaseKey p = pBaseKey p' /\ pIdentityKey p = pIdentityKey p' /\
  same_header (pMessage p) (pMessage p').
Definition same_but_contents (c c' : ciphertextMessage) : Prop :=
  match c, c' with
  | CTWhisper m, CTWhisper m' => same_header m m'
  | CTPreKey p, CTPreKey p' => same_wrapper p p'
  | _, _ => False
  end.
Definition same_group_header (bs bs' : bytes) : Prop :=
  exists m m', sk_msg_parse bs = Ok m /\ sk_msg_parse bs' = Ok m' /\ gKeyId m = gKeyId m' /\ gIteration m = gIteration m'.

(** Both calls succeed, with results in the relation, or raise the same exception. *)
Definition alike {A} (R : A -> A -> Prop) (x y : res A) : Prop :=
  match x, y with Ok a, Ok b => R a b | Err e, Err e' => e = e' | _, _ => False end.

(** The state refuses both messages as not its own, or neither. *)
Definition knows_both (C : crypto) (m m' : whisperMessage) (s : ss_s) : Prop :=
  answers C s m (Err EInvalidMessage) <-> answers C s m' (Err EInvalidMessage).

(** ** Keys that were used *)

(** Another session state or sender key record is stored, and nothing else is different. *)
Definition other_session (w : world) (r d : Z) (i : nat) (s s' : ss_s) (w' : world) : Prop :=
  exists rec rec' bs, session_at w r d = Ok rec /\ session_at w' r d = Ok rec' /\
    states rec !! i = Some s /\ states rec' = <[i := s']> (states rec) /\
    w' = w_set_sessions (<[(r, d) := bs]> (w_sessions w)) w.
Definition other_group (w : world) (name : senderKeyName) (i : nat) (s s' : st_s) (w' : world) : Prop :=
  exists rec bs, senderkey_at w name = Ok rec /\ rec !! i = Some s /\ senderkey_at w' name = Ok (<[i := s']> rec) /\
    w' = w_set_senderkeys (<[name := bs]> (w_senderkeys w)) w.

(** A stored one-time prekey has another private key. *)
Definition other_prekey (w : world) (i : N) (k k' : bytes) (w' : world) : Prop :=
  exists bs bs' pr pr', w_prekeys w !! i = Some bs /\ pr_parse bs = Ok pr /\ pr_parse bs' = Ok pr' /\ bs' <> [] /\
    pr_publicKey pr = pr_publicKey pr' /\ default [] (pr_privateKey pr) = k /\ default [] (pr_privateKey pr') = k' /\
    w' = w_set_prekeys (<[i := bs']> (w_prekeys w)) w.

(** The chain with another key. *)
Definition rekeyed (c : ch_s) (key : bytes) : ch_s :=
  ChS (ch_ratchetKey c) (ch_ratchetKeyPrivate c) (Some (CkS (Some (next_index c)) (Some key))) (ch_messageKeys c).

(** The state with another sending chain and root key, or with other receiving chains. *)
Definition with_sending (s : ss_s) (root : option bytes) (c : ch_s) : ss_s :=
  SsS (ss_version s) (ss_localIdentity s) (ss_remoteIdentity s) root (ss_previousCounter s) (Some c)
      (ss_receiverChains s) (ss_pendingKeyExchange s) (ss_pendingPreKey s)
      (ss_remoteRegId s) (ss_localRegId s) (ss_needsRefresh s) (ss_aliceBaseKey s).
Definition with_receiving (s : ss_s) (l : list ch_s) : ss_s :=
  SsS (ss_version s) (ss_localIdentity s) (ss_remoteIdentity s) (ss_rootKey s) (ss_previousCounter s) (ss_senderChain s)
      l (ss_pendingKeyExchange s) (ss_pendingPreKey s)
      (ss_remoteRegId s) (ss_localRegId s) (ss_needsRefresh s) (ss_aliceBaseKey s).

Section keys.
Context (C : crypto).

(** Two chain keys that differ, if at all, only in the keys of the message [d] messages
    ahead: the messages before it have the same keys, and so has everything after it. *)
Definition same_around (version : N) (k k' : bytes) (d : nat) : Prop :=
  (forall i, i < d -> keys_of C version (stepped C k i) = keys_of C version (stepped C k' i)) /\
  stepped C k (S d) = stepped C k' (S d).
Definition same_seeds_around (k k' : bytes) (d : nat) : Prop :=
  (forall i, i < d -> group_seed C (group_stepped C k i) = group_seed C (group_stepped C k' i)) /\
  group_stepped C k (S d) = group_stepped C k' (S d).

(** The secrets a state uses for message number [n] of the ratchet key, exchanged for
    others: the key of the receiving chain; the stored key of the message, if the chain is
    past it; or, if the message starts a new chain, the root key, our private ratchet key
    and the key of our sending chain. *)
Inductive other_secrets (s : ss_s) (version : N) (remote : bytes) (n : N) : ss_s -> Prop :=
| other_chain_key l1 c l2 key d :
    ss_receiverChains s = l1 ++ c :: l2 -> chain_of c remote -> Forall (fun x => exists k, chain_of x k /\ k <> remote) l1 ->
    n = (next_index c + N.of_nat d)%N -> same_around version (next_key c) key d ->
    other_secrets s version remote n (with_receiving s (l1 ++ rekeyed c key :: l2))
| other_stored_key l1 c l2 a e b e' :
    ss_receiverChains s = l1 ++ c :: l2 -> chain_of c remote -> Forall (fun x => exists k, chain_of x k /\ k <> remote) l1 ->
    (n < next_index c)%N -> ch_messageKeys c = a ++ e :: b -> default 0%N (mk_index e) = n -> default 0%N (mk_index e') = n ->
    Forall (fun x => default 0%N (mk_index x) <> n) a ->
    other_secrets s version remote n
      (with_receiving s (l1 ++ ChS (ch_ratchetKey c) (ch_ratchetKeyPrivate c) (ch_chainKey c) (a ++ e' :: b) :: l2))
| other_root_key root private key :
    let c := sending s in
    no_receiving s remote ->
    dh_root C version (default [] (ss_rootKey s)) (our_private s) remote = dh_root C version root private remote ->
    same_around version (dh_chain C version (default [] (ss_rootKey s)) (our_private s) remote)
      (dh_chain C version root private remote) (N.to_nat n) ->
    other_secrets s version remote n
      (with_sending s (Some root) (ChS (ch_ratchetKey c) (Some private) (Some (CkS (Some (next_index c)) (Some key))) (ch_messageKeys c))).

(** The same for a sender key: the chain key, or the stored seed of the message. *)
Inductive other_seed (s : st_s) (n : N) : st_s -> Prop :=
| other_seed_chain key d : n = (chain_at s + N.of_nat d)%N -> same_seeds_around (chain_key s) key d ->
    other_seed s n (moved s (chain_at s) key (st_senderMessageKeys s))
| other_seed_stored a e b e' : (n < chain_at s)%N -> st_senderMessageKeys s = a ++ e :: b -> iteration_of e = n -> iteration_of e' = n ->
    Forall (fun x => iteration_of x <> n) a ->
    other_seed s n (StS (st_senderKeyId s) (st_senderChainKey s) (st_senderSigningKey s) (a ++ e' :: b)).
End keys.
