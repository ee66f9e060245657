(** What the fields of the stored records say (protobuf/LocalStorageProtocol.proto): an
    independent description used by C93. *)
From Verif Require Import PyBase Wire Protos State SpecRead.

(** Values of other types than in the messages, again of the last occurrence. *)
Definition last_of {A} (f : wval -> option A) (num : N) (fs : list wfield) : option A :=
  last (omap (fun x : wfield => if decide (x.1 = num) then f x.2 else None) fs).
(** 32 bits, the highest of which counts negative. *)
Definition signed32 (n : N) : Z := (Z.of_N (n mod 2 ^ 32) - (if decide (2 ^ 31 <= n mod 2 ^ 32)%N then 2 ^ 32 else 0))%Z.
Definition the_signed : N -> list wfield -> option Z := last_of (fun v => match v with WVar n => Some (signed32 n) | _ => None end).
Definition the_flag : N -> list wfield -> option bool := last_of (fun v => match v with WVar n => Some (bool_decide (n <> 0%N)) | _ => None end).
Definition the_fixed : N -> list wfield -> option N := last_of (fun v => match v with W64 n => Some n | _ => None end).

(** A field with a message in it: all occurrences, each an encoding of fields. *)
Definition occurrences (num : N) (fs : list wfield) : list bytes :=
  omap (fun x : wfield => match x.2 with WLen b => if decide (x.1 = num) then Some b else None | _ => None end) fs.
(** An optional message has the fields of all occurrences together; a repeated one is told
    by each occurrence. *)
Definition part {A} (says : list wfield -> A -> Prop) (num : N) (fs : list wfield) (o : option A) : Prop :=
  exists gs, Forall2 wire (occurrences num fs) gs /\
    match o with None => gs = [] | Some a => gs <> [] /\ says (concat gs) a end.
Definition parts {A} (says : list wfield -> A -> Prop) (num : N) (fs : list wfield) (l : list A) : Prop :=
  exists gs, Forall2 wire (occurrences num fs) gs /\ Forall2 says gs l.

Definition says_chain_key (fs : list wfield) (c : ck_s) : Prop := ck_index c = the_number 1 fs /\ ck_key c = the_bytes 2 fs.
Definition says_message_key (fs : list wfield) (k : mk_s) : Prop :=
  mk_index k = the_number 1 fs /\ mk_cipherKey k = the_bytes 2 fs /\ mk_macKey k = the_bytes 3 fs /\ mk_iv k = the_bytes 4 fs.
Definition says_chain (fs : list wfield) (c : ch_s) : Prop :=
  ch_ratchetKey c = the_bytes 1 fs /\ ch_ratchetKeyPrivate c = the_bytes 2 fs /\
  part says_chain_key 3 fs (ch_chainKey c) /\ parts says_message_key 4 fs (ch_messageKeys c).
Definition says_pending_exchange (fs : list wfield) (p : px_s) : Prop :=
  px_sequence p = the_number 1 fs /\ px_baseKey p = the_bytes 2 fs /\ px_baseKeyPrivate p = the_bytes 3 fs /\
  px_ratchetKey p = the_bytes 4 fs /\ px_ratchetKeyPrivate p = the_bytes 5 fs /\
  px_identityKey p = the_bytes 7 fs /\ px_identityKeyPrivate p = the_bytes 8 fs.
Definition says_pending_prekey (fs : list wfield) (p : pp_s) : Prop :=
  pp_preKeyId p = the_number 1 fs /\ pp_baseKey p = the_bytes 2 fs /\ pp_signedPreKeyId p = the_signed 3 fs.
Definition says_session (fs : list wfield) (s : ss_s) : Prop :=
  ss_version s = the_number 1 fs /\ ss_localIdentity s = the_bytes 2 fs /\ ss_remoteIdentity s = the_bytes 3 fs /\
  ss_rootKey s = the_bytes 4 fs /\ ss_previousCounter s = the_number 5 fs /\
  part says_chain 6 fs (ss_senderChain s) /\ parts says_chain 7 fs (ss_receiverChains s) /\
  part says_pending_exchange 8 fs (ss_pendingKeyExchange s) /\ part says_pending_prekey 9 fs (ss_pendingPreKey s) /\
  ss_remoteRegId s = the_number 10 fs /\ ss_localRegId s = the_number 11 fs /\
  ss_needsRefresh s = the_flag 12 fs /\ ss_aliceBaseKey s = the_bytes 13 fs.
Definition says_record (fs : list wfield) (r : rs_s) : Prop :=
  part says_session 1 fs (rs_currentSession r) /\ parts says_session 2 fs (rs_previousSessions r).
Definition says_prekey (fs : list wfield) (r : pr_s) : Prop :=
  pr_id r = the_number 1 fs /\ pr_publicKey r = the_bytes 2 fs /\ pr_privateKey r = the_bytes 3 fs.
Definition says_signed_prekey (fs : list wfield) (r : spr_s) : Prop :=
  spr_id r = the_number 1 fs /\ spr_publicKey r = the_bytes 2 fs /\ spr_privateKey r = the_bytes 3 fs /\
  spr_signature r = the_bytes 4 fs /\ spr_timestamp r = the_fixed 5 fs.
Definition says_identity (fs : list wfield) (r : ik_s) : Prop := ik_publicKey r = the_bytes 1 fs /\ ik_privateKey r = the_bytes 2 fs.
Definition says_sender_chain (fs : list wfield) (c : sck_s) : Prop := sck_iteration c = the_number 1 fs /\ sck_seed c = the_bytes 2 fs.
Definition says_sender_message (fs : list wfield) (c : smk_s) : Prop := smk_iteration c = the_number 1 fs /\ smk_seed c = the_bytes 2 fs.
Definition says_sender_signing (fs : list wfield) (c : ssk_s) : Prop := ssk_public c = the_bytes 1 fs /\ ssk_private c = the_bytes 2 fs.
Definition says_sender_state (fs : list wfield) (s : st_s) : Prop :=
  st_senderKeyId s = the_number 1 fs /\ part says_sender_chain 2 fs (st_senderChainKey s) /\
  part says_sender_signing 3 fs (st_senderSigningKey s) /\ parts says_sender_message 4 fs (st_senderMessageKeys s).
Definition says_sender_record (fs : list wfield) (l : list st_s) : Prop := parts says_sender_state 1 fs l.
