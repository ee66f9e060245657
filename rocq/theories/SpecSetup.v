(** The sessions that handshakes set up: an independent description, used by C74. *)
From Verif Require Import PyBase Protos Crypto Ecc Messages State Prog Builder HelperFacts SpecUtil SpecSession SpecApi SpecKeys SpecRatchet.

Section setup.
Context (C : crypto).

(** The session of the party that starts: from the derived keys a receiving chain of their
    ratchet key, and a DH ratchet step with the fresh key pair [kp] to send. *)
Definition initiator_session (local remote theirRatchet : bytes) (kp : keypair) (okm : bytes)
    (pending : option pp_s) (remoteReg localReg : option N) (baseKey : option bytes) : ss_s :=
  let root := take 32 okm in
  SsS (Some 3%N) (Some (x05 :: local)) (Some (x05 :: remote)) (Some (dh_root C 3 root (kp_priv kp) theirRatchet)) None
      (Some (ChS (Some (x05 :: kp_pub kp)) (Some (kp_priv kp))
                 (Some (CkS (Some 0%N) (Some (dh_chain C 3 root (kp_priv kp) theirRatchet)))) []))
      [ChS (Some (x05 :: theirRatchet)) None (Some (CkS (Some 0%N) (Some (drop 32 okm)))) []]
      None pending remoteReg localReg None baseKey.

(** The session from a bundle with signed prekey [spk]; [base] and [kp] are the key pairs drawn. *)
Definition bundle_session (w : world) (b : preKeyBundle) (spk : bytes) (base kp : keypair) : ss_s :=
  let id := w_identity w in
  let okm := x3dh C ([agree C (kp_priv id) spk; agree C (kp_priv base) (bu_identityKey b); agree C (kp_priv base) spk]
                     ++ match bu_preKey b with Some k => [agree C (kp_priv base) k] | None => [] end) in
  initiator_session (kp_pub id) (bu_identityKey b) spk kp okm
    (Some (PpS (match bu_preKey b with Some _ => bu_preKeyId b | None => None end)
               (Some (x05 :: kp_pub base)) (Some (Z.of_N (bu_signedPreKeyId b)))))
    (Some (bu_registrationId b)) (Some (w_regid w)) (Some (x05 :: kp_pub base)).

(** The session from a key exchange with our keys [id], [base] and [rat]: the smaller base
    key, as eight signed integers, starts; that party draws a key pair at [n].  [n'] is
    the position afterwards. *)
Definition exchange_session (w : world) (n : nat) (id base rat : keypair) (m : keyExchangeMessage) (s : ss_s) (n' : nat) : Prop :=
  let tb := xBaseKey m in let ti := xIdentityKey m in
  (lex_lt (key_ints (kp_pub base)) (key_ints tb) /\ n' = S n /\
   s = initiator_session (kp_pub id) ti (xRatchetKey m) (kp_at C w n)
         (x3dh C [agree C (kp_priv id) tb; agree C (kp_priv base) ti; agree C (kp_priv base) tb]) None None None None) \/
  (~ lex_lt (key_ints (kp_pub base)) (key_ints tb) /\ n' = n /\
   s = responder_session (kp_pub id) ti (kp_pub rat) (kp_priv rat)
         (x3dh C [agree C (kp_priv base) ti; agree C (kp_priv id) tb; agree C (kp_priv base) tb]) None None None).

(** The key exchange we started and that is not answered: its number and keys. *)
Definition keypair_of (pub priv : option bytes) (k : keypair) : Prop := identity_of pub (kp_pub k) /\ kp_priv k = default [] priv.
Definition started (s : ss_s) (seq : N) (id base rat : keypair) : Prop :=
  exists p, ss_pendingKeyExchange s = Some p /\ default 0%N (px_sequence p) = seq /\
    keypair_of (px_identityKey p) (px_identityKeyPrivate p) id /\
    keypair_of (px_baseKey p) (px_baseKeyPrivate p) base /\
    keypair_of (px_ratchetKey p) (px_ratchetKeyPrivate p) rat.
Definition start (s : ss_s) (seq : N) (id base rat : keypair) : ss_s :=
  SsS (ss_version s) (ss_localIdentity s) (ss_remoteIdentity s) (ss_rootKey s) (ss_previousCounter s)
      (ss_senderChain s) (ss_receiverChains s)
      (Some (PxS (Some seq) (Some (x05 :: kp_pub base)) (Some (kp_priv base)) (Some (x05 :: kp_pub rat)) (Some (kp_priv rat))
                 (Some (x05 :: kp_pub id)) (Some (kp_priv id))))
      (ss_pendingPreKey s) (ss_remoteRegId s) (ss_localRegId s) (ss_needsRefresh s) (ss_aliceBaseKey s).

(** The key exchange message with these keys; the base key is signed with the randomness
    drawn at [n]; the receiver reads the same message. *)
Definition exchange_message (w : world) (n : nat) (seq flags : N) (id base rat : keypair) (m : keyExchangeMessage) : Prop :=
  xVersion m = 3%N /\ xSequence m = seq /\ xFlags m = flags /\
  xBaseKey m = kp_pub base /\ xRatchetKey m = kp_pub rat /\ xIdentityKey m = kp_pub id /\
  xBaseKeySignature m = sign C (resize 64 x00 (w_tape w n)) (kp_priv id) (x05 :: kp_pub base) /\
  (length (kp_pub id) = 32 -> kx_msg_parse (xSerialized m) = Ok m).

(** The world after a handshake: the session stored, the identity remembered. *)
Definition handshaken (w : world) (r d : Z) (identity : bytes) (n : nat) (s : ss_s) (rec : sessionRecord) (w' : world) : Prop :=
  session_at w' r d = Ok (SessionRecord false s (archive_of rec)) /\
  exists bs, w' = w_set_trusted (<[r := identity]> (w_trusted w)) (w_set_sessions (<[(r, d) := bs]> (w_sessions w)) (w_set_pos n w)).
End setup.
