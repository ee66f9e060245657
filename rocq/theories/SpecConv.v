(** What two devices should see whatever the network does: an independent description of a
    conversation, and of sessions that match. *)
From Verif Require Import PyBase Protos Crypto Ecc Messages State Prog Sched SpecUtil SpecSession SpecKeys.

(** ** The conversation as it should be *)

(** Both devices take turns: a device starts a new sending chain when it receives the first
    message of a chain it has not seen.  Chains are numbered; a message is its chain, its
    number in the chain and its plaintext. *)
Definition msg : Type := nat * N * bytes.

(** The device sends in chain [p_turn], has sent [p_sent] messages in it, and has received
    the messages [p_got] (chain and number).  [p_alone]: it keeps no older session that
    could be tried when this one refuses a message. *)
Record party := Party { p_turn : nat; p_sent : N; p_got : list (nat * N); p_alone : bool }.

(** One more than the greatest number received in a chain, 0 if nothing was received. *)
Definition next_of (l : nat) (got : list (nat * N)) : N :=
  foldr (fun x n => if (x.1 =? l)%nat then N.max (x.2 + 1) n else n) 0%N got.

(** What the user of the device sees. [SUnknown]: some exception; or, if an older session
    or a forged MAC accepts the message, anything. *)
Inductive seen := SNothing | SSent | SReceived (plaintext : bytes) | SRaised (e : exn) | SUnknown.

(** A message arrives.  The five most recent chains are those whose number differs from
    that of the own sending chain by 1, 3, 5, 7 or 9. *)
Definition ireceive (m : msg) (p : party) : seen * party :=
  let '(l, c, pt) := m in
  if (l + 9 <? p_turn p)%nat then (SUnknown, p)
  else if bool_decide ((l, c) ∈ p_got p) then (SRaised EDuplicateMessage, p)
  else if (next_of l (p_got p) + 2000 <? c)%N then
    (if p_alone p then SRaised EInvalidMessage else SUnknown, p)
  else
    (SReceived pt,
     if (p_turn p <? l)%nat then Party (S l) 0 ((l, c) :: p_got p) (p_alone p)
     else Party (p_turn p) (p_sent p) ((l, c) :: p_got p) (p_alone p)).

(** Both devices, a device without a session being [None], and all messages sent. *)
Record conv := Conv { c_A : option party; c_B : option party; c_fromA : list msg; c_fromB : list msg }.

(** Sending; a device that has no session raises IndexError. *)
Definition isend (pt : bytes) (o : option party) : seen * option party * list msg :=
  match o with
  | Some p => (SSent, Some (Party (p_turn p) (p_sent p + 1) (p_got p) (p_alone p)), [(p_turn p, p_sent p, pt)])
  | None => (SRaised EIndexError, None, [])
  end.
(** Receiving; a device that has no session gets one with the first message it accepts. *)
Definition ideliver (m : msg) (o : option party) : seen * option party :=
  match o with
  | Some p => let '(e, p') := ireceive m p in (e, Some p')
  | None => let '(e, p') := ireceive m (Party 0 0 [] true) in
            (e, match e with SReceived _ => Some p' | _ => None end)
  end.

Definition iact (a : action) (c : conv) : seen * conv :=
  match a with
  | SendA pt => let '(e, p, m) := isend pt (c_A c) in (e, Conv p (c_B c) (c_fromA c ++ m) (c_fromB c))
  | SendB pt => let '(e, p, m) := isend pt (c_B c) in (e, Conv (c_A c) p (c_fromA c) (c_fromB c ++ m))
  | DeliverA i =>
      match c_fromB c !! i with
      | None => (SNothing, c)
      | Some m => let '(e, p) := ideliver m (c_A c) in (e, Conv p (c_B c) (c_fromA c) (c_fromB c))
      end
  | DeliverB i =>
      match c_fromA c !! i with
      | None => (SNothing, c)
      | Some m => let '(e, p) := ideliver m (c_B c) in (e, Conv (c_A c) p (c_fromA c) (c_fromB c))
      end
  end.

(** The events of a schedule are as they should be.  After a message of a dropped chain (or
    one that is too far ahead, if there are older sessions) was accepted nothing is said. *)
Fixpoint as_expected (l : list action) (es : list event) (c : conv) : Prop :=
  match l, es with
  | [], [] => True
  | a :: l, e :: es =>
      let '(x, c') := iact a c in
      match x with
      | SNothing => e = Nothing /\ as_expected l es c'
      | SSent => (exists ct, e = Sent ct) /\ as_expected l es c'
      | SReceived pt => e = Received pt /\ as_expected l es c'
      | SRaised ex => e = Raised ex /\ as_expected l es c'
      | SUnknown => (exists ex, e = Raised ex /\ as_expected l es c') \/ (exists pt, e = Received pt)
      end
  | _, _ => False
  end.

(** ** Matching sessions *)

Section matching.
Context (C : crypto).

(** The root key after a DH ratchet step. *)
Definition dh_root (root private remote : bytes) : bytes :=
  take 32 (rfc_hkdf (hmac256 C) 1 (match root with [] => None | _ => Some root end)
             (agree C private remote) (ascii "WhisperRatchet") 64).

(** The state has this root key and sends with this ratchet key pair and first chain key,
    nothing having been sent. *)
Definition sends (s : ss_s) (me them root : bytes) (k : keypair) (chain : bytes) : Prop :=
  ss_version s = Some 3%N /\ ss_localIdentity s = Some (x05 :: me) /\ ss_remoteIdentity s = Some (x05 :: them) /\
  ss_rootKey s = Some root /\
  exists c, ss_senderChain s = Some c /\ ch_ratchetKey c = Some (x05 :: kp_pub k) /\
    ch_ratchetKeyPrivate c = Some (kp_priv k) /\ ch_chainKey c = Some (CkS (Some 0%N) (Some chain)).

(** [a] and [b] are the two ends of one session in which nothing was said: [b] sends with
    ratchet key [kb], [a] receives in that chain and sends with [ka] after one ratchet
    step, and neither waits for the answer to a prekey message. *)
Definition matching (a b : ss_s) (ida idb : bytes) (ka kb : keypair) : Prop :=
  genuine C ka /\ genuine C kb /\ length ida = 32 /\ length idb = 32 /\
  ss_pendingPreKey a = None /\ ss_pendingPreKey b = None /\
  exists root chain,
    sends b idb ida root kb chain /\ ss_receiverChains b = [] /\
    sends a ida idb (dh_root root (kp_priv kb) (kp_pub ka)) ka (dh_chain C 3 root (kp_priv kb) (kp_pub ka)) /\
    exists c, ss_receiverChains a = [c] /\ ch_ratchetKey c = Some (x05 :: kp_pub kb) /\
      ch_chainKey c = Some (CkS (Some 0%N) (Some chain)) /\ ch_messageKeys c = [].

(** The public keys made from what a device drew between two moments. *)
Definition drawn (w w' : world) : list bytes :=
  (fun i => genPub C (genPriv C (resize 32 x00 (w_tape w i)))) <$> seq (w_pos w) (w_pos w' - w_pos w).

(** No older session could be tried. *)
Definition alone (rec : sessionRecord) : bool :=
  forallb (fun s => match ss_senderChain s with None => true | Some _ => false end) (sr_previous rec).
End matching.

(** The conversation at its start: the owner of state [a] above, and that of [b]. *)
Definition first_party (rec : sessionRecord) : party := Party 1 0 [] (alone rec).
Definition second_party (rec : sessionRecord) : party := Party 0 0 [] (alone rec).

(** ** Published prekeys *)

(** The device stores this key pair as its signed prekey, or one-time prekey, of this id. *)
Definition holds_signed (w : world) (id : N) (k : keypair) : Prop :=
  exists bs spr, w_signed w !! id = Some bs /\ signedprekeyrecord_parse bs = Ok spr /\ signedprekeyrecord_getKeyPair spr = Ok k.
Definition holds_prekey (w : world) (id : N) (k : keypair) : Prop :=
  exists bs pr, w_prekeys w !! id = Some bs /\ prekeyrecord_parse bs = Ok pr /\ prekeyrecord_getKeyPair pr = Ok k.

(** A bundle made from the keys the device [w] holds; [otpk] is the one-time prekey and its
    id, if there is one. *)
Definition bundle_of (C : crypto) (w : world) (b : preKeyBundle) (spk : keypair) (otpk : option (N * keypair)) : Prop :=
  genuine C (w_identity w) /\ bu_identityKey b = kp_pub (w_identity w) /\
  genuine C spk /\ holds_signed w (bu_signedPreKeyId b) spk /\ bu_signedPreKey b = Some (kp_pub spk) /\
  verifies C (kp_pub (w_identity w)) (x05 :: kp_pub spk) (bu_signedPreKeySignature b) /\
  (bu_signedPreKeyId b < 2 ^ 31)%N /\ (bu_registrationId b < 2 ^ 32)%N /\
  match otpk with
  | Some (i, k) => genuine C k /\ holds_prekey w i k /\ bu_preKeyId b = Some i /\ bu_preKey b = Some (kp_pub k) /\ (i < 2 ^ 32)%N
  | None => bu_preKeyId b = None /\ bu_preKey b = None
  end.

(** The device [w], known to the peer or not, can use its own identity. *)
Definition able (C : crypto) (w : world) : Prop := genuine C (w_identity w) /\ (w_regid w < 2 ^ 32)%N.

(** A key pair the library generated. *)
Definition generated (C : crypto) (k : keypair) : Prop :=
  exists seed, length seed = 32 /\ k = KeyPair (genPub C (genPriv C seed)) (genPriv C seed).

(** The two sessions match, one way or the other. *)
Definition joined (C : crypto) (a b : ss_s) (ida idb : bytes) (ka kb : keypair) : Prop :=
  matching C a b ida idb ka kb \/ matching C b a idb ida kb ka.

(** The conversation between them. *)
Definition joined_conv (C : crypto) (a b : sessionRecord) (ida idb : bytes) (ka kb : keypair) (c : conv) : Prop :=
  (matching C (sr_state a) (sr_state b) ida idb ka kb /\ c = Conv (Some (first_party a)) (Some (second_party b)) [] []) \/
  (matching C (sr_state b) (sr_state a) idb ida kb ka /\ c = Conv (Some (second_party a)) (Some (first_party b)) [] []).
