(** Properties C01, C11, C12, C18, C20: two devices talk. *)
From Verif Require Import PyBase Wire Protos ProtoFacts Crypto Ecc Kdf Messages State Prog Ratchet Builder Cipher Groups Helper.
From Verif Require Import HelperFacts SpecUtil SpecSession SpecKeys SpecConv ConvStart KxProofs ConvRefuted Toy Sched Ex.

(** ** C01: messages survive any delivery order *)

(** [joined_conv]: the two sessions match, one side or the other being the one that already
    made a ratchet step; [c] is the conversation in which nothing was said.  Any schedule
    [l] of sends and deliveries gives the events [as_expected] by the ideal conversation.
    The only assumptions are that the keys drawn are different ones and that fewer than 2^32
    steps are taken (the counter has 32 bits on the wire). *)
Theorem C01_conversation : forall C, crypto_ok C -> forall rA dA rB dB wA wB recA recB ida idb ka kb c l es n',
  session_at wA rB dB = Ok recA -> session_at wB rA dA = Ok recB ->
  joined_conv C recA recB ida idb ka kb c ->
  play C rA dA rB dB l (Net wA wB [] []) = (es, n') ->
  NoDup ([kp_pub ka; kp_pub kb] ++ drawn C wA (n_A n') ++ drawn C wB (n_B n')) ->
  (N.of_nat (length l) < 2 ^ 32)%N ->
  as_expected l es c.
Proof. exact joined_conversation. Qed.
Print Assumptions C01_conversation.

(** The property asks for DuplicateMessage whenever a delivered message comes again.  If its
    chain is no longer among the five most recent the exception is another one: here
    InvalidMessage. *)
Theorem C01_dropped_duplicate_refuted : exists C rA dA rB dB wA wB b l1 l2 pt es1 es2 n1 n2 i,
  crypto_ok C /\ (run (processPreKeyBundle C rB dB b) wA).1 = Ok tt /\
  play C rA dA rB dB l1 (Net (run (processPreKeyBundle C rB dB b) wA).2 wB [] []) = (es1 ++ [Received pt], n1) /\
  (exists l1', l1 = l1' ++ [DeliverB i]) /\
  play C rA dA rB dB l2 n1 = (es2 ++ [Raised EInvalidMessage], n2) /\ (exists l2', l2 = l2' ++ [DeliverB i]).
Proof. exact dropped_duplicate. Qed.
Print Assumptions C01_dropped_duplicate_refuted.

(** ** C11: a prekey bundle leads to a working session *)

(** [bundle_of C wB b spk (Some (i, otpk))]: [b] names a signed prekey and a one-time prekey
    that [wB] holds, and carries a valid signature.  The first message, the session, the
    trust, the prekey, and the answer.  [kp_at C w n] is the key pair made from the [n]-th
    outcome of the random source. *)
Theorem C11_first_message : forall C, crypto_ok C -> forall rA dA rB dB b spk i otpk wA wB rec pt reply,
  able C wA -> able C wB -> bundle_of C wB b spk (Some (i, otpk)) ->
  trusts wA rB (kp_pub (w_identity wB)) -> session_at wA rB dB = Ok rec ->
  trusts wB rA (kp_pub (w_identity wA)) -> w_sessions wB !! (rA, dA) = None ->
  NoDup [kp_pub spk; kp_pub (kp_at C wA (w_pos wA)); kp_pub (kp_at C wA (1 + w_pos wA)); kp_pub (kp_at C wA (2 + w_pos wA));
         kp_pub (kp_at C wB (w_pos wB))] ->
  exists wA1 m wA2 m' wB1 ct wB2 wA3,
    run (processPreKeyBundle C rB dB b) wA = (Ok tt, wA1) /\
    run (encrypt C rB dB pt) wA1 = (Ok (CTPreKey m), wA2) /\ prekey_parse (pSerialized m) = Ok m' /\
    run (decryptPkmsg C rA dA m') wB = (Ok pt, wB1) /\
    (exists recB, session_at wB1 rA dA = Ok recB /\ is_Some (ss_senderChain (sr_state recB))) /\
    w_trusted wB1 !! rA = Some (kp_pub (w_identity wA)) /\ (i <> 16777215%N -> w_prekeys wB1 !! i = None) /\
    run (encrypt C rA dA reply) wB1 = (Ok ct, wB2) /\ run (receive C rB dB (ct_wire ct)) wA2 = (Ok reply, wA3).
Proof. exact first_message. Qed.
Print Assumptions C11_first_message.

(** Any schedule from there; the receiver has no session ([None]) until the first message
    reaches it. *)
Theorem C11_schedules : forall C, crypto_ok C -> forall rA dA rB dB b spk i otpk wA wB rec l es n' wA1,
  able C wA -> able C wB -> bundle_of C wB b spk (Some (i, otpk)) ->
  trusts wA rB (kp_pub (w_identity wB)) -> session_at wA rB dB = Ok rec ->
  trusts wB rA (kp_pub (w_identity wA)) -> w_sessions wB !! (rA, dA) = None ->
  run (processPreKeyBundle C rB dB b) wA = (Ok tt, wA1) ->
  play C rA dA rB dB l (Net wA1 wB [] []) = (es, n') ->
  NoDup ([kp_pub spk] ++ drawn C wA (n_A n') ++ drawn C wB (n_B n')) ->
  (N.of_nat (length l) < 2 ^ 32)%N ->
  exists recA, session_at wA1 rB dB = Ok recA /\ as_expected l es (Conv (Some (first_party recA)) None [] []).
Proof. exact from_bundle. Qed.
Print Assumptions C11_schedules.

(** The premises hold for the bundle of the examples. *)
Example C11_premises : able toy alice0 /\ able toy bob1 /\ bundle_of toy bob1 bundle bobSpk (Some (5%N, bobOtpk)).
Proof. exact (conj able_alice0 (conj able_bob1 bundle_ok)). Qed.
(** Reordering, duplication and loss; the ideal conversation gives the same. *)
Definition lively : list action :=
  [SendB [x00]; SendA [x01]; SendA [x02]; SendA [x03]; DeliverB 1; DeliverB 0; DeliverB 1; SendB [x11]; SendB [x12];
   DeliverA 1; SendA [x04]; DeliverB 3; DeliverB 2; DeliverA 0; DeliverA 0; SendB [x13]; DeliverA 2; DeliverA 7].
Definition ideal (l : list action) (c : conv) : list seen :=
  (fix go l c := match l with [] => [] | a :: l => let '(e, c) := iact a c in e :: go l c end) l c.
Example C11_lively : shown <$> played lively =
  [Some (Err EIndexError); None; None; None; Some (Ok [x02]); Some (Ok [x01]); Some (Err EDuplicateMessage); None; None;
   Some (Ok [x12]); None; Some (Ok [x04]); Some (Ok [x03]); Some (Ok [x11]); Some (Err EDuplicateMessage); None; Some (Ok [x13]); None].
Proof. vm_compute. done. Qed.
Example C11_ideal : ideal lively (Conv (Some (Party 1 0 [] true)) None [] []) =
  [SRaised EIndexError; SSent; SSent; SSent; SReceived [x02]; SReceived [x01]; SRaised EDuplicateMessage; SSent; SSent;
   SReceived [x12]; SSent; SReceived [x04]; SReceived [x03]; SReceived [x11]; SRaised EDuplicateMessage; SSent; SReceived [x13]; SNothing].
Proof. vm_compute. done. Qed.
(** The prekey is gone, the identity is trusted. *)
Example C11_after : w_prekeys (n_B (after lively)) !! 5%N = None /\
  w_trusted (n_B (after lively)) !! 1%Z = Some (kp_pub (w_identity alice0)).
Proof. split; vm_compute; done. Qed.

(** ** C12: a bundle without a one-time prekey *)

(** The message object itself is decrypted: *)
Theorem C12_object_partial : forall C, crypto_ok C -> forall rA dA rB dB b spk wA wB rec pt,
  able C wA -> able C wB -> bundle_of C wB b spk None ->
  trusts wA rB (kp_pub (w_identity wB)) -> session_at wA rB dB = Ok rec ->
  trusts wB rA (kp_pub (w_identity wA)) -> w_sessions wB !! (rA, dA) = None ->
  kp_pub spk <> kp_pub (kp_at C wA (1 + w_pos wA)) ->
  exists wA1 m wA2 m',
    run (processPreKeyBundle C rB dB b) wA = (Ok tt, wA1) /\
    run (encrypt C rB dB pt) wA1 = (Ok (CTPreKey m), wA2) /\ prekey_parse (pSerialized m) = Ok m' /\
    (exists wB1, run (decryptPkmsg C rA dA m) wB = (Ok pt, wB1)) /\
    (** but serialised and parsed it is refused, unless a prekey of id 0 is held: the parsed
        message names prekey 0, the default of the protobuf field *)
    (w_prekeys wB !! 0%N = None -> run (decryptPkmsg C rA dA m') wB = (Err EInvalidKeyId, wB)).
Proof. exact no_prekey_message. Qed.
Print Assumptions C12_object_partial.

(** So the property as stated fails. *)
Theorem C12_serialised_refuted : exists C rA dA rB dB b spk wA wB wA1 pt m wA2 m',
  crypto_ok C /\ able C wA /\ able C wB /\ bundle_of C wB b spk None /\
  w_sessions wA !! (rB, dB) = None /\ w_sessions wB !! (rA, dA) = None /\
  w_trusted wA !! rB = None /\ w_trusted wB !! rA = None /\
  run (processPreKeyBundle C rB dB b) wA = (Ok tt, wA1) /\
  run (encrypt C rB dB pt) wA1 = (Ok (CTPreKey m), wA2) /\ prekey_parse (pSerialized m) = Ok m' /\
  (run (decryptPkmsg C rA dA m') wB).1 = Err EInvalidKeyId.
Proof. exact no_prekey_refuted. Qed.
Print Assumptions C12_serialised_refuted.

(** The first message after [bundleNoPreKey], as object and as bytes. *)
Definition lone : preKeyWhisperMessage :=
  match (run (encrypt toy 2 1 [x2a]) (run (processPreKeyBundle toy 2 1 bundleNoPreKey) alice0).2).1 with Ok (CTPreKey m) => m | _ => noPk end.
Example C12_run : (run (decryptPkmsg toy 1 1 lone) bob1).1 = Ok [x2a] /\
  (run (m ← lift (prekey_parse (pSerialized lone)); decryptPkmsg toy 1 1 m) bob1).1 = Err EInvalidKeyId.
Proof. split; vm_compute; done. Qed.

(** ** C18: a key exchange leads to a working session *)

(** Whichever base key is smaller; the messages survive serialisation.  [joined] is the
    premise of C01. *)
Theorem C18_exchange : forall C, crypto_ok C -> forall rA dA rB dB wA wB recA recB,
  generated C (w_identity wA) -> generated C (w_identity wB) ->
  session_at wA rB dB = Ok recA -> session_at wB rA dA = Ok recB -> ss_pendingKeyExchange (sr_state recB) = None ->
  trusts wA rB (kp_pub (w_identity wB)) -> trusts wB rA (kp_pub (w_identity wA)) ->
  kp_pub (kp_at C wA (1 + w_pos wA)) <> kp_pub (kp_at C wB (w_pos wB)) ->
  exists m1 wA1 m2 wB1 wA2 recA' recB' ka kb,
    run (processInitKeyExchangeMessage C rB dB) wA = (Ok m1, wA1) /\ kx_msg_parse (xSerialized m1) = Ok m1 /\
    run (processKeyExchangeMessage C rA dA m1) wB = (Ok (Some m2), wB1) /\ kx_msg_parse (xSerialized m2) = Ok m2 /\
    run (processKeyExchangeMessage C rB dB m2) wA1 = (Ok None, wA2) /\
    session_at wA2 rB dB = Ok recA' /\ session_at wB1 rA dA = Ok recB' /\
    joined C (sr_state recA') (sr_state recB') (kp_pub (w_identity wA)) (kp_pub (w_identity wB)) ka kb /\
    (** and any schedule from there *)
    forall l es n', play C rA dA rB dB l (Net wA2 wB1 [] []) = (es, n') ->
      NoDup ([kp_pub ka; kp_pub kb] ++ drawn C wA2 (n_A n') ++ drawn C wB1 (n_B n')) -> (N.of_nat (length l) < 2 ^ 32)%N ->
      exists c, joined_conv C recA' recB' (kp_pub (w_identity wA)) (kp_pub (w_identity wB)) ka kb c /\ as_expected l es c.
Proof. exact kx_schedules. Qed.
Print Assumptions C18_exchange.

(** ** C20: simultaneous key exchanges converge *)

Theorem C20_simultaneous : forall C, crypto_ok C -> forall rA dA rB dB wA wB recA recB,
  generated C (w_identity wA) -> generated C (w_identity wB) ->
  session_at wA rB dB = Ok recA -> session_at wB rA dA = Ok recB ->
  trusts wA rB (kp_pub (w_identity wB)) -> trusts wB rA (kp_pub (w_identity wA)) ->
  kp_pub (kp_at C wA (1 + w_pos wA)) <> kp_pub (kp_at C wB (1 + w_pos wB)) ->
  exists mA wA1 mB wB1 mA' wA2 mB' wB2 recA' recB' ka kb,
    run (processInitKeyExchangeMessage C rB dB) wA = (Ok mA, wA1) /\ kx_msg_parse (xSerialized mA) = Ok mA /\
    run (processInitKeyExchangeMessage C rA dA) wB = (Ok mB, wB1) /\ kx_msg_parse (xSerialized mB) = Ok mB /\
    run (processKeyExchangeMessage C rB dB mB) wA1 = (Ok (Some mA'), wA2) /\ kx_msg_parse (xSerialized mA') = Ok mA' /\
    run (processKeyExchangeMessage C rA dA mA) wB1 = (Ok (Some mB'), wB2) /\ kx_msg_parse (xSerialized mB') = Ok mB' /\
    run (processKeyExchangeMessage C rB dB mB') wA2 = (Ok None, wA2) /\
    run (processKeyExchangeMessage C rA dA mA') wB2 = (Ok None, wB2) /\
    session_at wA2 rB dB = Ok recA' /\ session_at wB2 rA dA = Ok recB' /\
    joined C (sr_state recA') (sr_state recB') (kp_pub (w_identity wA)) (kp_pub (w_identity wB)) ka kb.
Proof. exact simultaneous. Qed.
Print Assumptions C20_simultaneous.

(** Runs of both: Alice starts; Bob starts; both start.  In one of the first two the starter
    is the one that makes the first ratchet step. *)
Definition noKx : keyExchangeMessage := KeyExchangeMessage 0 0 0 0 [] [] [] [] [].
Definition starter (w1 w2 : world) (r1 r2 : Z) : world * world :=
  let x := run (processInitKeyExchangeMessage toy r2 1) w1 in
  let y := run (processKeyExchangeMessage toy r1 1 (get noKx x.1)) w2 in
  ((run (processKeyExchangeMessage toy r2 1 (default noKx (get None y.1))) x.2).2, y.2).
Definition byAlice : net := let p := starter alice0 bob0 1 2 in Net p.1 p.2 [] [].
Definition byBob : net := let p := starter bob0 alice0 2 1 in Net p.2 p.1 [] [].
Definition byBoth : net :=
  let x := run (processInitKeyExchangeMessage toy 2 1) alice0 in
  let y := run (processInitKeyExchangeMessage toy 1 1) bob0 in
  let x' := run (processKeyExchangeMessage toy 2 1 (get noKx y.1)) x.2 in
  let y' := run (processKeyExchangeMessage toy 1 1 (get noKx x.1)) y.2 in
  Net (run (processKeyExchangeMessage toy 2 1 (default noKx (get None y'.1))) x'.2).2
    (run (processKeyExchangeMessage toy 1 1 (default noKx (get None x'.1))) y'.2).2 [] [].
Definition chat : list action :=
  [SendA [x01]; SendB [x02]; SendA [x03]; DeliverB 1; DeliverA 0; SendB [x04]; DeliverA 1; DeliverB 0; DeliverB 0; DeliverA 0].
Definition chatted (n : net) : list (option (res bytes)) := shown <$> (play toy 1 1 2 1 chat n).1.
Definition expected : list (option (res bytes)) :=
  [None; None; None; Some (Ok [x03]); Some (Ok [x02]); None; Some (Ok [x04]); Some (Ok [x01]); Some (Err EDuplicateMessage); Some (Err EDuplicateMessage)].
Example C18_run : chatted byAlice = expected /\ chatted byBob = expected.
Proof. split; vm_compute; done. Qed.
Example C20_run : chatted byBoth = expected.
Proof. vm_compute. done. Qed.
(** Each of the two answers is marked as the one of a simultaneous exchange and ignored. *)
Example C20_answers :
  let x := run (processInitKeyExchangeMessage toy 2 1) alice0 in
  let y := run (processInitKeyExchangeMessage toy 1 1) bob0 in
  let y' := run (processKeyExchangeMessage toy 1 1 (get noKx x.1)) y.2 in
  let x' := run (processKeyExchangeMessage toy 2 1 (get noKx y.1)) x.2 in
  (run (processKeyExchangeMessage toy 2 1 (default noKx (get None y'.1))) x'.2).1 = Ok None /\
  (run (processKeyExchangeMessage toy 1 1 (default noKx (get None x'.1))) y'.2).1 = Ok None.
Proof. vm_compute. done. Qed.
(** C01 on sessions of both kinds: how many receiving chains each side starts with. *)
Definition chains (w : world) (r : Z) : nat :=
  match session_at w r 1 with Ok rec => length (ss_receiverChains (sr_state rec)) | Err _ => 9 end.
Example C01_roles : (chains (n_A byAlice) 2, chains (n_B byAlice) 1, chains (n_A byBob) 2, chains (n_B byBob) 1) = (1, 0, 1, 0).
Proof. vm_compute. done. Qed.
