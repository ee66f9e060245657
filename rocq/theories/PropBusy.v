(** Property C84: a conversation goes on whatever else the two devices do. *)
From Verif Require Import PyBase Wire Protos ProtoFacts Crypto Ecc Kdf Messages State Prog Ratchet Builder Cipher Groups Helper.
From Verif Require Import HelperFacts SpecUtil SpecSession SpecKeys SpecApi SpecConv SpecBusy BusyProofs Toy Sched GroupHistRefuted Ex.

(** ** C84: a conversation is not disturbed *)

(** C01 with [busy] in place of [play]: between the sends and deliveries of the schedule [l]
    both devices may use any other session and any group, die in such calls, refuse any
    messages, bundles and key exchange messages sent in the name of the peer device, and
    write their prekeys and identities.  The events of [l] are those of the ideal
    conversation all the same. *)
Theorem C84_conversation : forall C, crypto_ok C -> forall rA dA rB dB wA wB recA recB ida idb ka kb c l es n',
  session_at wA rB dB = Ok recA -> session_at wB rA dA = Ok recB ->
  joined_conv C recA recB ida idb ka kb c ->
  busy C rA dA rB dB anything l (Net wA wB [] []) es n' ->
  NoDup ([kp_pub ka; kp_pub kb] ++ drawn C wA (n_A n') ++ drawn C wB (n_B n')) ->
  (N.of_nat (length l) < 2 ^ 32)%N ->
  as_expected l es c.
Proof. exact busy_conversation. Qed.
Print Assumptions C84_conversation.

(** C11 likewise: what the second device does meanwhile must leave the prekeys of the bundle
    in the store until the first message is in, and must not make it distrust the peer. *)
Theorem C84_from_bundle : forall C, crypto_ok C -> forall rA dA rB dB b spk i otpk wA wB rec l es n' wA1,
  able C wA -> able C wB -> bundle_of C wB b spk (Some (i, otpk)) ->
  trusts wA rB (kp_pub (w_identity wB)) -> session_at wA rB dB = Ok rec ->
  trusts wB rA (kp_pub (w_identity wA)) -> w_sessions wB !! (rA, dA) = None ->
  run (processPreKeyBundle C rB dB b) wA = (Ok tt, wA1) ->
  busy C rA dA rB dB (still_open rA dA (kp_pub (w_identity wA)) (bu_signedPreKeyId b) spk i otpk) l (Net wA1 wB [] []) es n' ->
  NoDup ([kp_pub spk] ++ drawn C wA (n_A n') ++ drawn C wB (n_B n')) ->
  (N.of_nat (length l) < 2 ^ 32)%N ->
  exists recA, session_at wA1 rB dB = Ok recA /\ as_expected l es (Conv (Some (first_party recA)) None [] []).
Proof. exact busy_from_bundle. Qed.
Print Assumptions C84_from_bundle.

(** Bob has the second message of Alice.  Now come, in the name of Alice, the same message
    altered and a prekey message of another device; Bob refuses both, makes a sender key and
    starts a key exchange with yet another device; then the conversation goes on. *)
Definition started : net := after [SendA [x01]; SendA [x02]; DeliverB 1].
Definition doB (c : apiCall) (n : net) : net := Net (n_A n) (run (api toy c) (n_B n)).2 (n_fromA n) (n_fromB n).
Definition altered : apiCall := AMsg 1 1 (get noWm (whisper_parse (flipLast (wSerialized (pMessage (pkFrom alice1 [x01])))))).
Definition foreign : apiCall := APkmsg 1 1 (pkFrom (run (processPreKeyBundle toy 2 1 bundle) mallory0).2 [x0a]).
Definition noisy : net := doB (AInitKx 1 2) (doB (AGroupCreate GroupHistRefuted.gname) (doB foreign (doB altered started))).
Definition rest : list action := [DeliverB 0; SendB [x11]; DeliverA 0; SendA [x03]; DeliverB 2; DeliverB 1].
Example C84_noise :
  (run (api toy altered) (n_B started)).1 = Err EInvalidMessage /\
  (run (api toy foreign) (n_B started)).1 = Err (EUntrustedIdentity 1 (kp_pub (w_identity mallory0))) /\
  shown <$> (play toy 1 1 2 1 rest noisy).1 =
    [Some (Ok [x01]); None; Some (Ok [x11]); None; Some (Ok [x03]); Some (Err EDuplicateMessage)] /\
  w_pos (n_B noisy) <> w_pos (n_B started).
Proof. vm_compute. split_and!; try reflexivity. discriminate. Qed.
