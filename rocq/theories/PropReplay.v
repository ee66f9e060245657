(** Properties C80 and C81: recorded and altered key exchange messages. *)
From Verif Require Import PyBase Wire Protos Crypto Ecc Kdf Messages State Prog Ratchet Builder Cipher Groups Helper.
From Verif Require Import SpecUtil SpecSession SpecApi SpecTotal SpecSetup SpecReplay ReplayProofs TotalProofs2 Toy Sched Ex.

(** ** C80: a recorded key exchange message cannot replace a session *)

(** This is false: the same offer of a trusted identity is answered however often it comes,
    and each time a new session takes the place of the current one.  After 41 times none of
    the former states is left: all that is stored are answers to the recorded message. *)
Theorem C80_replay_replaces_refuted : forall C, crypto_ok C -> forall w r d m n rec,
  reachable C w -> own_keys_ok w -> offer C m -> trusts w r (xIdentityKey m) ->
  session_at w r d = Ok rec -> sr_fresh rec = false ->
  (exists a, (run (processKeyExchangeMessage C r d m) (replays C r d m n w)).1 = Ok (Some a)) /\
  exists rec' new, session_at (replays C r d m n w) r d = Ok rec' /\
    states rec' = new ++ take (41 - n) (states rec) /\ Forall (answers_exchange C m) new /\ length new = Nat.min n 41.
Proof. exact replay_lost. Qed.
Print Assumptions C80_replay_replaces_refuted.

(** An answer to a key exchange is used once: a second time it is stale. *)
Theorem C80_response_once_partial : forall C, crypto_ok C -> forall w r d m w',
  reachable C w -> run (processKeyExchangeMessage C r d m) w = (Ok None, w') ->
  run (processKeyExchangeMessage C r d m) w' = (if N.testbit (xFlags m) 2 then Ok None else Err EStaleKeyExchange, w').
Proof. exact response_once. Qed.
Print Assumptions C80_response_once_partial.

(** Alice offers, Bob answers, Alice sends a message.  It arrives after the offer came again
    40 times, and is decrypted; after 41 times it is lost. *)
Definition noKx : keyExchangeMessage := KeyExchangeMessage 0 0 0 0 [] [] [] [] [].
Definition offering : res keyExchangeMessage * world := run (processInitKeyExchangeMessage toy 2 1) alice0.
Definition theOffer : keyExchangeMessage := get noKx offering.1.
Definition answering : res (option keyExchangeMessage) * world := run (processKeyExchangeMessage toy 1 1 theOffer) bob1.
Definition theAnswer : keyExchangeMessage := default noKx (get None answering.1).
Definition ending : res (option keyExchangeMessage) * world := run (processKeyExchangeMessage toy 2 1 theAnswer) offering.2.
Definition message : whisperMessage := get noWm (whisper_parse (ct_serialize (get noCt (run (encrypt toy 2 1 [x07]) ending.2).1))).
Example C80_lost :
  (let w40 := replays toy 1 1 theOffer 40 answering.2 in
   let w41 := (run (processKeyExchangeMessage toy 1 1 theOffer) w40).2 in
   ((run (decryptMsg toy 1 1 message) w40).1, (run (decryptMsg toy 1 1 message) w41).1)) = (Ok [x07], Err EInvalidMessage).
Proof. vm_compute. reflexivity. Qed.
Example C80_response_again :
  let again := run (processKeyExchangeMessage toy 2 1 theAnswer) ending.2 in
  ending.1 = Ok None /\ again.1 = Err EStaleKeyExchange /\ w_sessions again.2 = w_sessions ending.2.
Proof. vm_compute. split_and!; reflexivity. Qed.

(** ** C81: a key exchange message is accepted only as its sender made it *)

(** This is false: with the base key, its signature and the identity of any offer, a message
    with any other ratchet key, number and flags is accepted, and the session is set up with
    the ratchet key that was put in. *)
Theorem C81_unsigned_fields_refuted : forall C, crypto_ok C -> forall w r d m ratchet sequence flags,
  reachable C w -> own_keys_ok w -> offer C m -> trusts w r (xIdentityKey m) ->
  length ratchet = 32 -> (sequence < 2 ^ 27)%N -> (flags < 32)%N -> N.testbit flags 0 = true ->
  exists bs m' a w' rec s, kx_msg_parse bs = Ok m' /\ xRatchetKey m' = ratchet /\ xSequence m' = sequence /\ xFlags m' = flags /\
    xBaseKey m' = xBaseKey m /\ xIdentityKey m' = xIdentityKey m /\
    run (processKeyExchangeMessage C r d m') w = (Ok (Some a), w') /\
    session_at w' r d = Ok rec /\ sr_state rec = s /\ answers_exchange C m' s.
Proof. exact unsigned_fields. Qed.
Print Assumptions C81_unsigned_fields_refuted.

(** The base key and the identity are as the sender made them: whatever message changes
    anything, its base key is signed with its identity, which is trusted. *)
Theorem C81_base_key_partial : forall C, crypto_ok C -> forall w r d m x w',
  reachable C w -> run (processKeyExchangeMessage C r d m) w = (Ok x, w') ->
  w' = w \/ verifies C (xIdentityKey m) (x05 :: xBaseKey m) (xBaseKeySignature m) /\ trusts w r (xIdentityKey m).
Proof. exact signed_part. Qed.
Print Assumptions C81_base_key_partial.

(** Bob's offer with another ratchet key and number: Alice answers, and her session is set
    up with that ratchet key. *)
Definition bobOffer : keyExchangeMessage := get noKx (run (processInitKeyExchangeMessage toy 1 1) bob1).1.
Definition altered : keyExchangeMessage :=
  get noKx (kx_create 3 77 1 (xBaseKey bobOffer) (xBaseKeySignature bobOffer) (replicate 32 x2a) (xIdentityKey bobOffer)).
Definition answerTo (m : keyExchangeMessage) : res (option keyExchangeMessage) * world :=
  run (processKeyExchangeMessage toy 2 1 (get noKx (kx_msg_parse (xSerialized m)))) alice0.
Example C81_accepted :
  let s w := sr_state (get sr_new (session_at w 2 1)) in
  (xSequence <$> get None (answerTo altered).1) = Some 77%N /\
  (xSequence <$> get None (answerTo bobOffer).1) = Some (xSequence bobOffer) /\
  (ch_ratchetKey <$> ss_receiverChains (s (answerTo altered).2)) = [Some (x05 :: replicate 32 x2a)] /\
  (ch_ratchetKey <$> ss_receiverChains (s (answerTo bobOffer).2)) = [Some (x05 :: xRatchetKey bobOffer)].
Proof. vm_compute. split_and!; reflexivity. Qed.
(** With another base key the signature does not verify. *)
Example C81_base_refused :
  let m := get noKx (kx_create 3 77 1 (replicate 32 x2a) (xBaseKeySignature theOffer) (xRatchetKey theOffer) (xIdentityKey theOffer)) in
  (run (processKeyExchangeMessage toy 1 1 (get noKx (kx_msg_parse (xSerialized m)))) bob1).1 = Err EInvalidKey.
Proof. vm_compute. reflexivity. Qed.
(** The message is an offer in the sense of the theorems. *)
Example C81_offer : offer toy theOffer.
Proof. unfold offer, verifies. split_and!; vm_compute; reflexivity. Qed.
