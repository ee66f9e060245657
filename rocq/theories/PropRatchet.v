(** C72, C73: exactly what a decryption and an encryption do to a session. *)
From Verif Require Import PyBase Wire Protos Crypto Ecc Messages State Prog Ratchet Builder Cipher Helper Toy Sched.
From Verif Require Import HelperFacts SpecUtil SpecSession SpecApi SpecKeys SpecEncrypt SpecRatchet RatchetProofs Ex.

(** ** C72: a decryption changes the session as the double ratchet says *)

(** [record_read]: the first state that knows the message decrypts it and becomes the
    current one, the others keep their order; [decrypted_to]: its new state, in all fields,
    where the fresh key pair was drawn during the call. *)
Theorem C72_message : forall C, crypto_ok C -> forall w r d m pt w',
  reachable C w -> run (decryptMsg C r d m) w = (Ok pt, w') ->
  exists rec rec' i s n, session_at w r d = Ok rec /\ session_at w' r d = Ok rec' /\
    record_read C (states rec) m pt (kp_at C w n) i s rec' /\
    w_pos w <= n /\ (no_receiving s (wRatchetKey m) -> n < w_pos w').
Proof. exact msg_effect. Qed.
Print Assumptions C72_message.

(** A prekey message: the same for the session it belongs to; if it belongs to none, the
    X3DH session [answering] is put in front of the others first. *)
Theorem C72_prekey_message : forall C, crypto_ok C -> forall w r d m pt w',
  reachable C w -> run (decryptPkmsg C r d m) w = (Ok pt, w') ->
  exists rec rec' l i s n, session_at w r d = Ok rec /\ session_at w' r d = Ok rec' /\
    ((belongs rec (pVersion m) (pBaseKey m) /\ l = states rec) \/
     (~ belongs rec (pVersion m) (pBaseKey m) /\ exists s0, answering C w m s0 /\ l = s0 :: archive_of rec)) /\
    record_read C l (pMessage m) pt (kp_at C w n) i s rec' /\
    w_pos w <= n /\ (no_receiving s (wRatchetKey (pMessage m)) -> n < w_pos w').
Proof. exact pkmsg_effect. Qed.
Print Assumptions C72_prekey_message.

(** Bob's first receipt is message 2: his only receiving chain holds the keys of messages 0
    and 1 and the chain key three steps further; his sending chain and root key come from
    the key pair he drew.  Then Alice receives his answer: she notes that her last message
    in the old chain had number 2. *)
Definition late : net := after [SendA [x01]; SendA [x02]; SendA [x03]; DeliverB 2].
Definition late2 : net := after [SendA [x01]; SendA [x02]; SendA [x03]; DeliverB 2; SendB [x04]; DeliverA 0].
Definition stateAt (w : world) (r : Z) : ss_s := sr_state (get sr_new (session_at w r 1)).
Definition firstBob : ss_s :=
  let m := pkFrom alice0 [x01] in let signed := get noKp (signedprekeyrecord_getKeyPair bobSigned) in
  let one := get noKp (prekeyrecord_getKeyPair bobPreKey) in
  responder_session (kp_pub (w_identity bob1)) (pIdentityKey m) (kp_pub signed) (kp_priv signed)
    (x3dh toy [agree toy (kp_priv signed) (pIdentityKey m); agree toy (kp_priv (w_identity bob1)) (pBaseKey m);
               agree toy (kp_priv signed) (pBaseKey m); agree toy (kp_priv one) (pBaseKey m)])
    (Some 7%N) (Some 7%N) (Some (x05 :: pBaseKey m)).
Definition aliceRatchet : bytes := wRatchetKey (pMessage (pkFrom alice0 [x01])).
Example C72_skipped :
  let root := default [] (ss_rootKey firstBob) in
  let key := dh_chain toy 3 root (our_private firstBob) aliceRatchet in
  let root1 := dh_root toy 3 root (our_private firstBob) aliceRatchet in
  let kp := kp_at toy bob1 (w_pos bob1) in
  ss_receiverChains (stateAt (n_B late) 1) =
    [ChS (Some (x05 :: aliceRatchet)) None (Some (CkS (Some 3%N) (Some (stepped toy key 3))))
       [stored_key toy 3 0 key; stored_key toy 3 1 (stepped toy key 1)]] /\
  ss_rootKey (stateAt (n_B late) 1) = Some (dh_root toy 3 root1 (kp_priv kp) aliceRatchet) /\
  ss_senderChain (stateAt (n_B late) 1) =
    Some (ChS (Some (x05 :: kp_pub kp)) (Some (kp_priv kp))
            (Some (CkS (Some 0%N) (Some (dh_chain toy 3 root1 (kp_priv kp) aliceRatchet)))) []).
Proof. vm_compute. split_and!; reflexivity. Qed.
Example C72_step :
  ss_previousCounter (stateAt (n_A late) 2) = None /\ ss_previousCounter (stateAt (n_A late2) 2) = Some 2%N /\
  length (ss_receiverChains (stateAt (n_A late2) 2)) = 2 /\
  ss_pendingPreKey (stateAt (n_A late) 2) <> None /\ ss_pendingPreKey (stateAt (n_A late2) 2) = None.
Proof. vm_compute. split_and!; (reflexivity || discriminate). Qed.

(** ** C73: an encryption sends what the sending chain says and moves it one step *)

(** [sends]: ratchet key, number, previous counter, body and MAC of the message;
    [encrypted_to]: the new state in all fields.  Until the handshake is acknowledged, the
    message is wrapped with its details. *)
Theorem C73_message : forall C, crypto_ok C -> forall w r d pt ct w',
  run (encrypt C r d pt) w = (Ok ct, w') ->
  exists rec version bs, session_at w r d = Ok rec /\
    w' = w_set_sessions (<[(r, d) := bs]> (w_sessions w)) w /\
    session_at w' r d = Ok (SessionRecord false (encrypted_to C (sr_state rec)) (sr_previous rec)) /\
    version_of (sr_state rec) version /\ sends C (sr_state rec) version pt (inner ct) /\
    match ss_pendingPreKey (sr_state rec) with
    | None => ct = CTWhisper (inner ct)
    | Some p => exists base local, identity_of (pp_baseKey p) base /\ identity_of (ss_localIdentity (sr_state rec)) local /\
        names ct (pp_preKeyId p) (Z.to_N (default 0%Z (pp_signedPreKeyId p))) base local (default 0%N (ss_localRegId (sr_state rec)))
    end.
Proof. exact encrypt_effect. Qed.
Print Assumptions C73_message.

(** The first message after a DH ratchet step: number 0 under the ratchet key drawn in the
    step, and the number of the last message in the chain before. *)
Theorem C73_after_step : forall C, crypto_ok C -> forall w r d m pt0 w1 pt ct w2,
  reachable C w -> run (decryptMsg C r d m) w = (Ok pt0, w1) -> run (encrypt C r d pt) w1 = (Ok ct, w2) ->
  exists rec i s, session_at w r d = Ok rec /\ states rec !! i = Some s /\ answers C s m (Ok pt0) /\
    (forall k s', k < i -> states rec !! k = Some s' -> answers C s' m (Err EInvalidMessage)) /\
    (no_receiving s (wRatchetKey m) ->
     exists n, w_pos w <= n < w_pos w1 /\ wRatchetKey (inner ct) = kp_pub (kp_at C w n) /\
       wCounter (inner ct) = 0%N /\ wPreviousCounter (inner ct) = (next_index (sending s) - 1)%N).
Proof. exact after_step. Qed.
Print Assumptions C73_after_step.

(** Number and previous counter of Alice's messages: three before and two after the step. *)
Definition innerOf (x : wire) : whisperMessage :=
  if x.1 then pMessage (get noPk (prekey_parse x.2)) else get noWm (whisper_parse x.2).
Definition fromAlice : list whisperMessage :=
  innerOf <$> n_fromA (after [SendA [x01]; SendA [x02]; SendA [x03]; DeliverB 2; SendB [x04]; DeliverA 0; SendA [x05]; SendA [x06]]).
Example C73_example :
  (fun m => (wCounter m, wPreviousCounter m)) <$> fromAlice = [(0, 0); (1, 0); (2, 0); (0, 2); (1, 2)]%N /\
  (fun m => bool_decide (wRatchetKey m = kp_pub (kp_at toy (n_A late) (w_pos (n_A late))))) <$> fromAlice
  = [false; false; false; true; true].
Proof. vm_compute. split; reflexivity. Qed.
