(** Properties C29 to C33: groups. *)
From Verif Require Import PyBase Wire Protos ProtoFacts Crypto Ecc Kdf Messages State Prog Groups Helper.
From Verif Require Import SpecSession SpecGroup GroupFacts GroupProofs GroupSched GroupDist Toy Sched Ex.

Definition chatName : senderKeyName := ("chat", "sender", 1%Z).
Definition sender0 : world := device 4.
Definition members0 : list world := [device 5; device 6].
Definition chat (l : list gaction) : list gevent * gnet := gplay toy chatName l (GNet sender0 members0 [] []).

(** ** C29: group messages survive any delivery order *)

(** For every schedule the members see exactly what the ideal group of SpecGroup shows:
    a member that joined receives every later message exactly once, in any order; second
    deliveries and messages older than its distribution message are reported as
    duplicates; before it joined there is no session. *)
Theorem C29_any_order : forall C name S M l,
  crypto_ok C -> w_senderkeys S !! name = None -> Forall (fun w => w_senderkeys w !! name = None) M ->
  (N.of_nat (length l) < 2 ^ 32)%N ->
  (gplay C name (GCreate :: l) (GNet S M [] [])).1 =
  GCreated :: iplay l (Ideal [] [0] (replicate (length M) None)).
Proof. exact (fun C name S M l Hok => group_refines C Hok name S M l). Qed.
Print Assumptions C29_any_order.

(** A delivery that raises changes nothing. *)
Theorem C29_raise_changes_nothing : forall C name bs w e w',
  run (group_decrypt C name bs) w = (Err e, w') -> w' = w.
Proof. exact group_decrypt_err. Qed.
Print Assumptions C29_raise_changes_nothing.

(** Two members, the second joins late; messages out of order and repeated. *)
Definition chatLog : list gaction :=
  [GCreate; GJoin 0 0; GSend [x01]; GSend [x02]; GCreate; GSend [x03]; GDeliver 0 2; GDeliver 1 2; GJoin 1 1;
   GDeliver 1 2; GDeliver 0 0; GDeliver 0 0; GDeliver 1 0; GDeliver 0 1].
Example C29_chat :
  (chat chatLog).1 =
  [GCreated; GJoined; GSent; GSent; GCreated; GSent; GReceived [x03]; GRaised ENoSession; GJoined;
   GReceived [x03]; GReceived [x01]; GRaised EDuplicateMessage; GRaised EDuplicateMessage; GReceived [x02]].
Proof. vm_compute. reflexivity. Qed.
Example C29_chat_ideal :
  (chat chatLog).1 = GCreated :: iplay (tail chatLog) (Ideal [] [0] [None; None]).
Proof. vm_compute. reflexivity. Qed.

(** ** C30: a group message is accepted only if its signature verifies *)

Theorem C30_accepted_signature : forall C name bs w pt w',
  run (group_decrypt C name bs) w = (Ok pt, w') ->
  exists m rec s pub,
    sk_msg_parse bs = Ok m /\ senderkey_at w name = Ok rec /\ s ∈ rec /\
    default 0%N (st_senderKeyId s) = gKeyId m /\
    decodePoint (default [] (ssk_public (default ssk_empty (st_senderSigningKey s)))) 0 = Ok pub /\
    verifies C pub (take (length bs - 64) bs) (drop (length bs - 64) bs).
Proof. exact group_decrypt_ok. Qed.
Print Assumptions C30_accepted_signature.

Theorem C30_refused_changes_nothing : forall C name bs w e w',
  run (group_decrypt C name bs) w = (Err e, w') -> w_senderkeys w' = w_senderkeys w.
Proof. exact (fun C name bs w e w' H => f_equal w_senderkeys (group_decrypt_err C name bs w e w' H)). Qed.
Print Assumptions C30_refused_changes_nothing.

(** A genuine message is accepted, the same with a flipped byte at the start of its
    signature is refused, and the genuine one is still accepted afterwards. *)
Definition flipSignature (bs : bytes) : bytes := flipLast (take (length bs - 63) bs) ++ drop (length bs - 63) bs.
Definition chatMember : world := default bob0 (g_M (chat [GCreate; GJoin 0 0; GSend [x01]]).2 !! 0).
Definition chatMessage : bytes := default [] (g_msgs (chat [GCreate; GJoin 0 0; GSend [x01]]).2 !! 0).
Example C30_flipped :
  (run (group_decrypt toy chatName chatMessage) chatMember).1 = Ok [x01] /\
  (let x := run (group_decrypt toy chatName (flipSignature chatMessage)) chatMember in
   x.1 = Err EInvalidMessage /\ (run (group_decrypt toy chatName chatMessage) x.2).1 = Ok [x01]).
Proof. vm_compute. done. Qed.

(** ** C31: group operations without a sender key say so *)

Theorem C31_encrypt_nothing_stored : forall C name pt w,
  w_senderkeys w !! name = None -> run (group_encrypt C name pt) w = (Err ENoSession, w).
Proof. exact group_encrypt_none. Qed.
Print Assumptions C31_encrypt_nothing_stored.

Theorem C31_decrypt_nothing_stored : forall C name bs w,
  w_senderkeys w !! name = None -> run (group_decrypt C name bs) w = (Err ENoSession, w).
Proof. exact group_decrypt_none. Qed.
Print Assumptions C31_decrypt_nothing_stored.

Theorem C31_unknown_key_id : forall C name bs w m rec,
  senderkey_at w name = Ok rec -> rec <> [] -> sk_msg_parse bs = Ok m ->
  (forall s, s ∈ rec -> default 0%N (st_senderKeyId s) <> gKeyId m) ->
  run (group_decrypt C name bs) w = (Err EInvalidMessage, w).
Proof. exact group_decrypt_unknown. Qed.
Print Assumptions C31_unknown_key_id.

(** A member that knows one sender gets a message of another, and one under a name it has
    never heard of. *)
Definition otherMessage : bytes :=
  default [] (g_msgs (gplay toy chatName [GCreate; GSend [x07]] (GNet (device 9) [] [] [])).2 !! 0).
Example C31_examples :
  (run (group_decrypt toy chatName otherMessage) chatMember).1 = Err EInvalidMessage /\
  (run (group_decrypt toy ("chat", "stranger", 1%Z) chatMessage) chatMember).1 = Err ENoSession /\
  (run (group_encrypt toy ("chat", "stranger", 1%Z) [x01]) chatMember).1 = Err ENoSession.
Proof. vm_compute. done. Qed.

(** ** C32: group messages too far in the future are refused *)

(** The statement is false: the member has processed the distribution message, [n]
    messages are lost, and the next one is accepted, whatever [n] is.  The comparison at
    groupcipher.py:76 has its operands swapped. *)
Theorem C32_future_limit_refuted : forall C name S M n pt,
  crypto_ok C -> w_senderkeys S !! name = None -> w_senderkeys M !! name = None ->
  (N.of_nat n + 3 < 2 ^ 32)%N ->
  last (gplay C name (GCreate :: GJoin 0 0 :: replicate n (GSend pt) ++ [GSend pt; GDeliver 0 n]) (GNet S [M] [] [])).1
  = Some (GReceived pt).
Proof. exact (fun C name S M n pt Hok => future_accepted C Hok name S M n pt). Qed.
Print Assumptions C32_future_limit_refuted.

(** In particular for the toy primitives and a gap of 2001. *)
Definition gap2001 : nat := Z.to_nat 2001.
Example C32_toy :
  last (gplay toy chatName (GCreate :: GJoin 0 0 :: replicate gap2001 (GSend [x01]) ++ [GSend [x01]; GDeliver 0 gap2001])
    (GNet sender0 [device 5] [] [])).1 = Some (GReceived [x01]).
Proof. apply C32_future_limit_refuted; [exact toy_ok|done|done|]. by apply N.ltb_lt. Qed.

(** ** C33: a new distribution message takes effect *)

(** What is missing: the case where a state with the same key id is stored already. *)
Theorem C33_distribution_effective_partial : forall C name rec d w it seed nameS wS s rest pts bs wS' i pt b,
  crypto_ok C ->
  senderkey_at w name = Ok rec ->
  (dId d < 2 ^ 32)%N -> dIteration d = N.of_nat it -> length seed = 32 ->
  dSignatureKey d = genPub C (genPriv C seed) ->
  (forall s, s ∈ rec -> default 0%N (st_senderKeyId s) <> dId d) ->
  senderkey_at wS nameS = Ok (s :: rest) -> sends_as s (dId d) it (dChainKey d) (genPriv C seed) ->
  (N.of_nat (it + length pts) < 2 ^ 32)%N ->
  run (sendAll C nameS pts) wS = (Ok bs, wS') -> pts !! i = Some pt -> bs !! i = Some b ->
  exists w', run (group_process name d) w = (Ok tt, w') /\ (run (group_decrypt C name b) w').1 = Ok pt.
Proof.
  exact (fun C name rec d w it seed nameS wS s rest pts bs wS' i pt b Hok =>
    distribution_effective C Hok name rec d w it seed nameS wS s rest pts bs wS' i pt b).
Qed.
Print Assumptions C33_distribution_effective_partial.

(** The missing case is false: the member processes the second distribution message and
    then the first; message 0, encrypted under the state the first one describes, is
    still refused.  For all primitives and devices. *)
Theorem C33_redistribution_refuted : forall C name S M pt,
  crypto_ok C -> w_senderkeys S !! name = None -> w_senderkeys M !! name = None ->
  (gplay C name [GCreate; GSend pt; GCreate; GJoin 0 1; GJoin 0 0; GDeliver 0 0] (GNet S [M] [] [])).1
  = [GCreated; GSent; GCreated; GJoined; GJoined; GRaised EDuplicateMessage].
Proof. exact redistribution_ignored. Qed.
Print Assumptions C33_redistribution_refuted.

(** A member that knows one sender processes the distribution message of a second one
    under the same name: both senders' messages decrypt. *)
Definition otherDist : senderKeyDistributionMessage :=
  get (SenderKeyDistributionMessage 0 0 [] [] []) (run (group_create toy chatName) (device 9)).1.
Example C33_second_key :
  let w := (run (group_process chatName otherDist) chatMember).2 in
  (run (group_decrypt toy chatName otherMessage) w).1 = Ok [x07] /\
  (run (group_decrypt toy chatName chatMessage) w).1 = Ok [x01].
Proof. vm_compute. done. Qed.
