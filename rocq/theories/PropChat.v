(** Property C89: everybody in a group can send. *)
From Verif Require Import PyBase Wire Protos Crypto Ecc Kdf Messages State Prog Builder Cipher Groups Helper.
From Verif Require Import SpecApi SpecGroup SpecChat ChatProofs Toy Sched Ex.

(** Any number of devices and of channels between them (each device may send in several
    groups), any schedule of distribution messages, group messages and deliveries, and any
    other calls, crashes and refused messages in between: what every device sees on a channel
    is what the ideal group of this channel shows. *)
Theorem C89_chats : forall C, crypto_ok C -> forall ch D l es n',
  NoDup ch.*1 -> Forall (fun x => x.2 < length D) ch ->
  Forall (fun w => Forall (fun x => w_senderkeys w !! x.1 = None) ch) D -> (N.of_nat (length l) < 2 ^ 32)%N ->
  chats C ch l (ChatNet D (replicate (length ch) ([], []))) es n' ->
  es = ichats ch (length D) l (replicate (length ch) None).
Proof. exact chats_refine. Qed.
Print Assumptions C89_chats.

(** With nothing in between the schedules are those that can be run. *)
Theorem C89_runs : forall C ch l n, chats C ch l n (cplay C ch l n).1 (cplay C ch l n).2.
Proof. exact chats_play. Qed.
Print Assumptions C89_runs.

(** Three devices that all send in one group; the first also sends in a second group. *)
Definition rooms : list (senderKeyName * nat) :=
  [(("chat", "a", 1%Z), 0); (("chat", "b", 1%Z), 1); (("chat", "c", 1%Z), 2); (("other", "a", 1%Z), 0)].
Definition trio : chatnet := ChatNet [device 4; device 5; device 6] (replicate 4 ([], [])).
Definition talk1 : list (nat * gaction) :=
  [(1, GSend [x00]); (0, GCreate); (1, GCreate); (3, GCreate); (0, GJoin 1 0); (0, GJoin 2 0); (1, GJoin 0 0); (1, GJoin 2 0); (3, GJoin 1 0);
   (0, GSend [x01]); (1, GSend [x02]); (3, GSend [x03]); (0, GSend [x04])].
Definition talk2 : list (nat * gaction) :=
  [(0, GDeliver 2 1); (1, GDeliver 2 0); (0, GDeliver 2 0); (3, GDeliver 2 0); (3, GDeliver 1 0); (0, GDeliver 1 0); (0, GDeliver 0 0);
   (1, GDeliver 0 0); (0, GJoin 0 0); (0, GSend [x05]); (0, GDeliver 2 2); (0, GDeliver 2 1); (2, GDeliver 0 0)].
(** In between the third device begins a key exchange with somebody and a group of its own. *)
Definition aside1 (w : world) : world :=
  (run (api toy (AGroupCreate ("third", "c", 1%Z))) (run (api toy (AInitKx 9 1)) w).2).2.
Definition between (n : chatnet) : chatnet := ChatNet (alter aside1 2 (c_D n)) (c_posts n).
Example C89_trio :
  (cplay toy rooms talk1 trio).1 ++ (cplay toy rooms talk2 (between (cplay toy rooms talk1 trio).2)).1 =
  [GRaised ENoSession; GCreated; GCreated; GCreated; GJoined; GJoined; GJoined; GJoined; GJoined; GSent; GSent; GSent; GSent;
   GReceived [x04]; GReceived [x02]; GReceived [x01]; GRaised ENoSession; GReceived [x03]; GReceived [x01]; GRaised EDuplicateMessage;
   GReceived [x02]; GJoined; GSent; GReceived [x05]; GRaised EDuplicateMessage; GNothing].
Proof. vm_compute. reflexivity. Qed.
Example C89_trio_ideal :
  (cplay toy rooms talk1 trio).1 ++ (cplay toy rooms talk2 (between (cplay toy rooms talk1 trio).2)).1 = ichats rooms 3 (talk1 ++ talk2) (replicate 4 None).
Proof. vm_compute. reflexivity. Qed.
