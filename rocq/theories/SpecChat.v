(** Several senders and groups at once: an independent description used by C89. *)
From Verif Require Import PyBase Protos Crypto Ecc Kdf Messages State Prog Groups SpecApi SpecGroup.

(** ** The devices *)

(** The devices, and for each channel all distribution messages and all group messages ever
    made.  A channel is a sender key name with the number of the device that sends under it. *)
Record chatnet := ChatNet { c_D : list world; c_posts : list (list bytes * list bytes) }.

Section chat.
Context (C : crypto) (ch : list (senderKeyName * nat)).

(** The action of SpecGroup on channel [k]; every device is a member, also the sender. *)
Definition cact (k : nat) (a : gaction) (n : chatnet) : gevent * chatnet :=
  match ch !! k, c_posts n !! k with
  | Some (name, s), Some (ds, ms) =>
      match c_D n !! s with
      | Some w =>
          let '(e, g) := gact C name a (GNet w (c_D n) ds ms) in
          (e, ChatNet (match a with GCreate | GSend _ => <[s := g_S g]> (c_D n) | GJoin _ _ | GDeliver _ _ => g_M g end)
                (<[k := (g_dists g, g_msgs g)]> (c_posts n)))
      | None => (GNothing, n)
      end
  | _, _ => (GNothing, n)
  end.

(** The call is not a group call for one of the channels. *)
Definition off_channel (c : apiCall) : Prop :=
  match c with
  | AGroupCreate n | AGroupProcess n _ | AGroupEncrypt n _ | AGroupDecrypt n _ => n ∉ ch.*1
  | _ => True
  end.

(** What a device may do in between: any other call, to its end or until it dies; refusing
    any group message; and the application may write its other stores. *)
Inductive meantime (w : world) : world -> Prop :=
| meantime_ends c : off_channel c -> meantime w (run (api C c) w).2
| meantime_dies c n : off_channel c -> meantime w (run_crash n (api C c) w).2
| meantime_refuses name b e w' : run (group_decrypt C name b) w = (Err e, w') -> meantime w w'
| meantime_prekeys m : meantime w (w_set_prekeys m w)
| meantime_signed m : meantime w (w_set_signed m w)
| meantime_trusted m : meantime w (w_set_trusted m w).

(** A schedule of actions on the channels with such things in between. *)
Inductive chats : list (nat * gaction) -> chatnet -> list gevent -> chatnet -> Prop :=
| chats_end n : chats [] n [] n
| chats_act k a l n es n' : chats l (cact k a n).2 es n' -> chats ((k, a) :: l) n ((cact k a n).1 :: es) n'
| chats_meantime j w w' l n es n' : c_D n !! j = Some w -> meantime w w' ->
    chats l (ChatNet (<[j := w']> (c_D n)) (c_posts n)) es n' -> chats l n es n'.

(** Nothing in between. *)
Fixpoint cplay (l : list (nat * gaction)) (n : chatnet) : list gevent * chatnet :=
  match l with
  | [] => ([], n)
  | (k, a) :: l => let '(e, n) := cact k a n in let '(es, n) := cplay l n in (e :: es, n)
  end.
End chat.

(** ** What they should see *)

(** Each channel is a group of its own, as in SpecGroup, from its first distribution message
    on.  Before, its sender has no key.  A sender is told that it has its own messages. *)
Definition ichat (ch : list (senderKeyName * nat)) (members : nat) (k : nat) (a : gaction) (st : list (option ideal)) : gevent * list (option ideal) :=
  match ch !! k, st !! k with
  | Some (_, s), Some None =>
      match a with
      | GCreate => (GCreated, <[k := Some (Ideal [] [0] (replicate members None))]> st)
      | GSend _ => (GRaised ENoSession, st)
      | GJoin _ _ | GDeliver _ _ => (GNothing, st)
      end
  | Some (_, s), Some (Some i) =>
      let other := let '(e, i) := iact a i in (e, <[k := Some i]> st) in
      match a with
      | GJoin j m => if Nat.eqb j s then (if i_dists i !! m then GJoined else GNothing, st) else other
      | GDeliver j m => if Nat.eqb j s then (if i_sent i !! m then GRaised EDuplicateMessage else GNothing, st) else other
      | _ => other
      end
  | _, _ => (GNothing, st)
  end.
Fixpoint ichats (ch : list (senderKeyName * nat)) (members : nat) (l : list (nat * gaction)) (st : list (option ideal)) : list gevent :=
  match l with
  | [] => []
  | (k, a) :: l => let '(e, st) := ichat ch members k a st in e :: ichats ch members l st
  end.
