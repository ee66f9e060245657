(** A group as an application uses it, and what its members should see. *)
From Verif Require Import PyBase Protos Crypto Ecc Kdf Messages State Prog Groups.

(** The stored sender key record: what loadSenderKey returns. *)
Definition senderkey_at (w : world) (n : senderKeyName) : res (list st_s) :=
  match w_senderkeys w !! n with
  | Some bs => skr_deserialize bs
  | None => Ok []
  end.

(** What happens next: the sender asks for a distribution message or sends a message,
    member number [j] processes distribution message number [k], or group message number
    [i] reaches member [j].  Any of these at any time, any number of times, or never. *)
Inductive gaction :=
| GCreate | GSend (plaintext : bytes) | GJoin (j k : nat) | GDeliver (j i : nat).

Inductive gevent := GNothing | GCreated | GSent | GJoined | GReceived (plaintext : bytes) | GRaised (e : exn).

(** ** The group *)

(** The sender's device, the members' devices, all distribution messages and all group
    messages ever made, as bytes. *)
Record gnet := GNet { g_S : world; g_M : list world; g_dists : list bytes; g_msgs : list bytes }.

Section group.
Context (C : crypto) (name : senderKeyName).

(** As in tests/groups/test_groupcipher.py:42-58: distribution messages and group
    messages travel as bytes and are parsed by the receiver. *)
Definition gact (a : gaction) (n : gnet) : gevent * gnet :=
  match a with
  | GCreate =>
      let '(o, w) := run (group_create C name) (g_S n) in
      match o with
      | Ok m => (GCreated, GNet w (g_M n) (g_dists n ++ [dSerialized m]) (g_msgs n))
      | Err e => (GRaised e, GNet w (g_M n) (g_dists n) (g_msgs n))
      end
  | GSend pt =>
      let '(o, w) := run (group_encrypt C name pt) (g_S n) in
      match o with
      | Ok m => (GSent, GNet w (g_M n) (g_dists n) (g_msgs n ++ [m]))
      | Err e => (GRaised e, GNet w (g_M n) (g_dists n) (g_msgs n))
      end
  | GJoin j k =>
      match g_M n !! j, g_dists n !! k with
      | Some w, Some b =>
          let '(o, w) := run (m ← lift (skd_msg_parse b); group_process name m) w in
          (match o with Ok _ => GJoined | Err e => GRaised e end,
           GNet (g_S n) (<[j := w]> (g_M n)) (g_dists n) (g_msgs n))
      | _, _ => (GNothing, n)
      end
  | GDeliver j i =>
      match g_M n !! j, g_msgs n !! i with
      | Some w, Some b =>
          let '(o, w) := run (group_decrypt C name b) w in
          (match o with Ok p => GReceived p | Err e => GRaised e end,
           GNet (g_S n) (<[j := w]> (g_M n)) (g_dists n) (g_msgs n))
      | _, _ => (GNothing, n)
      end
  end.

(** A schedule: the events in order, and the final group. *)
Fixpoint gplay (l : list gaction) (n : gnet) : list gevent * gnet :=
  match l with
  | [] => ([], n)
  | a :: l => let '(e, n) := gact a n in let '(es, n) := gplay l n in (e :: es, n)
  end.
End group.

(** ** What they should see *)

(** The plaintexts sent so far; for each distribution message the number of messages sent
    before it was made; for each member nothing, or the number of messages it missed by
    joining late and the numbers of those it received. *)
Record ideal := Ideal { i_sent : list bytes; i_dists : list nat; i_members : list (option (nat * list nat)) }.

Definition iact (a : gaction) (s : ideal) : gevent * ideal :=
  match a with
  | GCreate => (GCreated, Ideal (i_sent s) (i_dists s ++ [length (i_sent s)]) (i_members s))
  | GSend pt => (GSent, Ideal (i_sent s ++ [pt]) (i_dists s) (i_members s))
  | GJoin j k =>
      match i_members s !! j, i_dists s !! k with
      | Some None, Some b => (GJoined, Ideal (i_sent s) (i_dists s) (<[j := Some (b, [])]> (i_members s)))
      | Some (Some _), Some b => (GJoined, s)
      | _, _ => (GNothing, s)
      end
  | GDeliver j i =>
      match i_members s !! j, i_sent s !! i with
      | Some None, Some pt => (GRaised ENoSession, s)
      | Some (Some (b, seen)), Some pt =>
          if bool_decide (i < b) || bool_decide (i ∈ seen) then (GRaised EDuplicateMessage, s)
          else (GReceived pt, Ideal (i_sent s) (i_dists s) (<[j := Some (b, i :: seen)]> (i_members s)))
      | _, _ => (GNothing, s)
      end
  end.

Fixpoint iplay (l : list gaction) (s : ideal) : list gevent :=
  match l with
  | [] => []
  | a :: l => let '(e, s) := iact a s in e :: iplay l s
  end.

(** Several messages sent one after the other. *)
Fixpoint sendAll (C : crypto) (name : senderKeyName) (pts : list bytes) : prog (list bytes) :=
  match pts with
  | [] => Ret []
  | pt :: pts => m ← group_encrypt C name pt; ms ← sendAll C name pts; Ret (m :: ms)
  end.

(** A sender's state with this key id, iteration, chain key and private signing key. *)
Definition sends_as (s : st_s) (id : N) (m : nat) (ck priv : bytes) : Prop :=
  st_senderKeyId s = Some id /\ st_senderChainKey s = Some (SckS (Some (N.of_nat m)) (Some ck)) /\ exists pub, st_senderSigningKey s = Some (SskS pub (Some priv)).
