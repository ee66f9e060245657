(** Two devices that talk in any number of sessions: an independent description used by
    C85. *)
From Verif Require Import PyBase Protos Crypto Ecc Messages State Prog Builder Cipher SpecUtil SpecSession SpecKeys Sched SpecConv.

(** ** The conversation as it should be *)

(** A device is the list of its sessions, the current one first; sessions are numbered in
    the order in which they are started.  A message belongs to a session. *)
Definition device : Type := list (nat * party).
Definition mmsg : Type := nat * msg.
Record many := Many { y_A : device; y_B : device; y_fromA : list mmsg; y_fromB : list mmsg; y_count : nat }.

Definition party_of (n : nat) (l : list (nat * party)) : option party := snd <$> head (filter (fun x => x.1 = n) l).
Definition others_of (n : nat) (l : list (nat * party)) : device := filter (fun x => x.1 <> n) l.

(** A message arrives in its session.  Unlike in [ireceive] nothing is left open: a message
    of a dropped chain is refused. *)
Definition iopen (m : msg) (p : party) : res (bytes * party) :=
  let '(l, c, pt) := m in
  if (l + 9 <? p_turn p)%nat then Err EInvalidMessage
  else if bool_decide ((l, c) ∈ p_got p) then Err EDuplicateMessage
  else if (next_of l (p_got p) + 2000 <? c)%N then Err EInvalidMessage
  else Ok (pt, if (p_turn p <? l)%nat then Party (S l) 0 ((l, c) :: p_got p) true
               else Party (p_turn p) (p_sent p) ((l, c) :: p_got p) true).

(** A session that accepts a message becomes the current one; a session the device does not
    have yet is set up by its first message. *)
Definition mreceive (m : mmsg) (l : device) : seen * device :=
  match iopen m.2 (default (Party 0 0 [] true) (party_of m.1 l)) with
  | Ok (pt, p) => (SReceived pt, (m.1, p) :: others_of m.1 l)
  | Err e => (SRaised e, l)
  end.
(** Messages are sent in the current session. *)
Definition msend (pt : bytes) (l : device) : seen * device * list mmsg :=
  match l with
  | (n, p) :: l => (SSent, (n, Party (p_turn p) (p_sent p + 1) (p_got p) true) :: l, [(n, (p_turn p, p_sent p, pt))])
  | [] => (SRaised EIndexError, [], [])
  end.

(** Besides sending and delivering, a device may start a new session with a bundle of the
    other one at any time. *)
Inductive move := Talk (a : action) | RenewA (b : preKeyBundle) | RenewB (b : preKeyBundle).
Definition imove (a : move) (y : many) : seen * many :=
  match a with
  | Talk (SendA pt) => let '(e, l, m) := msend pt (y_A y) in (e, Many l (y_B y) (y_fromA y ++ m) (y_fromB y) (y_count y))
  | Talk (SendB pt) => let '(e, l, m) := msend pt (y_B y) in (e, Many (y_A y) l (y_fromA y) (y_fromB y ++ m) (y_count y))
  | Talk (DeliverA i) =>
      match y_fromB y !! i with
      | None => (SNothing, y)
      | Some m => let '(e, l) := mreceive m (y_A y) in (e, Many l (y_B y) (y_fromA y) (y_fromB y) (y_count y))
      end
  | Talk (DeliverB i) =>
      match y_fromA y !! i with
      | None => (SNothing, y)
      | Some m => let '(e, l) := mreceive m (y_B y) in (e, Many (y_A y) l (y_fromA y) (y_fromB y) (y_count y))
      end
  | RenewA _ => (SNothing, Many ((y_count y, Party 1 0 [] true) :: y_A y) (y_B y) (y_fromA y) (y_fromB y) (S (y_count y)))
  | RenewB _ => (SNothing, Many (y_A y) ((y_count y, Party 1 0 [] true) :: y_B y) (y_fromA y) (y_fromB y) (S (y_count y)))
  end.

Section run.
Context (C : crypto) (rA dA rB dB : Z).

(** ** The two devices *)

Definition domove (a : move) (n : net) : event * net :=
  match a with
  | Talk a => act C rA dA rB dB a n
  | RenewA b => let '(o, w) := run (processPreKeyBundle C rB dB b) (n_A n) in
                (match o with Ok _ => Nothing | Err e => Raised e end, Net w (n_B n) (n_fromA n) (n_fromB n))
  | RenewB b => let '(o, w) := run (processPreKeyBundle C rA dA b) (n_B n) in
                (match o with Ok _ => Nothing | Err e => Raised e end, Net (n_A n) w (n_fromA n) (n_fromB n))
  end.
Fixpoint domoves (l : list move) (n : net) : list event * net :=
  match l with
  | [] => ([], n)
  | a :: l => let '(e, n) := domove a n in let '(es, n) := domoves l n in (e :: es, n)
  end.

(** The bytes carry this message. *)
Definition carries (x : wire) (m : whisperMessage) : Prop :=
  if x.1 then exists q, prekey_parse x.2 = Ok q /\ pMessage q = m else whisper_parse x.2 = Ok m.

(** The MAC of the message fits a key that this state has for it. *)
Definition mac_fits (s : ss_s) (m : whisperMessage) : Prop :=
  exists k local remote, message_key C s 3 (wRatchetKey m) (wCounter m) k /\
    identity_of (ss_remoteIdentity s) remote /\ identity_of (ss_localIdentity s) local /\
    authentic C 3 remote local (k_mac k) (wSerialized m).

(** By accident the MAC of the message [y] fits a key of a session to which it does not
    belong, or a key of its session that is derived from a chain that was dropped.  [l] are
    the sessions of the device. *)
Definition accident (w : world) (r d : Z) (l : device) (x : wire) (y : mmsg) : Prop :=
  exists rec m j s n p, session_at w r d = Ok rec /\ carries x m /\
    (sr_state rec :: sr_previous rec) !! j = Some s /\ l !! j = Some (n, p) /\
    (n <> y.1 \/ y.2.1.1 + 9 < p_turn p) /\ mac_fits s m.
Definition mixed_up (a : move) (n : net) (y : many) : Prop :=
  match a with
  | Talk (DeliverA i) => exists x m, n_fromB n !! i = Some x /\ y_fromB y !! i = Some m /\ accident (n_A n) rB dB (y_A y) x m
  | Talk (DeliverB i) => exists x m, n_fromA n !! i = Some x /\ y_fromA y !! i = Some m /\ accident (n_B n) rA dA (y_B y) x m
  | _ => False
  end.

(** What the user sees is what should be seen. *)
Definition sees_as (x : seen) (e : event) : Prop :=
  match x with
  | SNothing => e = Nothing
  | SSent => exists ct, e = Sent ct
  | SReceived pt => e = Received pt
  | SRaised ex => e = Raised ex
  | SUnknown => False
  end.
(** Every move is seen as it should be, unless such an accident happens. *)
Fixpoint goes (l : list move) (n : net) (y : many) : Prop :=
  match l with
  | [] => True
  | a :: l => mixed_up a n y \/ (sees_as (imove a y).1 (domove a n).1 /\ goes l (domove a n).2 (imove a y).2)
  end.
End run.

(** ** Bundles *)

Definition renewalsA (l : list move) : list preKeyBundle := l ≫= fun a => match a with RenewA b => [b] | _ => [] end.
Definition renewalsB (l : list move) : list preKeyBundle := l ≫= fun a => match a with RenewB b => [b] | _ => [] end.

(** The device offers these bundles: it holds the keys they name, and no one-time prekey is
    offered twice. *)
Definition offers (C : crypto) (w : world) (bs : list preKeyBundle) : Prop :=
  Forall (fun b => exists spk i otpk, bundle_of C w b spk (Some (i, otpk))) bs /\ NoDup (bu_preKeyId <$> bs).
Definition signed_in (bs : list preKeyBundle) (k : bytes) : Prop := exists b, b ∈ bs /\ bu_signedPreKey b = Some k.
