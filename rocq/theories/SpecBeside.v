(** Calls made while calls for other peers and groups are in flight: an independent
    description used by C77 and C78. *)
From Verif Require Import PyBase Protos Crypto Ecc Messages State Prog Builder Cipher Groups SpecApi SpecIso SpecFresh.

(** Calls that may be in flight beside a call for the peer device ([r], [d]): all group
    calls, all calls for another peer, and for another device of the same peer those that
    do not touch the identity of the peer. *)
Definition elsewhere (r d : Z) (c : apiCall) : Prop :=
  match c with
  | AEncrypt r' d' _ | AMsg r' d' _ | AInitKx r' d' => (r', d') <> (r, d)
  | ABundle r' _ _ | AKx r' _ _ | APkmsg r' _ _ => r' <> r
  | AGroupCreate _ | AGroupProcess _ _ | AGroupEncrypt _ _ | AGroupDecrypt _ _ => True
  end.

(** Calls that may be in flight beside a call for the sender key name [n]. *)
Definition elsewhere_group (n : senderKeyName) (c : apiCall) : Prop :=
  match c with
  | AGroupCreate n' | AGroupProcess n' _ | AGroupEncrypt n' _ | AGroupDecrypt n' _ => n' <> n
  | _ => True
  end.

(** [beside C others p ps w o ps' w']: the call [p] starts in [w] while [ps] are in flight.
    Any number of calls among [others] begin, make accesses, end or die while it runs.  It
    ends with [o] in [w'] while [ps'] are in flight; [None] says that it died. *)
Inductive beside (C : crypto) (others : apiCall -> Prop) {A} :
    prog A -> list (prog unit) -> world -> option (res A) -> list (prog unit) -> world -> Prop :=
| beside_returns a ps w : beside C others (Ret a) ps w (Some (Ok a)) ps w
| beside_raises e ps w : beside C others (Raise e) ps w (Some (Err e)) ps w
| beside_dies R (c : call R) k ps w : beside C others (Call c k) ps w None ps w
| beside_access R (c : call R) k ps w o ps' w' :
    beside C others (k (step_call c w).1) ps (step_call c w).2 o ps' w' -> beside C others (Call c k) ps w o ps' w'
| beside_begin c p ps w o ps' w' :
    others c -> beside C others p (api C c :: ps) w o ps' w' -> beside C others p ps w o ps' w'
| beside_other p l1 R (c : call R) k l2 w o ps' w' :
    beside C others p (l1 ++ k (step_call c w).1 :: l2) (step_call c w).2 o ps' w' ->
    beside C others p (l1 ++ Call c k :: l2) w o ps' w'
| beside_dropped p l1 q l2 w o ps' w' :
    beside C others p (l1 ++ l2) w o ps' w' -> beside C others p (l1 ++ q :: l2) w o ps' w'.

(** The device with other random outcomes and other prekeys. *)
Definition alone (t : nat -> bytes) (m : gmap N bytes) (w : world) : world :=
  World (w_sessions w) m (w_signed w) (w_trusted w) (w_identity w) (w_regid w) (w_senderkeys w) t (w_pos w).

(** The random outcomes of [t] from [i] on, [n] of them, are outcomes of [t0] in the same
    order, each of them used at most once, from [i] to before [j]. *)
Definition outcomes_of (t t0 : nat -> bytes) (i n j : nat) : Prop :=
  exists f : nat -> nat, (forall a b, i <= a -> a < b -> b < i + n -> f a < f b) /\
    forall a, i <= a -> a < i + n -> i <= f a /\ f a < j /\ t a = t0 (f a).

(** The call ends with this result in [w'], or it died and left [w'] behind. *)
Definition leaves {A} (p : prog A) (w : world) (o : option (res A)) (w' : world) : Prop :=
  match o with
  | Some x => run p w = (x, w')
  | None => exists n, run_crash n p w = (None, w')
  end.

(** What remains of a call after some of its accesses, whatever they were answered. *)
Inductive remains (C : crypto) (c : apiCall) : prog unit -> Prop :=
| remains_all : remains C c (api C c)
| remains_after R (x : call R) k y : remains C c (Call x k) -> remains C c (k y).

(** Calls in flight, all of them among [others]. *)
Definition in_flight (C : crypto) (others : apiCall -> Prop) (ps : list (prog unit)) : Prop :=
  forall q, q ∈ ps -> exists c, others c /\ remains C c q.

(** A history in which the calls for the peer device ([r], [d]) come one at a time and no key
    exchange is finished twice, with any calls elsewhere in flight all the time, and the
    ciphertexts that encrypt returned for ([r], [d]), last one first.  As in [exchanges],
    [P] are the ratchet keys of the exchanges that were pending when a key exchange message
    changed the session. *)
Inductive served (C : crypto) (r d : Z) (w : world) : list ciphertextMessage -> list bytes -> list (prog unit) -> world -> Prop :=
| served_nothing ps : in_flight C (elsewhere r d) ps -> served C r d w [] [] ps w
| served_sent l P ps w1 pt c ps' w2 : served C r d w l P ps w1 ->
    beside C (elsewhere r d) (encrypt C r d pt) ps w1 (Some (Ok c)) ps' w2 -> served C r d w (c :: l) P ps' w2
| served_call l P ps w1 c o ps' w2 : served C r d w l P ps w1 -> ~ elsewhere r d c -> (forall m, c <> AKx r d m) ->
    beside C (elsewhere r d) (api C c) ps w1 o ps' w2 -> served C r d w l P ps' w2
| served_refused l P ps w1 m o ps' w2 : served C r d w l P ps w1 -> beside C (elsewhere r d) (api C (AKx r d m)) ps w1 o ps' w2 ->
    w_sessions w2 !! (r, d) = w_sessions w1 !! (r, d) -> served C r d w l P ps' w2
| served_taken l P ps w1 m o ps' w2 : served C r d w l P ps w1 -> beside C (elsewhere r d) (api C (AKx r d m)) ps w1 o ps' w2 ->
    (forall k, pending_at w1 r d = Some k -> k ∉ P) -> served C r d w l (option_list (pending_at w1 r d) ++ P) ps' w2
| served_others l P ps w1 o ps' w2 : served C r d w l P ps w1 ->
    beside C (elsewhere r d) (Ret tt) ps w1 o ps' w2 -> served C r d w l P ps' w2
| served_prekeys l P ps w1 m : served C r d w l P ps w1 -> served C r d w l P ps (w_set_prekeys m w1)
| served_signed l P ps w1 m : served C r d w l P ps w1 -> served C r d w l P ps (w_set_signed m w1)
| served_trusted l P ps w1 m : served C r d w l P ps w1 -> served C r d w l P ps (w_set_trusted m w1).

(** One turn of a history in which the calls for the sender key name [n] come one at a
    time: such a call, to its end or until it dies; calls elsewhere; a write of the
    application.  All the time any calls elsewhere are in flight. *)
Inductive group_turn (C : crypto) (n : senderKeyName) : world * list (prog unit) -> world * list (prog unit) -> Prop :=
| group_turn_call w ps c o w' ps' : ~ elsewhere_group n c ->
    beside C (elsewhere_group n) (api C c) ps w o ps' w' -> group_turn C n (w, ps) (w', ps')
| group_turn_others w ps o w' ps' :
    beside C (elsewhere_group n) (Ret tt) ps w o ps' w' -> group_turn C n (w, ps) (w', ps')
| group_turn_prekeys w ps m : group_turn C n (w, ps) (w_set_prekeys m w, ps)
| group_turn_signed w ps m : group_turn C n (w, ps) (w_set_signed m w, ps)
| group_turn_trusted w ps m : group_turn C n (w, ps) (w_set_trusted m w, ps).
Definition group_turns (C : crypto) (n : senderKeyName) : world * list (prog unit) -> world * list (prog unit) -> Prop :=
  rtc (group_turn C n).
