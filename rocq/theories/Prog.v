(** Stores, randomness and the execution of API calls.

    An API call is a program [prog A]: pure steps, exceptions, and calls to the outside
    (stores, os.urandom, SystemRandom, time).  Programs have three semantics: [run] (to
    completion), [run_crash] (the process dies before some outside call) and [run_pair]
    (two calls interleaved on the same stores). *)
From Verif Require Import PyBase Crypto Ecc State Protos.

(** Name of a sender key: group id, sender name, sender device, groups/senderkeyname.py:1-22
    with axolotladdress.py:1-25 (compared by these three components). *)
Notation senderKeyName := (string * string * Z)%type.

(** The outside calls.  Abstract store interfaces: state/sessionstore.py:6-30,
    state/prekeystore.py:6-22, state/signedprekeystore.py:6-26,
    state/identitykeystore.py:6-23, groups/state/senderkeystore.py. *)
Inductive call : Type -> Type :=
| CLoadSession (recipient device : Z) : call sessionRecord
| CContainsSession (recipient device : Z) : call bool
| CStoreSession (recipient device : Z) (r : sessionRecord) : call unit
| CIsTrusted (recipient : Z) (identity : bytes) : call bool
| CSaveIdentity (recipient : Z) (identity : bytes) : call unit
| CGetIdentityKeyPair : call keypair
| CGetLocalRegistrationId : call N
| CLoadPreKey (id : N) : call pr_s
| CRemovePreKey (id : N) : call unit
| CLoadSignedPreKey (id : N) : call spr_s
| CLoadSenderKey (name : senderKeyName) : call (list st_s)
| CStoreSenderKey (name : senderKeyName) (states : list st_s) : call unit
| CUrandom (n : nat) : call bytes
| CRandrange (max : N) : call N
| CTimeMillis : call N.

(** Programs over outside calls. *)
Inductive prog (A : Type) : Type :=
| Ret (a : A)
| Raise (e : exn)
| Call {R : Type} (c : call R) (k : res R -> prog A).
Arguments Ret {A} a.
Arguments Raise {A} e.
Arguments Call {A R} c k.

(** Sequencing; an exception skips the rest. *)
Fixpoint prog_bind {A B} (p : prog A) (f : A -> prog B) : prog B :=
  match p with
  | Ret a => f a
  | Raise e => Raise e
  | Call c k => Call c (fun r => prog_bind (k r) f)
  end.

Global Instance prog_ret : MRet prog := @Ret.
Global Instance prog_mbind : MBind prog := fun A B f p => prog_bind p f.

(** A pure computation that may raise. *)
Definition lift {A} (r : res A) : prog A := match r with Ok a => Ret a | Err e => Raise e end.

(** [try: p  except ...]: [h] receives every exception and may re-raise. *)
Fixpoint catch {A} (p : prog A) (h : exn -> prog A) : prog A :=
  match p with
  | Ret a => Ret a
  | Raise e => h e
  | Call c k => Call c (fun r => catch (k r) h)
  end.

(** [try: p  except (E1, ...): raise e']. *)
Definition rethrow {A} (sel : exn -> bool) (e' : exn) (p : prog A) : prog A :=
  catch p (fun e => if sel e then Raise e' else Raise e).

(** An outside call whose exception, if any, propagates. *)
Definition do {R} (c : call R) : prog R := Call c lift.

(** The durable stores and the environment of one device.  The stores have the semantics
    of the in-memory stores: tests/inmemorysessionstore.py:7-37,
    tests/inmemoryprekeystore.py:8-26, tests/inmemorysignedprekeystore.py:8-32,
    tests/inmemoryidentitykeystore.py:10-30, tests/groups/inmemorysenderkeystore.py:7-18.
    Sessions, prekeys and sender keys are kept serialised (the in-memory sender key store
    keeps the object and serialises it on load; it is never mutated in between). [w_tape]
    is the stream of outcomes of os.urandom, randrange and time. *)
Record world := World {
  w_sessions : gmap (Z * Z) bytes;
  w_prekeys : gmap N bytes;
  w_signed : gmap N bytes;
  w_trusted : gmap Z bytes;
  w_identity : keypair;
  w_regid : N;
  w_senderkeys : gmap senderKeyName bytes;
  w_tape : nat -> bytes;
  w_pos : nat }.

(** Updating one store. *)
Definition w_set_sessions m (w : world) := World m (w_prekeys w) (w_signed w) (w_trusted w) (w_identity w) (w_regid w) (w_senderkeys w) (w_tape w) (w_pos w).
Definition w_set_prekeys m (w : world) := World (w_sessions w) m (w_signed w) (w_trusted w) (w_identity w) (w_regid w) (w_senderkeys w) (w_tape w) (w_pos w).
Definition w_set_signed m (w : world) := World (w_sessions w) (w_prekeys w) m (w_trusted w) (w_identity w) (w_regid w) (w_senderkeys w) (w_tape w) (w_pos w).
Definition w_set_trusted m (w : world) := World (w_sessions w) (w_prekeys w) (w_signed w) m (w_identity w) (w_regid w) (w_senderkeys w) (w_tape w) (w_pos w).
Definition w_set_senderkeys m (w : world) := World (w_sessions w) (w_prekeys w) (w_signed w) (w_trusted w) (w_identity w) (w_regid w) m (w_tape w) (w_pos w).
Definition w_set_pos n (w : world) := World (w_sessions w) (w_prekeys w) (w_signed w) (w_trusted w) (w_identity w) (w_regid w) (w_senderkeys w) (w_tape w) n.

(** A byte string as a big-endian natural number (an arbitrary outcome of randrange or
    of the clock). *)
Definition be_val (b : bytes) : N := foldl (fun a x => (a * 256 + b2n x)%N) 0%N b.

(** SenderKeyRecord(serialized=...), groups/state/senderkeyrecord.py:9-17. *)
Definition skr_deserialize (bs : bytes) : res (list st_s) :=
  match bs with [] => Ok [] | _ => r ← sr_parse bs; Ok (sr_senderKeyStates r) end.

(** SenderKeyRecord.serialize, groups/state/senderkeyrecord.py:54-60. *)
Definition skr_serialize (l : list st_s) : bytes := sr_enc (SrS l).

(** PreKeyRecord(serialized=...), state/prekeyrecord.py:9-12; an empty string falls into
    the other branch and raises TypeError (id None). *)
Definition prekeyrecord_parse (bs : bytes) : res pr_s :=
  match bs with [] => Err ETypeError | _ => pr_parse bs end.

(** SignedPreKeyRecord(serialized=...), state/signedprekeyrecord.py:9-12. *)
Definition signedprekeyrecord_parse (bs : bytes) : res spr_s :=
  match bs with [] => Err ETypeError | _ => spr_parse bs end.

(** Effect and result of one outside call. *)
Definition step_call {R} (c : call R) (w : world) : res R * world :=
  match c in call R return res R * world with
  (* inmemorysessionstore.py:11-15 *)
  | CLoadSession r d =>
      (match w_sessions w !! (r, d) with Some bs => sr_deserialize bs | None => Ok sr_new end, w)
  (* inmemorysessionstore.py:28-29 *)
  | CContainsSession r d => (Ok (bool_decide (is_Some (w_sessions w !! (r, d)))), w)
  (* inmemorysessionstore.py:25-26 *)
  | CStoreSession r d s => (Ok tt, w_set_sessions (<[(r, d) := sr_serialize s]> (w_sessions w)) w)
  (* inmemoryidentitykeystore.py:27-30 *)
  | CIsTrusted r k => (Ok (match w_trusted w !! r with Some k' => pub_eqb k' k | None => true end), w)
  (* inmemoryidentitykeystore.py:24-25 *)
  | CSaveIdentity r k => (Ok tt, w_set_trusted (<[r := k]> (w_trusted w)) w)
  (* inmemoryidentitykeystore.py:18-19 *)
  | CGetIdentityKeyPair => (Ok (w_identity w), w)
  (* inmemoryidentitykeystore.py:21-22 *)
  | CGetLocalRegistrationId => (Ok (w_regid w), w)
  (* inmemoryprekeystore.py:12-16 *)
  | CLoadPreKey i =>
      (match w_prekeys w !! i with Some bs => prekeyrecord_parse bs | None => Err EInvalidKeyId end, w)
  (* inmemoryprekeystore.py:24-26 *)
  | CRemovePreKey i => (Ok tt, w_set_prekeys (delete i (w_prekeys w)) w)
  (* inmemorysignedprekeystore.py:12-16 *)
  | CLoadSignedPreKey i =>
      (match w_signed w !! i with Some bs => signedprekeyrecord_parse bs | None => Err EInvalidKeyId end, w)
  (* inmemorysenderkeystore.py:14-18 *)
  | CLoadSenderKey n =>
      (match w_senderkeys w !! n with Some bs => skr_deserialize bs | None => Ok [] end, w)
  (* inmemorysenderkeystore.py:11-12 *)
  | CStoreSenderKey n l => (Ok tt, w_set_senderkeys (<[n := skr_serialize l]> (w_senderkeys w)) w)
  (* os.urandom(n), ecc/curve.py:17, 87, util/keyhelper.py:94: any [n] bytes *)
  | CUrandom n => (Ok (resize n x00 (w_tape w (w_pos w))), w_set_pos (S (w_pos w)) w)
  (* SystemRandom().randrange(max), util/keyhelper.py:55: any value below [max] *)
  | CRandrange m =>
      (if (m =? 0)%N then Err EValueError else Ok (be_val (w_tape w (w_pos w)) mod m)%N,
       w_set_pos (S (w_pos w)) w)
  (* int(round(time.time() * 1000)), util/keyhelper.py:84: any value below 2^64 *)
  | CTimeMillis => (Ok (be_val (w_tape w (w_pos w)) mod 2 ^ 64)%N, w_set_pos (S (w_pos w)) w)
  end.

(** Complete execution. *)
Fixpoint run {A} (p : prog A) (w : world) : res A * world :=
  match p with
  | Ret a => (Ok a, w)
  | Raise e => (Err e, w)
  | Call c k => let '(r, w') := step_call c w in run (k r) w'
  end.

(** Execution that is killed before its [n+1]-th outside call: the stores it leaves
    behind, and the result if it completed in time. *)
Fixpoint run_crash {A} (n : nat) (p : prog A) (w : world) {struct p} : option (res A) * world :=
  match p with
  | Ret a => (Some (Ok a), w)
  | Raise e => (Some (Err e), w)
  | Call c k => match n with
                | O => (None, w)
                | S n => let '(r, w') := step_call c w in run_crash n (k r) w'
                end
  end.

(** Two programs on the same stores, interleaved between outside calls as the schedule
    says ([true]: the first one steps); the rest of both runs after it is exhausted. *)
Fixpoint run_pair {A B} (sched : list bool) (p : prog A) (q : prog B) (w : world)
    : res A * res B * world :=
  match sched with
  | [] => let '(a, w1) := run p w in let '(b, w2) := run q w1 in (a, b, w2)
  | true :: s => match p with
                 | Call c k => let '(r, w') := step_call c w in run_pair s (k r) q w'
                 | _ => run_pair s p q w
                 end
  | false :: s => match q with
                  | Call c k => let '(r, w') := step_call c w in run_pair s p (k r) w'
                  | _ => run_pair s p q w
                  end
  end.

(** Curve.generateKeyPair, ecc/curve.py:24-30. *)
Definition generateKeyPair (C : crypto) : prog keypair :=
  r ← do (CUrandom 32); lift (keypair_of_rand C r).

(** Curve.calculateSignature, ecc/curve.py:80-91. *)
Definition calculateSignature (C : crypto) (priv msg : bytes) : prog bytes :=
  r ← do (CUrandom 64); lift (calculateSignature_with C r priv msg).

(** KeyHelper.getRandomSequence, util/keyhelper.py:53-55. *)
Definition getRandomSequence (max : N) : prog N := do (CRandrange max).
