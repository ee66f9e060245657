(** Two devices exchanging messages: how an application uses the library.  A ciphertext
    travels as its type and its serialisation; the receiver parses it and calls
    decryptPkmsg or decryptMsg according to the type, as the repository's tests do
    (tests/test_sessionbuilder.py:79-110, tests/test_sessioncipher.py:27-86). *)
From Verif Require Import PyBase Wire Protos Crypto Ecc Kdf Messages State Prog Ratchet Builder Cipher.

(** Type (true: PREKEY_TYPE, false: WHISPER_TYPE) and bytes. *)
Definition wire : Type := bool * bytes.

(** getType and serialize, protocol/whispermessage.py:100-104,
    protocol/prekeywhispermessage.py:94-98. *)
Definition ct_wire (c : ciphertextMessage) : wire :=
  (match c with CTWhisper _ => false | CTPreKey _ => true end, ct_serialize c).

Section sched.
Context (C : crypto).

(** Receiving a message from peer [r], device [d]. *)
Definition receive (r d : Z) (x : wire) : prog bytes :=
  if x.1 then m ← lift (prekey_parse x.2); decryptPkmsg C r d m
  else m ← lift (whisper_parse x.2); decryptMsg C r d m.

(** What happens next.  Messages are numbered in sending order per direction; the network
    may deliver any of them at any time, any number of times, or never. *)
Inductive action :=
| SendA (plaintext : bytes) | SendB (plaintext : bytes)
| DeliverA (i : nat)   (** message number [i] from B arrives at A *)
| DeliverB (i : nat).  (** message number [i] from A arrives at B *)

(** Both devices and everything that was ever sent. *)
Record net := Net { n_A : world; n_B : world; n_fromA : list wire; n_fromB : list wire }.

(** What an action gives: nothing to deliver, a sent ciphertext, a received plaintext, or
    an exception. *)
Inductive event := Nothing | Sent (x : wire) | Received (plaintext : bytes) | Raised (e : exn).

(** Addresses: A knows B as (rB, dB), B knows A as (rA, dA). *)
Context (rA dA rB dB : Z).

Definition act (a : action) (n : net) : event * net :=
  match a with
  | SendA pt =>
      let '(o, w) := run (encrypt C rB dB pt) (n_A n) in
      match o with
      | Ok c => (Sent (ct_wire c), Net w (n_B n) (n_fromA n ++ [ct_wire c]) (n_fromB n))
      | Err e => (Raised e, Net w (n_B n) (n_fromA n) (n_fromB n))
      end
  | SendB pt =>
      let '(o, w) := run (encrypt C rA dA pt) (n_B n) in
      match o with
      | Ok c => (Sent (ct_wire c), Net (n_A n) w (n_fromA n) (n_fromB n ++ [ct_wire c]))
      | Err e => (Raised e, Net (n_A n) w (n_fromA n) (n_fromB n))
      end
  | DeliverA i =>
      match n_fromB n !! i with
      | None => (Nothing, n)
      | Some x =>
          let '(o, w) := run (receive rB dB x) (n_A n) in
          (match o with Ok p => Received p | Err e => Raised e end, Net w (n_B n) (n_fromA n) (n_fromB n))
      end
  | DeliverB i =>
      match n_fromA n !! i with
      | None => (Nothing, n)
      | Some x =>
          let '(o, w) := run (receive rA dA x) (n_B n) in
          (match o with Ok p => Received p | Err e => Raised e end, Net (n_A n) w (n_fromA n) (n_fromB n))
      end
  end.

(** A schedule: the events in order, and the final network. *)
Fixpoint play (l : list action) (n : net) : list event * net :=
  match l with
  | [] => ([], n)
  | a :: l => let '(e, n) := act a n in let '(es, n) := play l n in (e :: es, n)
  end.
End sched.
