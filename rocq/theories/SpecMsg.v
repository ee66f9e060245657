(** Small specifications used to state the message properties. *)
From Verif Require Import PyBase.

(** The exceptions a message parser may raise according to the library's interface. *)
Definition parser_exn (e : exn) : Prop :=
  e = EInvalidMessage \/ e = EInvalidVersion \/ e = ELegacyMessage.

(** The version a serialised message claims: the high nibble of its first byte. *)
Definition claimed_version (b : Byte.byte) : N := (b2n b / 16)%N.
