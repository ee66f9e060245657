(** Receiving a sequence of messages of one peer, used by C82. *)
From Verif Require Import PyBase Protos Crypto Messages State Prog Cipher SpecUtil.

(** The messages are read from bytes and decrypted one after the other, each with success. *)
Inductive reads (C : crypto) (r d : Z) : nat -> world -> world -> Prop :=
| reads_none w : reads C r d 0 w w
| reads_one n w bs m pt w1 w2 :
    whisper_parse bs = Ok m -> run (decryptMsg C r d m) w = (Ok pt, w1) -> reads C r d n w1 w2 ->
    reads C r d (S n) w w2.
