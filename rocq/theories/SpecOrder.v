(** Group messages delivered in one order or another: an independent description used by
    C95. *)
From Verif Require Import PyBase Protos Crypto Ecc Kdf Messages State Prog Groups SpecGroup.

(** The results of decrypting messages one after the other. *)
Fixpoint deliver (C : crypto) (name : senderKeyName) (ms : list bytes) (w : world) : list (res bytes) * world :=
  match ms with
  | [] => ([], w)
  | m :: ms => let x := run (group_decrypt C name m) w in let y := deliver C name ms x.2 in (x.1 :: y.1, y.2)
  end.
(** Every message of the list gives the plaintext next to it. *)
Definition all_open (C : crypto) (name : senderKeyName) (l : list (bytes * bytes)) (w w' : world) : Prop :=
  deliver C name (map fst l) w = (map (fun x => Ok (snd x)) l, w').
(** Each message with what became of it, a plaintext or an exception. *)
Definition fates (C : crypto) (name : senderKeyName) (ms : list bytes) (w : world) : list (bytes * res bytes) :=
  zip ms (deliver C name ms w).1.

(** The key id and iteration of a message, if it can be read at all. *)
Definition numbers (bs : bytes) : option (N * N) :=
  match sk_msg_parse bs with Ok m => Some (gKeyId m, gIteration m) | Err _ => None end.
(** No two of the messages claim the same ones. *)
Definition different (ms : list bytes) : Prop := NoDup (omap numbers ms).
