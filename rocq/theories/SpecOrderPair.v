(** Messages of a session delivered in one order or another: an independent description used by
    C96. *)
From Verif Require Import PyBase Protos Crypto Ecc Kdf Messages State Prog Cipher SpecSession SpecKeys SpecApi.

(** The messages are decrypted one after the other; every one gives the plaintext next to it. *)
Fixpoint all_read (C : crypto) (r d : Z) (l : list (whisperMessage * bytes)) (w w' : world) : Prop :=
  match l with
  | [] => w' = w
  | x :: l => exists w1, run (decryptMsg C r d x.1) w = (Ok x.2, w1) /\ all_read C r d l w1 w'
  end.

(** The message belongs to a receiving chain that is there already, or to the one new chain
    with the ratchet key [R], for which there is still room among the five. *)
Definition placed (R : bytes) (s : ss_s) (m : whisperMessage) : Prop :=
  (exists c, receiving s (wRatchetKey m) c) \/
  wRatchetKey m = R /\ no_receiving s R /\ length (ss_receiverChains s) < 5.

(** The place a message claims: its ratchet key and its number. *)
Definition place (x : whisperMessage * bytes) : bytes * N := (wRatchetKey x.1, wCounter x.1).
