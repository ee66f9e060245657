(** Recorded and altered handshake messages (C80, C81). *)
From Verif Require Import PyBase Protos Crypto Ecc Messages State Prog Builder SpecUtil SpecSession SpecApi SpecSetup.

(** The same key exchange message arrives [n] times. *)
Fixpoint replays (C : crypto) (r d : Z) (m : keyExchangeMessage) (n : nat) (w : world) : world :=
  match n with O => w | S n => (run (processKeyExchangeMessage C r d m) (replays C r d m n w)).2 end.

(** The session was set up by answering this message, at some moment with some keys. *)
Definition answers_exchange (C : crypto) (m : keyExchangeMessage) (s : ss_s) : Prop :=
  exists w n id base rat n', exchange_session C w n id base rat m s n'.

(** The message starts a key exchange, has keys of the proper length, and its base key is
    signed with its identity key. *)
Definition offer (C : crypto) (m : keyExchangeMessage) : Prop :=
  N.testbit (xFlags m) 0 = true /\ length (xBaseKey m) = 32 /\ length (xRatchetKey m) = 32 /\ (xSequence m < 2 ^ 27)%N /\
  verifies C (xIdentityKey m) (x05 :: xBaseKey m) (xBaseKeySignature m).
