(** Two devices that talk while they do other things as well: an independent description
    used by C84. *)
From Verif Require Import PyBase Protos Crypto Ecc Messages State Prog Builder Cipher Groups SpecUtil SpecSession SpecApi SpecKeys Sched SpecConv.

(** The call is not for the peer device ([r], [d]). *)
Definition aside (r d : Z) (c : apiCall) : Prop :=
  match c with
  | ABundle r' d' _ | AInitKx r' d' | AKx r' d' _ | AEncrypt r' d' _ | AMsg r' d' _ | APkmsg r' d' _ => (r', d') <> (r, d)
  | AGroupCreate _ | AGroupProcess _ _ | AGroupEncrypt _ _ | AGroupDecrypt _ _ => True
  end.

(** The call takes something received in the name of ([r], [d]).  A key exchange message
    that begins an exchange has an identity that is not trusted, or no valid signature. *)
Definition takes (C : crypto) (r d : Z) (w : world) (c : apiCall) : Prop :=
  match c with
  | ABundle r' d' _ | AMsg r' d' _ | APkmsg r' d' _ => (r', d') = (r, d)
  | AKx r' d' m => (r', d') = (r, d) /\ (N.testbit (xFlags m) 0 = true -> trusts w r (xIdentityKey m) ->
      ~ verifies C (xIdentityKey m) (x05 :: xBaseKey m) (xBaseKeySignature m))
  | _ => False
  end.

(** What a device may do beside talking to ([r], [d]): any call for any other peer device
    or group, to its end or until it dies; refusing anything received in the name of ([r],
    [d]); and the application may write its prekeys and identities. *)
Inductive meanwhile (C : crypto) (r d : Z) (w : world) : world -> Prop :=
| meanwhile_ends c : aside r d c -> meanwhile C r d w (run (api C c) w).2
| meanwhile_dies c n : aside r d c -> meanwhile C r d w (run_crash n (api C c) w).2
| meanwhile_refuses c e w' : takes C r d w c -> run (api C c) w = (Err e, w') -> meanwhile C r d w w'
| meanwhile_prekeys m : meanwhile C r d w (w_set_prekeys m w)
| meanwhile_signed m : meanwhile C r d w (w_set_signed m w)
| meanwhile_trusted m : meanwhile C r d w (w_set_trusted m w).

(** A schedule [l] of sends and deliveries with such things in between; each of them at B
    leaves B in a world of which [good] holds. *)
Inductive busy (C : crypto) (rA dA rB dB : Z) (good : world -> Prop) : list action -> net -> list event -> net -> Prop :=
| busy_end n : busy C rA dA rB dB good [] n [] n
| busy_talk a l n e n1 es n' : act C rA dA rB dB a n = (e, n1) -> busy C rA dA rB dB good l n1 es n' ->
    busy C rA dA rB dB good (a :: l) n (e :: es) n'
| busy_A l n w es n' : meanwhile C rB dB (n_A n) w ->
    busy C rA dA rB dB good l (Net w (n_B n) (n_fromA n) (n_fromB n)) es n' -> busy C rA dA rB dB good l n es n'
| busy_B l n w es n' : meanwhile C rA dA (n_B n) w -> good w ->
    busy C rA dA rB dB good l (Net (n_A n) w (n_fromA n) (n_fromB n)) es n' -> busy C rA dA rB dB good l n es n'.
Definition anything (w : world) : Prop := True.

(** Before the first message is in, the device still holds the prekeys of its bundle; and it
    always trusts the identity of its peer. *)
Definition still_open (r d : Z) (ident : bytes) (sid : N) (spk : keypair) (pid : N) (otpk : keypair) (w : world) : Prop :=
  trusts w r ident /\ (w_sessions w !! (r, d) = None -> holds_signed w sid spk /\ holds_prekey w pid otpk).
