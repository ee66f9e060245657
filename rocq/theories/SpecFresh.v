(** Histories in which no key exchange message of one peer device is processed, or in which
    no key exchange is finished twice, the ciphertexts sent to it, and the freshness of the
    drawn keys. *)
From Verif Require Import PyBase Protos Crypto Ecc Messages State Prog Ratchet Builder Cipher Groups SpecSession SpecApi.

(** One step of a history: any call but a key exchange message of ([r], [d]), to its end or
    until the process dies, or a write of the application. *)
Inductive quiet (C : crypto) (r d : Z) (w : world) : world -> Prop :=
| quiet_ends c : (forall m, c <> AKx r d m) -> quiet C r d w (run (api C c) w).2
| quiet_dies c n : (forall m, c <> AKx r d m) -> quiet C r d w (run_crash n (api C c) w).2
| quiet_prekeys m : quiet C r d w (w_set_prekeys m w)
| quiet_signed m : quiet C r d w (w_set_signed m w)
| quiet_trusted m : quiet C r d w (w_set_trusted m w).

(** A history with the ciphertexts that encrypt returned for ([r], [d]), last one first. *)
Inductive sends (C : crypto) (r d : Z) (w : world) : list ciphertextMessage -> world -> Prop :=
| sends_nothing : sends C r d w [] w
| sends_one l w1 pt c w2 : sends C r d w l w1 -> run (encrypt C r d pt) w1 = (Ok c, w2) -> sends C r d w (c :: l) w2
| sends_step l w1 w2 : sends C r d w l w1 -> quiet C r d w1 w2 -> sends C r d w l w2.

(** The ratchet key that the pending key exchange of a state is going to use. *)
Definition pending_key (s : ss_s) : option bytes :=
  match ss_pendingKeyExchange s with
  | Some p => match px_ratchetKey p with Some (x05 :: k) => Some (take 32 k) | _ => None end
  | None => None
  end.
Definition pending_at (w : world) (r d : Z) : option bytes :=
  match session_at w r d with Ok rec => pending_key (sr_state rec) | Err _ => None end.
(** A key exchange message of ([r], [d]) is processed, to the end or until the process dies. *)
Inductive kx_step (C : crypto) (r d : Z) (w : world) : world -> Prop :=
| kx_ends m : kx_step C r d w (run (api C (AKx r d m)) w).2
| kx_dies m n : kx_step C r d w (run_crash n (api C (AKx r d m)) w).2.

(** A history in which no key exchange that the device started is finished twice: [P] are the
    ratchet keys of those that were pending when a key exchange message changed the session.
    A message that is refused may come as often as it likes. *)
Inductive exchanges (C : crypto) (r d : Z) (w : world) : list ciphertextMessage -> list bytes -> world -> Prop :=
| ex_nothing : exchanges C r d w [] [] w
| ex_sent l P w1 pt c w2 : exchanges C r d w l P w1 -> run (encrypt C r d pt) w1 = (Ok c, w2) -> exchanges C r d w (c :: l) P w2
| ex_other l P w1 w2 : exchanges C r d w l P w1 -> quiet C r d w1 w2 -> exchanges C r d w l P w2
| ex_refused l P w1 w2 : exchanges C r d w l P w1 -> kx_step C r d w1 w2 -> w_sessions w2 !! (r, d) = w_sessions w1 !! (r, d) ->
    exchanges C r d w l P w2
| ex_taken l P w1 w2 : exchanges C r d w l P w1 -> kx_step C r d w1 w2 -> (forall k, pending_at w1 r d = Some k -> k ∉ P) ->
    exchanges C r d w l (option_list (pending_at w1 r d) ++ P) w2.

(** The public key of the key pair that draw number [n] would give. *)
Definition drawn (C : crypto) (w : world) (n : nat) : bytes := genPub C (genPriv C (resize 32 x00 (w_tape w n))).

(** The draws made between two points of a history give different keys. *)
Definition fresh_between (C : crypto) (w w' : world) : Prop :=
  forall i j, w_pos w <= i -> i < j -> j < w_pos w' -> drawn C w i <> drawn C w j.
