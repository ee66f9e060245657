(** Many devices contact one that was just installed: an independent description used by C88. *)
From Verif Require Import PyBase Protos Crypto Ecc Messages State Prog Builder Cipher Helper Install.

(** Somebody, known to the installed device as ([ct_r], [ct_d]), who was given the prekey
    [ct_prekey], and the first message. *)
Record contact := Contact { ct_r : Z; ct_d : Z; ct_world : world; ct_prekey : pr_s; ct_text : bytes }.

Section contacts.
Context (C : crypto) (rB dB : Z) (x : keypair * N * list pr_s * spr_s).

(** [m] is what reaches the installed device: the contact processes its bundle and encrypts. *)
Definition says (c : contact) (m : preKeyWhisperMessage) : Prop :=
  let '(identity, registration, _, signed) := x in
  exists b w1 m0 w2, bundle_with (kp_pub identity) registration dB (ct_prekey c) signed = Ok b /\
    run (processPreKeyBundle C rB dB b) (ct_world c) = (Ok tt, w1) /\
    run (encrypt C rB dB (ct_text c)) w1 = (Ok (CTPreKey m0), w2) /\ prekey_parse (pSerialized m0) = Ok m.
End contacts.

(** The messages arrive one after the other. *)
Fixpoint arrive (C : crypto) (l : list (contact * preKeyWhisperMessage)) (w : world) : list (res bytes) * world :=
  match l with
  | [] => ([], w)
  | (c, m) :: l => let '(o, w1) := run (decryptPkmsg C (ct_r c) (ct_d c) m) w in
                   let '(os, w2) := arrive C l w1 in (o :: os, w2)
  end.

(** The keys a contact draws for the first message, and the next one. *)
Definition draws3 (C : crypto) (w : world) : list bytes :=
  (fun i => genPub C (genPriv C (resize 32 x00 (w_tape w (w_pos w + i))))) <$> [0; 1; 2].
(** The first [k] keys a device can draw. *)
Definition first_draws (C : crypto) (w : world) (k : nat) : list bytes :=
  (fun i => genPub C (genPriv C (resize 32 x00 (w_tape w i)))) <$> seq (w_pos w) k.
