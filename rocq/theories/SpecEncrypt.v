(** Sequences of calls for one peer device and what they return. *)
From Verif Require Import PyBase Protos Crypto Ecc Messages State Prog Cipher SpecSession SpecKeys.

(** The three calls of SessionCipher. *)
Inductive op := OEncrypt (plaintext : bytes) | OMsg (m : whisperMessage) | OPkmsg (m : preKeyWhisperMessage).
Inductive outcome := Encrypted (c : ciphertextMessage) | Decrypted (plaintext : bytes).

Section history.
Context (C : crypto) (r d : Z).

Definition op_prog (o : op) : prog outcome :=
  match o with
  | OEncrypt pt => c ← encrypt C r d pt; Ret (Encrypted c)
  | OMsg m => pt ← decryptMsg C r d m; Ret (Decrypted pt)
  | OPkmsg m => pt ← decryptPkmsg C r d m; Ret (Decrypted pt)
  end.

(** One call, to its end ([None]) or until the process dies before its [n+1]-th outside
    call. What it returned, if it ended. *)
Definition attempt (o : op) (crash : option nat) (w : world) : option (res outcome) * world :=
  match crash with
  | None => let '(x, w') := run (op_prog o) w in (Some x, w')
  | Some n => run_crash n (op_prog o) w
  end.

(** A sequence of calls, the process being restarted after each death. *)
Fixpoint history (l : list (op * option nat)) (w : world) : list (option (res outcome)) * world :=
  match l with
  | [] => ([], w)
  | (o, crash) :: l =>
      let '(x, w1) := attempt o crash w in
      let '(xs, w2) := history l w1 in (x :: xs, w2)
  end.
End history.

(** The ciphertexts returned, in order. *)
Definition sent (l : list (option (res outcome))) : list ciphertextMessage :=
  omap (fun x => match x with Some (Ok (Encrypted c)) => Some c | _ => None end) l.

(** The ratchet message in a ciphertext. *)
Definition inner (c : ciphertextMessage) : whisperMessage :=
  match c with CTWhisper m => m | CTPreKey p => pMessage p end.

(** The message was sealed with these keys by [sender] for [receiver]. *)
Definition sealed (C : crypto) (sender receiver : bytes) (k : keys) (m : whisperMessage) (plaintext : bytes) : Prop :=
  authentic C (wVersion m) sender receiver (k_mac k) (wSerialized m) /\
  cbc_plain C (k_cipher k) (k_iv k) (wBody m) plaintext.

(** A prekey message that carries the details of the bundle. *)
Definition names (c : ciphertextMessage) (preKeyId : option N) (signedPreKeyId : N) (baseKey identityKey : bytes) (registrationId : N) : Prop :=
  exists p, c = CTPreKey p /\ pPreKeyId p = preKeyId /\ pSignedPreKeyId p = signedPreKeyId /\ pBaseKey p = baseKey /\
    pIdentityKey p = identityKey /\ pRegistrationId p = registrationId.

(** The calls of a sequence of encryptions, some of which die. *)
Definition enc_ops (l : list (bytes * option nat)) : list (op * option nat) := (fun x => (OEncrypt x.1, x.2)) <$> l.

(** The ciphertext is the encryption of the plaintext with the key of its number in the
    sending chain of the state. *)
Definition from_sending (C : crypto) (s : ss_s) (plaintext : bytes) (ct : ciphertextMessage) : Prop :=
  exists c version local remote,
    ss_senderChain s = Some c /\ chain_of c (wRatchetKey (inner ct)) /\
    version_of s version /\ wVersion (inner ct) = version /\
    (next_index c <= wCounter (inner ct))%N /\
    identity_of (ss_localIdentity s) local /\ identity_of (ss_remoteIdentity s) remote /\
    sealed C local remote
      (keys_of C version (stepped C (next_key c) (N.to_nat (wCounter (inner ct) - next_index c)))) (inner ct) plaintext.

(** A call that receives. *)
Definition receives (o : op) : Prop := match o with OEncrypt _ => False | _ => True end.

(** Schedules of two calls that let one of them load and store before the other loads. *)
Inductive apart : list bool -> Prop :=
| apart_nil : apart []
| apart_first : apart [true]
| apart_first_both l : apart (true :: true :: l)
| apart_second_both l : apart (false :: false :: l).
