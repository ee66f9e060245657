(** What the four group calls do, step by step: an independent description used by C75 and
    C76. *)
From Verif Require Import PyBase Protos Crypto Ecc Kdf Messages State Prog.
From Verif Require Import HelperFacts SpecUtil SpecSession SpecKeys SpecGroup SpecGroupHist.

Section step.
Context (C : crypto).

(** The sender key chain: the seed of a message, the next chain key, and the 48 bytes of iv
    and key made of a seed. *)
Definition group_seed (ck : bytes) : bytes := hmac256 C ck [x01].
Definition group_stepped (ck : bytes) (n : nat) : bytes := Nat.iter n (fun k => hmac256 C k [x02]) ck.
Definition group_okm (seed : bytes) : bytes := rfc_hkdf (hmac256 C) 1 None seed (ascii "WhisperGroup") 48.
Definition group_body (seed body plaintext : bytes) : Prop :=
  cbc_plain C (take 32 (drop 16 (group_okm seed))) (take 16 (group_okm seed)) body plaintext.

(** The parts of a state. *)
Definition key_id (s : st_s) : N := default 0%N (st_senderKeyId s).
Definition chain_key (s : st_s) : bytes := default [] (sck_seed (default sck_empty (st_senderChainKey s))).
Definition signing_public (s : st_s) : option bytes := ssk_public (default ssk_empty (st_senderSigningKey s)).
Definition signing_private (s : st_s) : bytes := default [] (ssk_private (default ssk_empty (st_senderSigningKey s))).
Definition iteration_of (k : smk_s) : N := default 0%N (smk_iteration k).

(** The same state at another point of its chain, with other stored message keys. *)
Definition moved (s : st_s) (iteration : N) (ck : bytes) (keys : list smk_s) : st_s :=
  StS (st_senderKeyId s) (Some (SckS (Some iteration) (Some ck))) (st_senderSigningKey s) keys.

(** Taking the seed of iteration [n] out of a state. *)
Inductive group_read (s : st_s) (n : N) : bytes -> st_s -> Prop :=
| read_stored l1 e l2 : (n < chain_at s)%N -> st_senderMessageKeys s = l1 ++ e :: l2 ->
    iteration_of e = n -> Forall (fun k => iteration_of k <> n) l1 ->
    group_read s n (default [] (smk_seed e)) (StS (st_senderKeyId s) (st_senderChainKey s) (st_senderSigningKey s) (l1 ++ l2))
| read_ahead d : n = (chain_at s + N.of_nat d)%N -> (n + 1 < 2 ^ 32)%N ->
    group_read s n (group_seed (group_stepped (chain_key s) d))
      (moved s (n + 1) (group_stepped (chain_key s) (S d))
         (st_senderMessageKeys s ++
          map (fun i => SmkS (Some (chain_at s + N.of_nat i)%N) (Some (group_seed (group_stepped (chain_key s) i)))) (seq 0 d))).

(** The record of a name, and only that, is replaced. *)
Definition sender_keys_become (w : world) (name : senderKeyName) (rec : list st_s) (w' : world) : Prop :=
  senderkey_at w' name = Ok rec /\ w' = w_set_senderkeys (<[name := skr_serialize rec]> (w_senderkeys w)) w.

(** A group message is opened: the first state with its key id, a signature of that state's
    key over everything but the last 64 bytes, and the body under the key of its iteration. *)
Definition group_opens (w : world) (name : senderKeyName) (bs pt : bytes) (w' : world) : Prop :=
  exists m l1 s l2 pub seed s',
    sk_msg_parse bs = Ok m /\ senderkey_at w name = Ok (l1 ++ s :: l2) /\
    key_id s = gKeyId m /\ Forall (fun x => key_id x <> gKeyId m) l1 /\
    identity_of (signing_public s) pub /\
    verifies C pub (take (length bs - 64) bs) (drop (length bs - 64) bs) /\
    group_read s (gIteration m) seed s' /\ group_body seed (gCiphertext m) pt /\
    sender_keys_become w name (l1 ++ s' :: l2) w'.

(** The first state sends: its key id and iteration, the body under the key of that
    iteration, signed with its private key and the bytes drawn next. *)
Definition group_sends (w : world) (name : senderKeyName) (pt bs : bytes) (w' : world) : Prop :=
  exists s rec ct signed,
    senderkey_at w name = Ok (s :: rec) /\ group_body (group_seed (chain_key s)) ct pt /\
    signed = x33 :: sk_enc (SkS (Some (key_id s)) (Some (chain_at s)) (Some ct)) /\
    bs = signed ++ sign C (resize 64 x00 (w_tape w (w_pos w))) (signing_private s) signed /\
    sk_msg_parse bs = Ok (SenderKeyMessage 3 (key_id s) (chain_at s) ct bs) /\
    sender_keys_become (w_set_pos (1 + w_pos w) w) name
      (moved s (chain_at s + 1) (group_stepped (chain_key s) 1) (st_senderMessageKeys s) :: rec) w'.

(** A state nobody has used yet. *)
Definition fresh_state (id iteration : N) (ck pub : bytes) (priv : option bytes) : st_s :=
  StS (Some id) (Some (SckS (Some iteration) (Some ck))) (Some (SskS (Some (x05 :: pub)) priv)) [].

(** A distribution message that says this, also to its readers. *)
Definition distributes (m : senderKeyDistributionMessage) (id iteration : N) (ck pub : bytes) : Prop :=
  dId m = id /\ dIteration m = iteration /\ dChainKey m = ck /\ dSignatureKey m = pub /\
  skd_msg_parse (dSerialized m) = Ok m.
End step.

(** ** When the calls fail *)

(** A stored state has a public signing key, and no private one or one of 32 bytes. *)
Definition keyed (s : st_s) : Prop :=
  exists k priv, st_senderSigningKey s = Some (SskS (Some (x05 :: k)) priv) /\ forall p, priv = Some p -> length p = 32.

Section refuse.
Context (C : crypto).

(** The state and the public signing key a message is checked with. *)
Definition checked_with (rec : list st_s) (m : senderKeyMessage) (s : st_s) (pub : bytes) : Prop :=
  answering rec (gKeyId m) s /\ identity_of (signing_public s) pub.
Definition genuine_for (pub bs : bytes) : Prop :=
  verifies C pub (take (length bs - 64) bs) (drop (length bs - 64) bs).

Inductive group_refuses (rec : list st_s) (bs : bytes) : exn -> Prop :=
| refuse_none : rec = [] -> group_refuses rec bs ENoSession
| refuse_empty : rec <> [] -> bs = [] -> group_refuses rec bs EAssertionError
| refuse_unreadable : rec <> [] -> bs <> [] -> (forall m, sk_msg_parse bs <> Ok m) -> group_refuses rec bs EInvalidMessage
| refuse_unknown m : rec <> [] -> sk_msg_parse bs = Ok m -> Forall (fun s => key_id s <> gKeyId m) rec ->
    group_refuses rec bs EInvalidMessage
| refuse_length m s pub : sk_msg_parse bs = Ok m -> checked_with rec m s pub -> length pub <> 32 \/ length bs < 64 ->
    group_refuses rec bs EValueError
| refuse_forged m s pub : sk_msg_parse bs = Ok m -> checked_with rec m s pub -> length pub = 32 -> 64 <= length bs ->
    ~ genuine_for pub bs -> group_refuses rec bs EInvalidMessage
| refuse_used m s pub : sk_msg_parse bs = Ok m -> checked_with rec m s pub -> genuine_for pub bs ->
    ~ holds_group_key s (gIteration m) -> group_refuses rec bs EDuplicateMessage
| refuse_last m s pub : sk_msg_parse bs = Ok m -> checked_with rec m s pub -> genuine_for pub bs ->
    (chain_at s <= gIteration m)%N -> (gIteration m + 1 = 2 ^ 32)%N -> group_refuses rec bs EValueError
| refuse_garbled m s pub seed s' : sk_msg_parse bs = Ok m -> checked_with rec m s pub -> genuine_for pub bs ->
    group_read C s (gIteration m) seed s' -> (forall pt, ~ group_body C seed (gCiphertext m) pt) ->
    group_refuses rec bs EInvalidMessage.

(** Sending fails: nothing to send with, no private key, or no iteration left. *)
Inductive send_refused : list st_s -> exn -> Prop :=
| send_none : send_refused [] ENoSession
| send_no_private s rec : ssk_private (default ssk_empty (st_senderSigningKey s)) = None -> send_refused (s :: rec) EValueError
| send_last s rec : (chain_at s + 1 = 2 ^ 32)%N -> send_refused (s :: rec) EValueError.
End refuse.
