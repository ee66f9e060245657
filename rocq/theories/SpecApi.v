(** The public calls of one device and its histories. *)
From Verif Require Import PyBase Protos Crypto Ecc Kdf Messages State Prog Ratchet Builder Cipher Groups Helper.

(** The calls of SessionBuilder, SessionCipher, GroupSessionBuilder and GroupCipher, and the
    application's own writes to its prekey stores. *)
Inductive apiCall :=
| ABundle (r d : Z) (b : preKeyBundle)
| AInitKx (r d : Z)
| AKx (r d : Z) (m : keyExchangeMessage)
| AEncrypt (r d : Z) (plaintext : bytes)
| AMsg (r d : Z) (m : whisperMessage)
| APkmsg (r d : Z) (m : preKeyWhisperMessage)
| AGroupCreate (n : senderKeyName)
| AGroupProcess (n : senderKeyName) (m : senderKeyDistributionMessage)
| AGroupEncrypt (n : senderKeyName) (plaintext : bytes)
| AGroupDecrypt (n : senderKeyName) (b : bytes).

(** The call as a program whose result is dropped. *)
Definition api (C : crypto) (c : apiCall) : prog unit :=
  match c with
  | ABundle r d b => processPreKeyBundle C r d b
  | AInitKx r d => _ ← processInitKeyExchangeMessage C r d; Ret tt
  | AKx r d m => _ ← processKeyExchangeMessage C r d m; Ret tt
  | AEncrypt r d pt => _ ← encrypt C r d pt; Ret tt
  | AMsg r d m => _ ← decryptMsg C r d m; Ret tt
  | APkmsg r d m => _ ← decryptPkmsg C r d m; Ret tt
  | AGroupCreate n => _ ← group_create C n; Ret tt
  | AGroupProcess n m => group_process n m
  | AGroupEncrypt n pt => _ ← group_encrypt C n pt; Ret tt
  | AGroupDecrypt n b => _ ← group_decrypt C n b; Ret tt
  end.

(** One step of a history: a call that ends, one whose process dies before its [n+1]-th
    outside call, or a write to the prekey stores or the identity by the application. *)
Inductive step (C : crypto) (w : world) : world -> Prop :=
| step_call_ends c : step C w (run (api C c) w).2
| step_call_dies c n : step C w (run_crash n (api C c) w).2
| step_prekeys m : step C w (w_set_prekeys m w)
| step_signed m : step C w (w_set_signed m w)
| step_trusted m : step C w (w_set_trusted m w).

(** A device with calls in flight, from [w0] on: a call begins; one of the calls in flight
    makes its next access; one of them is dropped, because it ended or its thread died; the
    application writes to its stores.  Any number of calls at a time. *)
Inductive reaches (C : crypto) (w0 : world) : world -> list (prog unit) -> Prop :=
| reaches_start : reaches C w0 w0 []
| reaches_begin w ps c : reaches C w0 w ps -> reaches C w0 w (api C c :: ps)
| reaches_access w l1 R (c : call R) k l2 :
    reaches C w0 w (l1 ++ Call c k :: l2) -> reaches C w0 (step_call c w).2 (l1 ++ k (step_call c w).1 :: l2)
| reaches_dropped w l1 p l2 : reaches C w0 w (l1 ++ p :: l2) -> reaches C w0 w (l1 ++ l2)
| reaches_prekeys w ps m : reaches C w0 w ps -> reaches C w0 (w_set_prekeys m w) ps
| reaches_signed w ps m : reaches C w0 w ps -> reaches C w0 (w_set_signed m w) ps
| reaches_trusted w ps m : reaches C w0 w ps -> reaches C w0 (w_set_trusted m w) ps.

(** Everything a device can get to, starting without any session. *)
Definition reachable (C : crypto) (w : world) : Prop := exists w0 ps, w_sessions w0 = ∅ /\ reaches C w0 w ps.

(** The state can still produce the message key of counter [n] in the chain of the ratchet
    key: the key is stored or the chain key can be stepped to it. *)
Definition holds_key (s : ss_s) (key : bytes) (n : N) : Prop :=
  exists c, c ∈ ss_receiverChains s /\ ch_ratchetKey c = Some (x05 :: key) /\
    ((default 0 (ck_index (default ck_empty (ch_chainKey c))) <= n)%N \/
     exists k, k ∈ ch_messageKeys c /\ default 0%N (mk_index k) = n).

(** All states of a record in the order they are tried: current, then archived. *)
Definition states (rec : sessionRecord) : list ss_s := sr_state rec :: sr_previous rec.

(** What a state answers to a message, whatever key pair is drawn. *)
Definition answers (C : crypto) (s : ss_s) (m : whisperMessage) (o : res bytes) : Prop :=
  forall w, fst <$> (run (decryptWithSessionState C s m) w).1 = o.

(** One change of a record: the current state is updated, the current state is archived
    first with at most forty kept and a new one made, or state number [i] is updated and
    moved to the front. *)
Inductive evolves (rec rec' : sessionRecord) : Prop :=
| evolves_current : sr_previous rec' = sr_previous rec -> evolves rec rec'
| evolves_archive : sr_previous rec' = take 40 (sr_state rec :: sr_previous rec) -> evolves rec rec'
| evolves_promote i s' : i < length (states rec) ->
    states rec' = s' :: take i (states rec) ++ drop (S i) (states rec) -> evolves rec rec'.

(** The archived states after a new session was set up: none if there was no session,
    otherwise the former states, at most forty. *)
Definition archive_of (rec : sessionRecord) : list ss_s :=
  if sr_fresh rec then [] else take 40 (states rec).
