(** Calls that a crash cannot tear: an independent description used by C51 and C52. *)
From Verif Require Import PyBase Protos Crypto Ecc Messages State Prog Builder Cipher Groups SpecSession.

(** The calls with a single durable effect. *)
Inductive singleCall (C : crypto) : forall A, prog A -> Prop :=
| single_encrypt r d pt : singleCall C _ (encrypt C r d pt)
| single_msg r d m : singleCall C _ (decryptMsg C r d m)
| single_init r d : singleCall C _ (processInitKeyExchangeMessage C r d)
| single_group_create n : singleCall C _ (group_create C n)
| single_group_process n m : singleCall C _ (group_process n m)
| single_group_encrypt n pt : singleCall C _ (group_encrypt C n pt)
| single_group_decrypt n b : singleCall C _ (group_decrypt C n b).

(** The calls that also write the identity or prekey store. *)
Inductive multiCall (C : crypto) : forall A, prog A -> Prop :=
| multi_bundle r d b : multiCall C _ (processPreKeyBundle C r d b)
| multi_kx r d m : multiCall C _ (processKeyExchangeMessage C r d m)
| multi_pkmsg r d m : multiCall C _ (decryptPkmsg C r d m).

(** Nothing happened, or everything. *)
Definition all_or_nothing {A} (p : prog A) : Prop := forall n w,
  unchanged w (run_crash n p w).2 \/ unchanged (run p w).2 (run_crash n p w).2.

(** The stores, and one of them being the same in two worlds. *)
Inductive store := Sessions | Prekeys | Trusted | SenderKeys.
Definition same_store (s : store) (w w' : world) : Prop :=
  match s with
  | Sessions => w_sessions w' = w_sessions w
  | Prekeys => w_prekeys w' = w_prekeys w
  | Trusted => w_trusted w' = w_trusted w
  | SenderKeys => w_senderkeys w' = w_senderkeys w
  end.

(** Signed prekeys, identity and registration id, which no call writes. *)
Definition same_rest (w w' : world) : Prop :=
  w_signed w' = w_signed w /\ w_identity w' = w_identity w /\ w_regid w' = w_regid w.

(** [wc] is a cut of the change from [w] to [wf] when the stores are written in [order]:
    those before the cut are as in [wf], all others as in [w]. *)
Definition cut (order : list store) (w wf wc : world) : Prop :=
  exists before after, order = before ++ after /\
    (forall s, s ∈ before -> same_store s wf wc) /\
    (forall s, s ∉ before -> same_store s w wc) /\
    same_rest w wc.
