(** What belongs to one peer device, or to one sender key name: an independent description
    used by C40. *)
From Verif Require Import PyBase Protos Crypto Ecc Messages State Prog Builder Cipher Groups.

(** The calls for the peer device ([r], [d]). *)
Inductive peerCall (C : crypto) (r d : Z) : forall A, prog A -> Prop :=
| peer_bundle b : peerCall C r d unit (processPreKeyBundle C r d b)
| peer_kx m : peerCall C r d _ (processKeyExchangeMessage C r d m)
| peer_init : peerCall C r d _ (processInitKeyExchangeMessage C r d)
| peer_encrypt pt : peerCall C r d _ (encrypt C r d pt)
| peer_msg m : peerCall C r d _ (decryptMsg C r d m)
| peer_pkmsg m : peerCall C r d _ (decryptPkmsg C r d m).

(** The calls for the sender key name [n]. *)
Inductive groupCall (C : crypto) (n : senderKeyName) : forall A, prog A -> Prop :=
| group_call_create : groupCall C n _ (group_create C n)
| group_call_process m : groupCall C n unit (group_process n m)
| group_call_encrypt pt : groupCall C n _ (group_encrypt C n pt)
| group_call_decrypt b : groupCall C n _ (group_decrypt C n b).

(** Two devices that look alike to a call for ([r], [d]): the session of this peer device,
    the trusted identity of this peer, the own prekeys and identity, and the coming random
    outcomes.  The sessions of all other peer devices, the identities of all other peers
    and all sender keys may differ. *)
Definition same_for (r d : Z) (w1 w2 : world) : Prop :=
  w_sessions w1 !! (r, d) = w_sessions w2 !! (r, d) /\ w_trusted w1 !! r = w_trusted w2 !! r /\
  w_prekeys w1 = w_prekeys w2 /\ w_signed w1 = w_signed w2 /\ w_identity w1 = w_identity w2 /\ w_regid w1 = w_regid w2 /\
  w_pos w1 = w_pos w2 /\ (forall i, w_tape w1 i = w_tape w2 i).

(** The call for ([r], [d]) has left alone what is not of that peer. *)
Definition only_changes (r d : Z) (w w' : world) : Prop :=
  (forall r' d', (r', d') <> (r, d) -> w_sessions w' !! (r', d') = w_sessions w !! (r', d')) /\
  (forall r', r' <> r -> w_trusted w' !! r' = w_trusted w !! r') /\
  w_senderkeys w' = w_senderkeys w /\ w_signed w' = w_signed w /\ w_identity w' = w_identity w /\ w_regid w' = w_regid w.

(** The same for a sender key name. *)
Definition same_for_group (n : senderKeyName) (w1 w2 : world) : Prop :=
  w_senderkeys w1 !! n = w_senderkeys w2 !! n /\ w_pos w1 = w_pos w2 /\ (forall i, w_tape w1 i = w_tape w2 i).
Definition only_changes_group (n : senderKeyName) (w w' : world) : Prop :=
  (forall n', n' <> n -> w_senderkeys w' !! n' = w_senderkeys w !! n') /\
  w_sessions w' = w_sessions w /\ w_trusted w' = w_trusted w /\ w_prekeys w' = w_prekeys w /\ w_signed w' = w_signed w /\
  w_identity w' = w_identity w /\ w_regid w' = w_regid w.
