(** Vocabulary for the statements about sessions, independent of the definitions under
    test. *)
From Verif Require Import PyBase Protos Crypto Ecc Kdf Messages State Prog.

(** All durable stores are as before. *)
Definition unchanged (w w' : world) : Prop :=
  w_sessions w' = w_sessions w /\ w_prekeys w' = w_prekeys w /\ w_signed w' = w_signed w /\
  w_trusted w' = w_trusted w /\ w_identity w' = w_identity w /\ w_regid w' = w_regid w /\
  w_senderkeys w' = w_senderkeys w.

(** All durable stores but the trusted identities are as before. *)
Definition unchanged_but_trust (w w' : world) : Prop :=
  w_sessions w' = w_sessions w /\ w_prekeys w' = w_prekeys w /\ w_signed w' = w_signed w /\
  w_identity w' = w_identity w /\ w_regid w' = w_regid w /\ w_senderkeys w' = w_senderkeys w.

(** The stored record of a peer device: what loadSession returns. *)
Definition session_at (w : world) (r d : Z) : res sessionRecord :=
  match w_sessions w !! (r, d) with
  | Some bs => sr_deserialize bs
  | None => Ok sr_new
  end.

(** The store trusts the key for the peer: none or the same one is stored. *)
Definition trusts (w : world) (r : Z) (k : bytes) : Prop :=
  w_trusted w !! r = None \/ w_trusted w !! r = Some k.

(** Another identity is stored for the peer. *)
Definition distrusts (w : world) (r : Z) (k : bytes) : Prop :=
  exists k', w_trusted w !! r = Some k' /\ k' <> k.

(** Some state of the record, current or archived, was set up with this version and base
    key. *)
Definition belongs (rec : sessionRecord) (version : N) (baseKey : bytes) : Prop :=
  exists s, (s = sr_state rec \/ s ∈ sr_previous rec) /\
    st_getSessionVersion s = version /\ ss_aliceBaseKey s = Some (x05 :: baseKey).

(** The signature of [msg] under [pub] verifies. *)
Definition verifies (C : crypto) (pub msg sig : bytes) : Prop :=
  length pub = 32 /\ length sig = 64 /\ verify C pub msg sig = 0%Z.

(** A key pair whose public key belongs to the private key. *)
Definition genuine (C : crypto) (k : keypair) : Prop :=
  length (kp_priv k) = 32 /\ kp_pub k = genPub C (kp_priv k).

(** A key pair of the right lengths. *)
Definition kp_ok (k : keypair) : Prop := length (kp_priv k) = 32 /\ length (kp_pub k) = 32.
