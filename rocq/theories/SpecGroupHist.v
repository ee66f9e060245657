(** Histories of a device seen from one sender key name: an independent description used
    by C53 to C58. *)
From Verif Require Import PyBase Protos Crypto Ecc Kdf Messages State Prog Groups SpecApi SpecGroup.

(** Any number of calls, also ones cut short by a crash, of all kinds and names. *)
Definition later (C : crypto) : world -> world -> Prop := rtc (step C).

(** Everything a device can get to, starting without any sender key, with any number of
    calls in flight. *)
Definition group_reachable (C : crypto) (w : world) : Prop :=
  exists w0 ps, w_senderkeys w0 = ∅ /\ reaches C w0 w ps.

(** The iteration of a state's chain and the stored iterations behind it. *)
Definition chain_at (s : st_s) : N := default 0%N (sck_iteration (default sck_empty (st_senderChainKey s))).
Definition kept (s : st_s) : list N := (fun k => default 0%N (smk_iteration k)) <$> st_senderMessageKeys s.

(** The state can still produce the message key of an iteration: the key is stored or the
    chain key can be stepped to it. *)
Definition holds_group_key (s : st_s) (n : N) : Prop := (chain_at s <= n)%N \/ n ∈ kept s.

(** [s] is the first state of the record with the key id. *)
Definition answering (rec : list st_s) (id : N) (s : st_s) : Prop :=
  exists l1 l2, rec = l1 ++ s :: l2 /\ default 0%N (st_senderKeyId s) = id /\
    Forall (fun x => default 0%N (st_senderKeyId x) <> id) l1.
