(** Properties C59, C60, C68, continued: which schedules of two concurrent calls are harmless. *)
From Verif Require Import PyBase Wire Protos Crypto Ecc Kdf Messages State Prog Ratchet Builder Cipher Groups Helper.
From Verif Require Import SpecSession SpecGroup SpecApi SpecGroupHist SpecPair PairProofs GroupHistRefuted PinRefuted Toy Ex.

(** ** C59: concurrent group encrypts *)

(** Two encrypts that do not overlap use different iterations. *)
Theorem C59_serial_partial : forall C, crypto_ok C -> forall n p1 p2 l w b1 b2 w',
  serial l (group_encrypt C n p1) (group_encrypt C n p2) w ->
  run_pair l (group_encrypt C n p1) (group_encrypt C n p2) w = (Ok b1, Ok b2, w') ->
  exists m1 m2, sk_msg_parse b1 = Ok m1 /\ sk_msg_parse b2 = Ok m2 /\ gKeyId m1 = gKeyId m2 /\ gIteration m1 <> gIteration m2.
Proof. exact group_encrypt_serial. Qed.
Print Assumptions C59_serial_partial.

(** Under every other schedule, both use the same one. *)
Theorem C59_overlap_refuted : forall C, crypto_ok C -> forall n p1 p2 l w b1 b2 w',
  ~ serial l (group_encrypt C n p1) (group_encrypt C n p2) w ->
  run_pair l (group_encrypt C n p1) (group_encrypt C n p2) w = (Ok b1, Ok b2, w') ->
  exists m1 m2, sk_msg_parse b1 = Ok m1 /\ sk_msg_parse b2 = Ok m2 /\ gKeyId m1 = gKeyId m2 /\ gIteration m1 = gIteration m2.
Proof. exact group_encrypt_overlap. Qed.
Print Assumptions C59_overlap_refuted.

(** An encrypt accesses the outside three times; all schedules of the two. *)
Fixpoint orders (a b : nat) : list (list bool) :=
  match a with
  | O => [replicate b false]
  | S a' => (fix go b := match b with
             | O => [replicate (S a') true]
             | S b' => (cons true <$> orders a' (S b')) ++ (cons false <$> go b')
             end) b
  end.
Definition itBoth (l : list bool) : option (N * N) :=
  match run_pair l (group_encrypt toy gname [x2a]) (group_encrypt toy gname [x2b]) gS1 with
  | (Ok b1, Ok b2, _) => match sk_msg_parse b1, sk_msg_parse b2 with Ok m1, Ok m2 => Some (gIteration m1, gIteration m2) | _, _ => None end
  | _ => None
  end.
Example C59_all_orders :
  itBoth <$> orders 3 3 = [Some (0, 1)%N] ++ replicate 18 (Some (0, 0)%N) ++ [Some (1, 0)%N].
Proof. vm_compute. reflexivity. Qed.

(** ** C60: concurrent deliveries of one message *)

(** Two deliveries that do not overlap are not both accepted. *)
Theorem C60_msg_serial_partial : forall C, crypto_ok C -> forall r d m l w p1 p2 w',
  reachable C w -> serial l (decryptMsg C r d m) (decryptMsg C r d m) w ->
  run_pair l (decryptMsg C r d m) (decryptMsg C r d m) w <> (Ok p1, Ok p2, w').
Proof. exact decryptMsg_serial. Qed.
Print Assumptions C60_msg_serial_partial.

Theorem C60_pkmsg_serial_partial : forall C, crypto_ok C -> forall r d bs m l w p1 p2 w',
  reachable C w -> prekey_parse bs = Ok m -> serial l (decryptPkmsg C r d m) (decryptPkmsg C r d m) w ->
  run_pair l (decryptPkmsg C r d m) (decryptPkmsg C r d m) w <> (Ok p1, Ok p2, w').
Proof. exact decryptPkmsg_serial. Qed.
Print Assumptions C60_pkmsg_serial_partial.

Theorem C60_group_serial_partial : forall C n b l w p1 p2 w',
  group_reachable C w -> serial l (group_decrypt C n b) (group_decrypt C n b) w ->
  run_pair l (group_decrypt C n b) (group_decrypt C n b) w <> (Ok p1, Ok p2, w').
Proof. exact group_decrypt_serial. Qed.
Print Assumptions C60_group_serial_partial.

(** For a group, under every other schedule both have the outcome of a single delivery. *)
Theorem C60_group_overlap_refuted : forall C n b l w,
  ~ serial l (group_decrypt C n b) (group_decrypt C n b) w ->
  (run_pair l (group_decrypt C n b) (group_decrypt C n b) w).1 = ((run (group_decrypt C n b) w).1, (run (group_decrypt C n b) w).1).
Proof. exact group_decrypt_overlap. Qed.
Print Assumptions C60_group_overlap_refuted.

Example C60_all_orders :
  (fun l => (run_pair l (group_decrypt toy gname gMsg0) (group_decrypt toy gname gMsg0) gM1).1) <$> orders 2 2 =
  [(Ok [x2a], Err EDuplicateMessage)] ++ replicate 4 (Ok [x2a], Ok [x2a]) ++ [(Err EDuplicateMessage, Ok [x2a])].
Proof. vm_compute. reflexivity. Qed.
Example C60_session_orders :
  (fun l => (run_pair l (decryptMsg toy 2 1 cAns) (decryptMsg toy 2 1 cAns) cA2).1) <$>
    [[]; replicate 4 true ++ [false]; replicate 4 false; [false; true]; [true; true; false; false]] =
  [(Ok [x2b], Err EDuplicateMessage); (Ok [x2b], Err EDuplicateMessage); (Err EDuplicateMessage, Ok [x2b]);
   (Ok [x2b], Err EDuplicateMessage); (Ok [x2b], Ok [x2b])].
Proof. vm_compute. reflexivity. Qed.

(** ** C68: two first contacts under one name with different identities *)

(** If they do not overlap, one is refused. *)
Theorem C68_serial_partial : forall C r d d' b1 b2 l w w',
  serial l (processPreKeyBundle C r d b1) (processPreKeyBundle C r d' b2) w -> bu_identityKey b1 <> bu_identityKey b2 ->
  run_pair l (processPreKeyBundle C r d b1) (processPreKeyBundle C r d' b2) w <> (Ok tt, Ok tt, w').
Proof. exact bundles_serial. Qed.
Print Assumptions C68_serial_partial.

Example C68_orders :
  (fun l => (run_pair l (processPreKeyBundle toy 2 1 bundle) (processPreKeyBundle toy 2 2 malBundle) alice0).1) <$>
    [[]; replicate 20 false; [true; false]] =
  [(Ok tt, Err (EUntrustedIdentity 2 (bu_identityKey malBundle))); (Err (EUntrustedIdentity 2 (bu_identityKey bundle)), Ok tt); (Ok tt, Ok tt)].
Proof. vm_compute. reflexivity. Qed.
