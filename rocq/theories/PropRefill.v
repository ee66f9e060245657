(** C94: refilling the prekeys does not replace those still on offer. *)
From Verif Require Import PyBase Protos Crypto Ecc State Prog Helper HelperFacts Install SpecUtil SpecRefill UtilProofs Toy RefillProofs.

(** Prekeys are generated in batches, each with the numbers after those of the one before,
    and are used up in between in any order.  The full statement is that every prekey that was
    generated and not used can be loaded, as it was generated, and no other.  It holds as long
    as no more prekeys are generated than there are numbers: *)
Theorem C94_kept_partial : forall C, crypto_ok C -> forall l start w b w',
  (Z.of_nat (generated l) <= max_prekey_id)%Z -> w_prekeys w = ∅ -> stock C l start w = (b, w') ->
  NoDup (prekeyrecord_getId <$> concat b) /\ length (concat b) = generated l /\
  (forall r, r ∈ left_over l b [] -> run (do (CLoadPreKey (prekeyrecord_getId r))) w' = (Ok r, w')) /\
  (forall i, i ∉ (prekeyrecord_getId <$> left_over l b []) -> run (do (CLoadPreKey i)) w' = (Err EInvalidKeyId, w')).
Proof. exact stock_kept. Qed.

(** ... and not beyond that: the next one takes the number of the first, whether that was used
    or not, and is loaded in its place. *)
Theorem C94_wrapped_refuted : forall C, crypto_ok C -> forall n start w, Z.of_nat n = max_prekey_id ->
  exists r rs r' w', stock C [Refill n; Refill 1] start w = ([r :: rs; [r']], w') /\
    prekeyrecord_getId r' = prekeyrecord_getId r /\ run (do (CLoadPreKey (prekeyrecord_getId r))) w' = (Ok r', w') /\
    prekeyrecord_getKeyPair r = Ok (kp_at C w (w_pos w)) /\ prekeyrecord_getKeyPair r' = Ok (kp_at C w (w_pos w + n)).
Proof. exact stock_wrapped. Qed.

Print Assumptions C94_kept_partial.
Print Assumptions C94_wrapped_refuted.

(** Five prekeys with the last two numbers and the first three, in two batches, of which the
    second and the fourth are used. *)
Definition shop : world := World ∅ ∅ ∅ ∅ (KeyPair [] []) 1 ∅ (fun n => [n2b (N.of_nat n)]) 0.
Definition year : list event := [Refill 3; Used 16777214; Refill 2; Used 2]%N.
Example C94_year : let '(b, w') := stock toy year 16777213 shop in
  map (map prekeyrecord_getId) b = [[16777213; 16777214; 1]; [2; 3]]%N /\
  map prekeyrecord_getId (left_over year b []) = [16777213; 1; 3]%N /\
  map (fun i => match (run (do (CLoadPreKey i)) w').1 with Ok r => prekeyrecord_getKeyPair r | Err e => Err e end) [16777213; 1; 3; 2]%N =
    [Ok (kp_at toy shop 0); Ok (kp_at toy shop 2); Ok (kp_at toy shop 4); Err EInvalidKeyId].
Proof. vm_compute. done. Qed.
