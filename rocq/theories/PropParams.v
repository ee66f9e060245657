(** C99: handshake parameters keep their roles. *)
From Verif Require Import PyBase Protos Crypto Ecc Kdf Messages State Prog Ratchet Builder Cipher Params Toy Sched.
From Verif Require Import SpecParams ParamsProofs Ex.

(** Whichever setters are called, in whichever order and how often: the parameter object exists
    exactly if all keys but the one-time prekey were given, and each of its fields is what was
    given last for that field. Otherwise the constructor raises ValueError. *)
Theorem C99_alice : forall l,
  (forall p, alice_create (foldl alice_set alice_newBuilder l) = Ok p <->
    chosen a_ourIdentity l = Some (ap_ourIdentity p) /\ chosen a_ourBase l = Some (ap_ourBase p) /\
    chosen a_theirIdentity l = Some (ap_theirIdentity p) /\ chosen a_theirSigned l = Some (ap_theirSigned p) /\
    chosen a_theirRatchet l = Some (ap_theirRatchet p) /\ chosen a_theirOneTime l = ap_theirOneTime p) /\
  (forall e, alice_create (foldl alice_set alice_newBuilder l) = Err e <->
    e = EValueError /\ (chosen a_ourIdentity l = None \/ chosen a_ourBase l = None \/ chosen a_theirIdentity l = None \/
      chosen a_theirSigned l = None \/ chosen a_theirRatchet l = None)).
Proof. exact alice_parameters. Qed.
Print Assumptions C99_alice.
Theorem C99_bob : forall l,
  (forall p, bob_create (foldl bob_set bob_newBuilder l) = Ok p <->
    chosen b_ourIdentity l = Some (bp_ourIdentity p) /\ chosen b_ourSigned l = Some (bp_ourSigned p) /\
    chosen b_ourRatchet l = Some (bp_ourRatchet p) /\ chosen b_theirIdentity l = Some (bp_theirIdentity p) /\
    chosen b_theirBase l = Some (bp_theirBase p) /\ chosen b_ourOneTime l = bp_ourOneTime p) /\
  (forall e, bob_create (foldl bob_set bob_newBuilder l) = Err e <->
    e = EValueError /\ (chosen b_ourIdentity l = None \/ chosen b_ourSigned l = None \/ chosen b_ourRatchet l = None \/
      chosen b_theirIdentity l = None \/ chosen b_theirBase l = None)).
Proof. exact bob_parameters. Qed.
Print Assumptions C99_bob.
Theorem C99_symmetric : forall l,
  (forall p, sym_create (foldl sym_set sym_newBuilder l) = Ok p <->
    chosen s_ourIdentity l = Some (sp_ourIdentity p) /\ chosen s_ourBase l = Some (sp_ourBase p) /\
    chosen s_ourRatchet l = Some (sp_ourRatchet p) /\ chosen s_theirIdentity l = Some (sp_theirIdentity p) /\
    chosen s_theirBase l = Some (sp_theirBase p) /\ chosen s_theirRatchet l = Some (sp_theirRatchet p)) /\
  (forall e, sym_create (foldl sym_set sym_newBuilder l) = Err e <->
    e = EValueError /\ (chosen s_ourIdentity l = None \/ chosen s_ourBase l = None \/ chosen s_ourRatchet l = None \/
      chosen s_theirIdentity l = None \/ chosen s_theirBase l = None \/ chosen s_theirRatchet l = None)).
Proof. exact sym_parameters. Qed.
Print Assumptions C99_symmetric.

(** The calls of the library that set up a session through parameter objects make the same store
    accesses and end in the same way as with the keys passed directly: no None check ever fires, and
    no key ends up in the role of another. *)
Theorem C99_calls : forall C r d,
  (forall s p, same (initializeSession_params C s p)
    (initializeSession C s (sp_ourIdentity p) (sp_ourBase p) (sp_ourRatchet p) (sp_theirBase p) (sp_theirRatchet p) (sp_theirIdentity p))) /\
  (forall rec m, same (processV3_params C rec m) (processV3 C rec m)) /\
  (forall b, same (processPreKeyBundle_params C r d b) (processPreKeyBundle C r d b)) /\
  (forall m, same (processInitiate_params C r d m) (processInitiate C r d m)) /\
  (forall m, same (processResponse_params C r d m) (processResponse C r d m)).
Proof. exact through_parameters. Qed.
Print Assumptions C99_calls.
(** Such programs cannot be told apart: not by running them, nor by a crash at any point, nor by
    other programs that run at the same time. *)
Theorem C99_indistinguishable : forall A B (p p' : prog A) (q q' : prog B),
  same p p' -> same q q' ->
  (forall w, run p w = run p' w) /\ (forall n w, run_crash n p w = run_crash n p' w) /\
  (forall s w, run_pair s p q w = run_pair s p' q' w).
Proof. exact same_everywhere. Qed.
Print Assumptions C99_indistinguishable.

(** Setters in two orders, one of them called twice; a missing key; the one-time prekey may miss. *)
Definition pmA : list aliceSet :=
  [ATheirRatchet (Some [x01]); AOurBase (Some (KeyPair [x02] [x03])); ATheirIdentity (Some [x04]);
   AOurIdentity (Some (KeyPair [x05] [x06])); ATheirSigned (Some [x07])].
Example C99_built :
  alice_create (foldl alice_set alice_newBuilder pmA) = Ok (AliceParams (KeyPair [x05] [x06]) (KeyPair [x02] [x03]) [x04] [x07] [x01] None) /\
  alice_create (foldl alice_set alice_newBuilder (ATheirSigned None :: rev pmA ++ [ATheirOneTime (Some [x08]); ATheirRatchet (Some [x09])])) =
    Ok (AliceParams (KeyPair [x05] [x06]) (KeyPair [x02] [x03]) [x04] [x07] [x09] (Some [x08])) /\
  alice_create (foldl alice_set alice_newBuilder (pmA ++ [ATheirSigned None])) = Err EValueError /\
  map (fun i => alice_create (foldl alice_set alice_newBuilder (delete i pmA))) [0; 1; 2; 3; 4] = replicate 5 (Err EValueError).
Proof. by split_and!. Qed.
(** The same for Bob, who may have no one-time prekey, and for the key exchange, which has none. *)
Definition pmB : list bobSet :=
  [BTheirBase (Some [x01]); BOurSigned (Some (KeyPair [x02] [x03])); BTheirIdentity (Some [x04]);
   BOurIdentity (Some (KeyPair [x05] [x06])); BOurRatchet (Some (KeyPair [x07] [x08]))].
Definition pmS : list symSet :=
  [STheirBase (Some [x01]); SOurBase (Some (KeyPair [x02] [x03])); STheirIdentity (Some [x04]);
   SOurIdentity (Some (KeyPair [x05] [x06])); SOurRatchet (Some (KeyPair [x07] [x08])); STheirRatchet (Some [x09])].
Example C99_built_others :
  bob_create (foldl bob_set bob_newBuilder pmB) =
    Ok (BobParams (KeyPair [x05] [x06]) (KeyPair [x02] [x03]) (KeyPair [x07] [x08]) None [x04] [x01]) /\
  bob_create (foldl bob_set bob_newBuilder (BOurOneTime (Some (KeyPair [x0a] [x0b])) :: rev pmB ++ [BOurOneTime (Some (KeyPair [x0c] [x0d]))])) =
    Ok (BobParams (KeyPair [x05] [x06]) (KeyPair [x02] [x03]) (KeyPair [x07] [x08]) (Some (KeyPair [x0c] [x0d])) [x04] [x01]) /\
  map (fun i => bob_create (foldl bob_set bob_newBuilder (delete i pmB))) [0; 1; 2; 3; 4] = replicate 5 (Err EValueError) /\
  sym_create (foldl sym_set sym_newBuilder (rev pmS)) =
    Ok (SymParams (KeyPair [x02] [x03]) (KeyPair [x07] [x08]) (KeyPair [x05] [x06]) [x01] [x09] [x04]) /\
  map (fun i => sym_create (foldl sym_set sym_newBuilder (delete i pmS))) [0; 1; 2; 3; 4; 5] = replicate 6 (Err EValueError).
Proof. by split_and!. Qed.
(** Not every pair of programs is the same: swapping two keys shows. *)
Example C99_roles :
  let run_with s := (run (asAlice_params toy (sr_state sr_new) (get (AliceParams noKp noKp [] [] [] None)
    (alice_create (foldl alice_set alice_newBuilder s)))) alice0).1 in
  let k := w_identity alice0 in let t := kp_pub (w_identity bob0) in let u := default [] (bu_signedPreKey bundle) in
  let common := [AOurIdentity (Some k); AOurBase (Some k)] in
  bool_decide (ss_rootKey (get (sr_state sr_new) (run_with (common ++ [ATheirIdentity (Some t); ATheirSigned (Some u); ATheirRatchet (Some u)]))) =
               ss_rootKey (get (sr_state sr_new) (run_with (common ++ [ATheirIdentity (Some u); ATheirSigned (Some t); ATheirRatchet (Some u)])))) = false.
Proof. vm_compute. reflexivity. Qed.
(** A bundle and the message that answers it, processed through parameter objects. *)
Example C99_handshake :
  let x := run (processPreKeyBundle_params toy 2 1 bundle) alice0 in
  let m := get noPk (prekey_parse (ct_serialize (get noCt (run (encrypt toy 2 1 [x01]) x.2).1))) in
  x.1 = Ok tt /\ bool_decide (is_Some (w_sessions x.2 !! (2, 1)%Z)) = true /\
  match (run (processV3_params toy sr_new m) bob1).1 with
  | Ok (rec, u) => u = Some 5%N /\ bool_decide (is_Some (ss_rootKey (sr_state rec))) = true
  | Err _ => False
  end.
Proof. vm_compute. by split_and!. Qed.
