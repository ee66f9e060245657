(** C97: the first messages of a conversation may be delivered in any order. *)
From Verif Require Import PyBase Wire Protos Crypto Ecc Kdf Messages State Prog Builder Cipher Toy Sched.
From Verif Require Import SpecSession SpecApi SpecOrderFirst OrderFirstProofs Ex.

(** A device without a session with the peer; messages that carry the same handshake, have the
    same ratchet key and different numbers, each of which the device would accept as the first
    one. They can all be read in every order, with the same plaintexts, and the device ends
    in the very same state. *)
Theorem C97_any_first : forall C, crypto_ok C -> forall w r d h R l,
  reachable C w -> w_sessions w !! (r, d) = None -> pVersion h = 3%N ->
  Forall (fun x => handshake_of h x.1 /\ wRatchetKey (pMessage x.1) = R /\ (run (decryptPkmsg C r d x.1) w).1 = Ok x.2) l ->
  NoDup (map (fun x => wCounter (pMessage x.1)) l) ->
  exists w', forall l', Permutation l l' -> all_first C r d l' w w'.
Proof. exact first_order. Qed.
Print Assumptions C97_any_first.

(** Alice sends three messages before Bob has got any. *)
Definition fList : list preKeyWhisperMessage :=
  map (fun x => get noPk (prekey_parse x.2)) (n_fromA (after [SendA [x01]; SendA [x02]; SendA [x03]])).
Definition fHead : preKeyWhisperMessage := default noPk (fList !! 0).
Example C97_hypotheses :
  bool_decide (w_sessions bob1 !! (1, 1)%Z = None) = true /\
  map (fun m => (pVersion m, pPreKeyId m, wCounter (pMessage m))) fList = [(3, Some 5, 0); (3, Some 5, 1); (3, Some 5, 2)]%N /\
  map (fun m => bool_decide (pRegistrationId m = pRegistrationId fHead /\ pSignedPreKeyId m = pSignedPreKeyId fHead /\
    pBaseKey m = pBaseKey fHead /\ pIdentityKey m = pIdentityKey fHead /\
    wRatchetKey (pMessage m) = wRatchetKey (pMessage fHead))) fList = [true; true; true] /\
  map (fun m => (run (decryptPkmsg toy 1 1 m) bob1).1) fList = [Ok [x01]; Ok [x02]; Ok [x03]].
Proof. vm_compute. by split_and!. Qed.

(** Whichever is the first to arrive sets up the session and uses up the prekey; the stored
    session, the stored identity and the keys drawn are the same in the end. *)
Fixpoint fDeliver (ms : list preKeyWhisperMessage) (w : world) : list (res bytes) * world :=
  match ms with
  | [] => ([], w)
  | m :: ms => let x := run (decryptPkmsg toy 1 1 m) w in let y := fDeliver ms x.2 in (x.1 :: y.1, y.2)
  end.
Definition fRun (is : list nat) : list (res bytes) * world := fDeliver (omap (fun i => fList !! i) is) bob1.
Definition fEnd (w : world) : option bytes * option bytes * list bool * nat :=
  (w_sessions w !! (1, 1)%Z, w_trusted w !! 1%Z, map (fun i => bool_decide (is_Some (w_prekeys w !! i))) [5; 6]%N, w_pos w).
Definition fLast : option bytes * option bytes * list bool * nat := fEnd (fRun [0; 1; 2]).2.
Example C97_orders :
  map (fun is => ((fRun is).1, bool_decide (fEnd (fRun is).2 = fLast))) [[0; 1; 2]; [0; 2; 1]; [1; 0; 2]; [1; 2; 0]; [2; 0; 1]; [2; 1; 0]]
  = [([Ok [x01]; Ok [x02]; Ok [x03]], true); ([Ok [x01]; Ok [x03]; Ok [x02]], true); ([Ok [x02]; Ok [x01]; Ok [x03]], true);
     ([Ok [x02]; Ok [x03]; Ok [x01]], true); ([Ok [x03]; Ok [x01]; Ok [x02]], true); ([Ok [x03]; Ok [x02]; Ok [x01]], true)] /\
  (fEnd bob1).1.2 <> (fEnd (fRun [2]).2).1.2 /\ bool_decide (fEnd (fRun [2]).2 = fLast) = false.
Proof. vm_compute. split_and!; (reflexivity || discriminate). Qed.
(** The same number twice: the second one is refused. *)
Example C97_same_twice : (fRun [1; 1]).1 = [Ok [x02]; Err EDuplicateMessage].
Proof. vm_compute. reflexivity. Qed.
