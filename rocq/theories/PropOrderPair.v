(** C96: the order in which the messages of a session are delivered leaves no trace. *)
From Verif Require Import PyBase Wire Protos Crypto Ecc Kdf Messages State Prog Builder Cipher Toy Sched.
From Verif Require Import SpecSession SpecKeys SpecApi SpecOrderPair OrderPairProofs Ex.

(** Messages each of which the current session can read, no two with the same ratchet key and
    number, all of chains that are there or of one new chain: they can all be read in
    every order, with the same plaintexts, and the device ends in the very same state. *)
Theorem C96_any_order : forall C, crypto_ok C -> forall w r d rec R l,
  reachable C w -> session_at w r d = Ok rec ->
  Forall (fun x => placed R (sr_state rec) x.1 /\ answers C (sr_state rec) x.1 (Ok x.2)) l -> NoDup (map place l) ->
  exists w', forall l', Permutation l l' -> all_read C r d l' w w'.
Proof. exact pair_order. Qed.
Print Assumptions C96_any_order.

(** Bob has Alice's first message and has answered it. Two more messages of the same chain
    are under way, and two of the chain that Alice made after the answer. *)
Definition pNet : net := after [SendA [x01]; SendA [x02]; SendA [x03]; DeliverB 0; SendB [x04]; DeliverA 0; SendA [x05]; SendA [x06]].
Definition pInner (x : wire) : whisperMessage :=
  if x.1 then pMessage (get noPk (prekey_parse x.2)) else get noWm (whisper_parse x.2).
Definition pList : list (whisperMessage * bytes) :=
  zip (map pInner (drop 1 (n_fromA pNet))) [[x02]; [x03]; [x05]; [x06]].
Definition pBob : ss_s := sr_state (get sr_new (session_at (n_B pNet) 1 1)).
Definition pNew : bytes := match pList !! 2 with Some x => wRatchetKey x.1 | None => [] end.

(** The hypotheses hold: two messages are of the one chain Bob has, two of a new one, and the
    places are different. *)
Example C96_hypotheses :
  map (fun x => match find_chain (wRatchetKey x.1) (ss_receiverChains pBob) 0 with
                | Ok (Some y) => Some y.2 | _ => None end) pList = [Some 0; Some 0; None; None] /\
  map (fun x => bool_decide (wRatchetKey x.1 = pNew)) pList = [false; false; true; true] /\
  find_chain pNew (ss_receiverChains pBob) 0 = Ok None /\
  length (ss_receiverChains pBob) = 1 /\ map (fun x => wCounter x.1) pList = [1; 2; 0; 1]%N /\
  map (fun x => fst <$> (run (decryptWithSessionState toy pBob x.1) (n_B pNet)).1) pList = map Ok [[x02]; [x03]; [x05]; [x06]].
Proof. vm_compute. by split_and!. Qed.

(** Whatever the order, the plaintexts are there, Bob has the same stored session and has drawn
    the same number of keys. *)
Fixpoint pDeliver (ms : list whisperMessage) (w : world) : list (res bytes) * world :=
  match ms with
  | [] => ([], w)
  | m :: ms => let x := run (decryptMsg toy 1 1 m) w in let y := pDeliver ms x.2 in (x.1 :: y.1, y.2)
  end.
Definition pPick (is : list nat) : list (whisperMessage * bytes) := omap (fun i => pList !! i) is.
Definition pRun (is : list nat) : list (res bytes) * world := pDeliver (map fst (pPick is)) (n_B pNet).
Definition pEnd (w : world) : option bytes * nat := (w_sessions w !! (1, 1)%Z, w_pos w).
Definition pLast : option bytes * nat := pEnd (pRun [0; 1; 2; 3]).2.
Example C96_orders :
  map (fun is => ((pRun is).1, bool_decide (pEnd (pRun is).2 = pLast)))
    [[0; 1; 2; 3]; [3; 2; 1; 0]; [1; 3; 0; 2]; [2; 0; 3; 1]]
  = [([Ok [x02]; Ok [x03]; Ok [x05]; Ok [x06]], true); ([Ok [x06]; Ok [x05]; Ok [x03]; Ok [x02]], true);
     ([Ok [x03]; Ok [x06]; Ok [x02]; Ok [x05]], true); ([Ok [x05]; Ok [x02]; Ok [x06]; Ok [x03]], true)].
Proof. vm_compute. reflexivity. Qed.
(** The session did change on the way, and afterwards every message is refused. *)
Definition pKept (w : world) : list (N * list N) :=
  map (fun c => (default 0%N (ck_index (default ck_empty (ch_chainKey c))), map (fun k => default 0%N (mk_index k)) (ch_messageKeys c)))
    (ss_receiverChains (sr_state (get sr_new (session_at w 1 1)))).
Example C96_kept : pKept (n_B pNet) = [(1, [])]%N /\ pKept (pRun [1]).2 = [(3, [1])]%N /\ pKept (pRun [3; 1]).2 = [(3, [1]); (2, [0])]%N /\
  pKept (pRun [3; 1; 2]).2 = [(3, [1]); (2, [])]%N /\ pKept (pRun [3; 1; 2; 0]).2 = [(3, []); (2, [])]%N /\
  (pDeliver (map fst pList) (pRun [3; 1; 2; 0]).2).1 = replicate 4 (Err EDuplicateMessage).
Proof. vm_compute. by split_and!. Qed.

(** With the same place twice the order does matter: the second one is refused. *)
Example C96_same_twice : (pRun [0; 0]).1 = [Ok [x02]; Err EDuplicateMessage].
Proof. vm_compute. reflexivity. Qed.
(** Nor is it so when there is no room: Bob has five chains, a message of the oldest one is still
    under way, and a message of a sixth is there. Either can be read by itself, but the new
    chain takes the place of the oldest. *)
Definition pTurn (i : nat) : list action := [SendB [x0b]; DeliverA i; SendA [x0a]].
Definition pFull : net := after ([SendA [x01]; SendA [x02]; DeliverB 0] ++ pTurn 0 ++ [DeliverB 2] ++ pTurn 1 ++ [DeliverB 3] ++
  pTurn 2 ++ [DeliverB 4] ++ pTurn 3 ++ [DeliverB 5] ++ pTurn 4).
Definition pFrom (is : list nat) : list (res bytes) :=
  (pDeliver (omap (fun i => pInner <$> n_fromA pFull !! i) is) (n_B pFull)).1.
Example C96_no_room : length (pKept (n_B pFull)) = 5 /\ length (n_fromA pFull) = 7 /\
  pFrom [1; 6] = [Ok [x02]; Ok [x0a]] /\ pFrom [6; 1] = [Ok [x0a]; Err EInvalidMessage].
Proof. vm_compute. by split_and!. Qed.
