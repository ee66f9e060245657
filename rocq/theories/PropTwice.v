(** Property C49, continued: a message is decrypted again only after its ratchet key has been
    introduced anew. *)
From Verif Require Import PyBase Wire Protos Crypto Ecc Kdf Messages State Prog Ratchet Builder Cipher Groups Helper.
From Verif Require Import SpecSession SpecApi SpecTwice TwiceProofs Toy Sched Ex.

(** The full property, "no message is decrypted twice in any history", is refuted by
    [C49_decrypted_twice_refuted].  It holds in all histories in which no new receiving
    chain of the message's ratchet key is made: [w1] is right after the message was
    decrypted, no archived state has a receiving chain of its ratchet key, and between [w1]
    and [w2] any calls happen, also ones that die half-way, with any messages, replayed or
    forged, as long as the bundles and key exchange messages of this peer device show other
    ratchet keys and a message with this ratchet key is not decrypted by a state that lacks
    the chain.  If the message is decrypted at [w2] nevertheless, then by a state without
    the chain, with a new DH ratchet step. *)
Theorem C49_never_again_partial : forall C, crypto_ok C -> forall r d m w pt w1 w2 pt' w3,
  reachable C w -> run (decryptMsg C r d m) w = (Ok pt, w1) ->
  (forall rec s, session_at w1 r d = Ok rec -> s ∈ sr_previous rec -> ~ chain_for s (wRatchetKey m)) ->
  rtc (tame C r d (wRatchetKey m)) w1 w2 -> run (decryptMsg C r d m) w2 = (Ok pt', w3) ->
  exists rec s, session_at w2 r d = Ok rec /\ opens C rec m s /\ ~ chain_for s (wRatchetKey m).
Proof. exact never_again_msg. Qed.
Print Assumptions C49_never_again_partial.

(** The same for prekey messages: decrypted again only if the session they set up has been
    dropped, or by a state without the chain. *)
Theorem C49_never_again_prekey_partial : forall C, crypto_ok C -> forall r d bs m w pt w1 w2 pt' w3,
  reachable C w -> prekey_parse bs = Ok m -> run (decryptPkmsg C r d m) w = (Ok pt, w1) ->
  (forall rec s, session_at w1 r d = Ok rec -> s ∈ sr_previous rec -> ~ chain_for s (wRatchetKey (pMessage m))) ->
  rtc (tame C r d (wRatchetKey (pMessage m))) w1 w2 -> run (decryptPkmsg C r d m) w2 = (Ok pt', w3) ->
  exists rec, session_at w2 r d = Ok rec /\
    (~ belongs rec (pVersion m) (pBaseKey m) \/
     exists s, opens C rec (pMessage m) s /\ ~ chain_for s (wRatchetKey (pMessage m))).
Proof. exact never_again_pkmsg. Qed.
Print Assumptions C49_never_again_prekey_partial.

(** Bob after skipped, late and repeated messages and two ratchet steps: every delivered
    message is a duplicate, the one that was never delivered is not. *)
Definition twiceRun : net := after
  [SendA [x01]; SendA [x02]; SendA [x03]; DeliverB 1; DeliverB 0; SendB [x04]; DeliverA 0; SendA [x05]; SendA [x06];
   DeliverB 4; SendB [x07]; DeliverA 1; SendA [x08]; DeliverB 5; DeliverB 3].
Example C49_replayed :
  ((fun x => (run (receive toy 1 1 x) (n_B twiceRun)).1) <$> n_fromA twiceRun) =
  [Err EDuplicateMessage; Err EDuplicateMessage; Ok [x03]; Err EDuplicateMessage; Err EDuplicateMessage; Err EDuplicateMessage].
Proof. vm_compute. reflexivity. Qed.
(** Bob has one state with a chain for each of the three ratchet keys: no archived state. *)
Example C49_chains : match session_at (n_B twiceRun) 1 1 with
  | Ok rec => sr_previous rec = [] /\ length (ss_receiverChains (sr_state rec)) = 3 | Err _ => False end.
Proof. vm_compute. split; reflexivity. Qed.
