(** Property C88: a device that was just installed can be contacted. *)
From Verif Require Import PyBase Wire Protos Crypto Ecc Kdf Messages State Prog Ratchet Builder Cipher Groups Helper Install.
From Verif Require Import SpecUtil SpecSession SpecConv SpecExact SpecInstall InstallProofs Toy Sched Ex.

(** What the README tells an application to do at install time succeeds, and gives as many
    prekeys as were asked for; there is a bundle for each of them. *)
Theorem C88_install : forall C, crypto_ok C -> forall ext start count id w, (id < 2 ^ 32)%N ->
  exists x w', run (install C ext start count id) w = (Ok x, w') /\ length x.1.2 = count /\
    forall p dev, p ∈ x.1.2 -> exists b, bundle_with (kp_pub x.1.1.1) x.1.1.2 dev p x.2 = Ok b.
Proof. exact install_ok. Qed.
Print Assumptions C88_install.

(** Two devices that were just installed, and any of the prekeys of one of them: the other
    one accepts the bundle, and whatever they then send in whatever order it arrives, every
    event is that of the ideal conversation.  [max_prekey_id] is 16777214; more prekeys would
    overwrite each other.  The id of the signed prekey goes into an int32 field. *)
Theorem C88_contact : forall C, crypto_ok C -> forall extA sA nA idA w1 xA wA extB sB nB idB w2 xB wB p rA dA rB dB,
  (idA < 2 ^ 32)%N -> (idB < 2 ^ 31)%N -> (Z.of_nat nB <= max_prekey_id)%Z ->
  run (install C extA sA nA idA) w1 = (Ok xA, wA) -> run (install C extB sB nB idB) w2 = (Ok xB, wB) -> p ∈ xB.1.2 ->
  exists b spk wA1, bundle_with (kp_pub xB.1.1.1) xB.1.1.2 dB p xB.2 = Ok b /\ signedprekeyrecord_getKeyPair xB.2 = Ok spk /\
    run (processPreKeyBundle C rB dB b) (device_of xA wA) = (Ok tt, wA1) /\
    forall l es n', play C rA dA rB dB l (Net wA1 (device_of xB wB) [] []) = (es, n') ->
      NoDup ([kp_pub spk] ++ drawn C (device_of xA wA) (n_A n') ++ drawn C (device_of xB wB) (n_B n')) ->
      (N.of_nat (length l) < 2 ^ 32)%N ->
      exactly C rA dA rB dB l (Net wA1 (device_of xB wB) [] []) (Conv (Some (Party 1 0 [] true)) None [] []).
Proof. exact contact_run. Qed.
Print Assumptions C88_contact.

(** Any number of others, each with its own prekey, send a first message.  All of them are
    read, each gets a session and is trusted, and exactly their prekeys are gone. *)
Theorem C88_everyone : forall C, crypto_ok C -> forall ext start count id w0 x w1 rB dB spk cs ms,
  (id < 2 ^ 31)%N -> (Z.of_nat count <= max_prekey_id)%Z -> run (install C ext start count id) w0 = (Ok x, w1) ->
  signedprekeyrecord_getKeyPair x.2 = Ok spk -> Forall2 (says C rB dB x) cs ms ->
  NoDup (ct_r <$> cs) -> NoDup ((prekeyrecord_getId ∘ ct_prekey) <$> cs) ->
  Forall (fun c => ct_prekey c ∈ x.1.2 /\ able C (ct_world c) /\ w_sessions (ct_world c) !! (rB, dB) = None /\ w_trusted (ct_world c) !! rB = None) cs ->
  NoDup (kp_pub spk :: concat ((fun c => draws3 C (ct_world c)) <$> cs) ++ first_draws C w1 (length cs)) ->
  let '(os, w') := arrive C (zip cs ms) (device_of x w1) in
  os = (fun c => Ok (ct_text c)) <$> cs /\
  Forall (fun c => (exists rec, session_at w' (ct_r c) (ct_d c) = Ok rec /\ is_Some (ss_senderChain (sr_state rec))) /\
    w_trusted w' !! ct_r c = Some (kp_pub (w_identity (ct_world c)))) cs /\
  (forall p, p ∈ x.1.2 -> w_prekeys w' !! prekeyrecord_getId p =
     if bool_decide (prekeyrecord_getId p ∈ (prekeyrecord_getId ∘ ct_prekey) <$> cs) then None else Some (pr_enc p)).
Proof. exact everyone. Qed.
Print Assumptions C88_everyone.

(** Four prekeys from 16777213 on; two devices, installed themselves, use the second and the
    fourth. *)
Definition noInstall : keypair * N * list pr_s * spr_s := (noKp, 0%N, [], SprS None None None None None).
Definition set0 : res (keypair * N * list pr_s * spr_s) * world := run (install toy false 16777213 4 9) (device 2).
Definition set1 : res (keypair * N * list pr_s * spr_s) * world := run (install toy true 1 0 0) (device 1).
Definition set3 : res (keypair * N * list pr_s * spr_s) * world := run (install toy false 7 2 3) (device 3).
Definition inst (s : res (keypair * N * list pr_s * spr_s) * world) : world := device_of (get noInstall s.1) s.2.
Definition given (i : nat) : pr_s := default (PrS None None None) ((get noInstall set0.1).1.2 !! i).
Definition bundleFor (i : nat) : preKeyBundle :=
  let x := get noInstall set0.1 in get bundle (bundle_with (kp_pub x.1.1.1) x.1.1.2 1 (given i) x.2).
Definition saysTo (i : nat) (pt : bytes) (w : world) : preKeyWhisperMessage :=
  get noPk (prekey_parse (ct_serialize (get noCt (run (encrypt toy 2 1 pt) (run (processPreKeyBundle toy 2 1 (bundleFor i)) w).2).1))).
Definition who1 : contact := Contact 1 1 (inst set1) (given 1) [x11].
Definition who3 : contact := Contact 3 1 (inst set3) (given 3) [x33].
Definition bothArrive : list (res bytes) * world :=
  arrive toy [(who1, saysTo 1 [x11] (inst set1)); (who3, saysTo 3 [x33] (inst set3))] (inst set0).
Example C88_two_contacts :
  (prekeyrecord_getId <$> (get noInstall set0.1).1.2) = [16777213; 16777214; 1; 2]%N /\
  bothArrive.1 = [Ok [x11]; Ok [x33]] /\
  ((fun i => if w_prekeys bothArrive.2 !! i then true else false) <$> [16777213; 16777214; 1; 2]%N) = [true; false; true; false].
Proof. vm_compute. split_and!; reflexivity. Qed.
(** The fresh conversation of the second theorem, with the fourth prekey. *)
Definition contactNet : net := Net (run (processPreKeyBundle toy 2 1 (bundleFor 3)) (inst set1)).2 (inst set0) [] [].
Example C88_talk : shown <$> (play toy 1 1 2 1 [SendA [x01]; SendA [x02]; DeliverB 1; SendB [x03]; DeliverA 0; DeliverB 0; DeliverB 1] contactNet).1 =
  [None; None; Some (Ok [x02]); None; Some (Ok [x03]); Some (Ok [x01]); Some (Err EDuplicateMessage)].
Proof. vm_compute. reflexivity. Qed.
