(** Concrete runs with the toy primitives, used by the examples beside the theorems. *)
From Verif Require Import PyBase Wire Protos Crypto Ecc Kdf Messages State Prog Ratchet Builder Cipher Groups Helper Toy Sched.

(** The value of a successful result. *)
Definition get {A} (d : A) (r : res A) : A := match r with Ok a => a | Err _ => d end.

(** A new device: empty stores, an identity key, and a stream of random outcomes. *)
Definition device (seed : N) : world :=
  World ∅ ∅ ∅ ∅ (KeyPair (toy_pub (toy_hash [n2b seed])) (toy_hash [n2b seed])) 7 ∅
    (fun n => toy_hash [n2b seed; n2b (N.of_nat n)] ++ toy_hash [n2b seed; n2b (N.of_nat n); x01]) 0.

Definition alice0 : world := device 1.
Definition bob0 : world := device 2.

(** Bob publishes one-time prekey 5 and signed prekey 9. *)
Definition bobPreKeys : list pr_s := get [] (run (generatePreKeys toy 5 1) bob0).1.
Definition bobPreKey : pr_s := match bobPreKeys with p :: _ => p | [] => PrS None None None end.
Definition bobSigned : spr_s := get (SprS None None None None None)
  (run (generateSignedPreKey toy (w_identity bob0) 9) (run (generatePreKeys toy 5 1) bob0).2).1.
Definition bob1 : world :=
  w_set_signed {[ 9%N := spr_enc bobSigned ]} (w_set_prekeys {[ 5%N := pr_enc bobPreKey ]}
    (run (generateSignedPreKey toy (w_identity bob0) 9) (run (generatePreKeys toy 5 1) bob0).2).2).
Definition noKp : keypair := KeyPair [] [].
Definition bundle : preKeyBundle :=
  PreKeyBundle 7 1 (Some 5%N) (Some (kp_pub (get noKp (prekeyrecord_getKeyPair bobPreKey)))) 9
    (Some (kp_pub (get noKp (signedprekeyrecord_getKeyPair bobSigned)))) (signedprekeyrecord_getSignature bobSigned)
    (kp_pub (w_identity bob0)).
(** The same without a one-time prekey. *)
Definition bundleNoPreKey : preKeyBundle :=
  PreKeyBundle 7 1 None None 9
    (Some (kp_pub (get noKp (signedprekeyrecord_getKeyPair bobSigned)))) (signedprekeyrecord_getSignature bobSigned)
    (kp_pub (w_identity bob0)).

(** Alice (known to Bob as 1, device 1) processes the bundle of Bob (known as 2, 1). *)
Definition alice1 : world := (run (processPreKeyBundle toy 2 1 bundle) alice0).2.
Definition net1 : net := Net alice1 bob1 [] [].
Definition played (l : list action) : list event := (play toy 1 1 2 1 l net1).1.
Definition after (l : list action) : net := (play toy 1 1 2 1 l net1).2.

(** What the receiver saw, without the ciphertexts. *)
Definition shown (e : event) : option (res bytes) :=
  match e with Received p => Some (Ok p) | Raised e => Some (Err e) | _ => None end.

(** A copy of a prekey message whose inner message has a flipped last byte (its MAC is
    wrong). *)
Definition noWm : whisperMessage := WhisperMessage [] 0 0 0 [] [].
Definition flipLast (bs : bytes) : bytes :=
  match rev bs with b :: r => rev (n2b (255 - b2n b) :: r) | [] => [] end.
Definition noPk : preKeyWhisperMessage := PreKeyWhisperMessage 0 0 None 0 [] [] noWm [].
Definition tampered (bs : bytes) : bytes :=
  let m := get noPk (prekey_parse bs) in
  let w := get noWm (whisper_parse (flipLast (wSerialized (pMessage m)))) in
  pSerialized (get noPk (prekey_create (pVersion m) (pRegistrationId m) (pPreKeyId m) (pSignedPreKeyId m)
    (pBaseKey m) (pIdentityKey m) w)).

(** The first message of a device that processed Bob's bundle. *)
Definition noCt : ciphertextMessage := CTWhisper noWm.
Definition firstFrom (w : world) (pt : bytes) : bytes :=
  ct_serialize (get noCt (run (encrypt toy 2 1 pt) (run (processPreKeyBundle toy 2 1 bundle) w).2).1).
Definition pkFrom (w : world) (pt : bytes) : preKeyWhisperMessage := get noPk (prekey_parse (firstFrom w pt)).
Definition pkTampered (w : world) (pt : bytes) : preKeyWhisperMessage := get noPk (prekey_parse (tampered (firstFrom w pt))).
(** An attacker. *)
Definition mallory0 : world := device 3.
