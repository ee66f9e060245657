(** What an application does at install time, README.md:42-60, and when its prekeys run low,
    util/keyhelper.py:60-61. *)
From Verif Require Import PyBase Protos Crypto Ecc Messages State Prog Helper.

Section install.
Context (C : crypto).

(** README.md:47-52.  generateLastResortKey, which README.md:51 names, does not exist in
    util/keyhelper.py. *)
Definition install (extended : bool) (start : Z) (count : nat) (signedPreKeyId : N) : prog (keypair * N * list pr_s * spr_s) :=
  identityKeyPair ← generateIdentityKeyPair C;
  registrationId ← generateRegistrationId extended;
  preKeys ← generatePreKeys C start count;
  signedPreKey ← generateSignedPreKey C identityKeyPair signedPreKeyId;
  Ret (identityKeyPair, registrationId, preKeys, signedPreKey).

(** "Store preKeys in PreKeyStore", README.md:57: storePreKey(record.getId(), record) for each
    of them in turn, tests/inmemoryprekeystore.py. *)
Definition storePreKeys (l : list pr_s) (m : gmap N bytes) : gmap N bytes :=
  foldl (fun m r => <[prekeyrecord_getId r := pr_enc r]> m) m l.

(** The device after README.md:54-58, with the random source and clock of [w]. *)
Definition device_of (x : keypair * N * list pr_s * spr_s) (w : world) : world :=
  let '(identityKeyPair, registrationId, preKeys, signedPreKey) := x in
  World ∅ (storePreKeys preKeys ∅) {[ signedprekeyrecord_getId signedPreKey := spr_enc signedPreKey ]} ∅
    identityKeyPair registrationId ∅ (w_tape w) (w_pos w).

(** The bundle with one of the prekeys, as in tests/test_sessionbuilder.py:63-65. *)
Definition bundle_with (identity : bytes) (registrationId : N) (deviceId : Z) (p : pr_s) (s : spr_s) : res preKeyBundle :=
  k ← prekeyrecord_getKeyPair p;
  sk ← signedprekeyrecord_getKeyPair s;
  Ok (PreKeyBundle registrationId deviceId (Some (prekeyrecord_getId p)) (Some (kp_pub k))
        (signedprekeyrecord_getId s) (Some (kp_pub sk)) (signedprekeyrecord_getSignature s) identity).
End install.
