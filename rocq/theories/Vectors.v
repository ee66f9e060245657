(** The project's own test vectors (axolotl/tests/kdf/test_hkdf.py,
    ratchet/test_chainkey.py, ratchet/test_rootkey.py, ratchet/test_ratchetingsession.py)
    run through the model, with HMAC-SHA256 for [hmac256].  The four Curve25519 agreements
    these tests need were computed beforehand and are given as a table.  These are tests of
    the model, not proofs; no theorem depends on them. *)
From Verif Require Import PyBase Wire Protos Crypto Ecc Kdf State Prog Ratchet Sha256.

Definition tvPriv0 : bytes :=
  [x21; x68; x22; xec; x67; xeb; x38; x04; x9e; xba; xe7; xb9; x39; xba; xea; xeb; xb1; x51; xbb;
    xb3; x2d; xb8; x0f; xd3; x89; x24; x5a; xc3; x7a; x94; x8e; x50].
Definition tvPub0 : bytes :=
  [xab; xb8; xeb; x29; xcc; x80; xb4; x71; x09; xa2; x26; x5a; xbe; x97; x98; x48; x54; x06; xe3;
    x2d; xa2; x68; x93; x4a; x95; x55; xe8; x47; x57; x70; x8a; x30].
Definition tvShared0 : bytes :=
  [x3f; xe8; x26; x6f; x8a; xaf; x39; x9c; xc8; x26; x5a; x47; xb5; x17; x34; x2b; x6d; x10; xf5;
    x47; x9f; x4b; x41; x7d; x8a; x48; x7c; x28; x10; x0e; x4f; x3c].
Definition tvPriv1 : bytes :=
  [x58; x39; x00; x13; x1f; xb7; x27; x99; x8b; x78; x03; xfe; x6a; xc2; x2c; xc5; x91; xf3; x42;
    xe4; xe4; x2a; x8c; x8d; x5d; x78; x19; x42; x09; xb8; xd2; x53].
Definition tvPub1 : bytes :=
  [xb4; xa8; x45; x56; x60; xad; xa6; x5b; x40; x10; x07; xf6; x15; xe6; x54; x04; x17; x46; x43;
    x2e; x33; x39; xc6; x87; x51; x49; xbc; xee; xfc; xb4; x2b; x4a].
Definition tvShared1 : bytes :=
  [x34; x6e; xf3; xee; xf3; xb6; x91; xd5; x04; x9b; xc6; x57; xb7; xba; x82; x0f; xf9; xe8; x91;
    xb8; x02; xb4; xb7; x85; xd8; xf9; x3d; xad; x31; x2b; xf7; x11].
Definition tvPriv2 : bytes :=
  [x48; x75; xcc; x69; xdd; xf8; xea; x07; x19; xec; x94; x7d; x61; x08; x11; x35; x86; x8d; x5f;
    xd8; x01; xf0; x2c; x02; x25; xe5; x16; xdf; x21; x56; x60; x5e].
Definition tvPub2 : bytes :=
  [x47; x2d; x1f; xb1; xa9; x86; x2c; x3a; xf6; xbe; xac; xa8; x92; x02; x77; xe2; xb2; x6f; x4a;
    x79; x21; x3e; xc7; xc9; x06; xae; xb3; x5e; x03; xcf; x89; x50].
Definition tvShared2 : bytes :=
  [xd3; x5a; x4f; x14; x0d; x3e; xc1; x16; xd0; x3c; x82; x63; x94; x1c; x45; x06; x33; x1e; xde;
    xcd; xe7; xd7; x87; x37; xc6; x6b; x54; x63; x10; xd0; x90; x21].
Definition tvPriv3 : bytes :=
  [x58; x39; x00; x13; x1f; xb7; x27; x99; x8b; x78; x03; xfe; x6a; xc2; x2c; xc5; x91; xf3; x42;
    xe4; xe4; x2a; x8c; x8d; x5d; x78; x19; x42; x09; xb8; xd2; x53].
Definition tvPub3 : bytes :=
  [x47; x2d; x1f; xb1; xa9; x86; x2c; x3a; xf6; xbe; xac; xa8; x92; x02; x77; xe2; xb2; x6f; x4a;
    x79; x21; x3e; xc7; xc9; x06; xae; xb3; x5e; x03; xcf; x89; x50].
Definition tvShared3 : bytes :=
  [x2d; xb6; x68; x48; x91; xc4; x80; xf7; xed; x90; x12; xab; x2c; x1e; xe2; xcf; x33; xd0; x1e;
    x71; xaf; xf7; x89; x85; x7a; x2d; x24; x56; x77; xf3; xbb; x55].

(** The agreement table; everything not in it is the empty string. *)
Definition tvAgree (priv pub : bytes) : bytes :=
  if bool_decide (priv = tvPriv0 /\ pub = tvPub0) then tvShared0
  else if bool_decide (priv = tvPriv1 /\ pub = tvPub1) then tvShared1
  else if bool_decide (priv = tvPriv2 /\ pub = tvPub2) then tvShared2
  else if bool_decide (priv = tvPriv3 /\ pub = tvPub3) then tvShared3
  else [].
Definition tv : crypto := Crypto hmac_sha256 id id tvAgree (fun _ _ _ => []) (fun _ _ _ => 0%Z) (fun _ b => b) (fun _ b => b).

(** ** kdf/test_hkdf.py *)

Example test_vectorV3 :
  hkdf_deriveSecrets tv hkdf_v3
    [x0b; x0b; x0b; x0b; x0b; x0b; x0b; x0b; x0b; x0b; x0b; x0b; x0b; x0b; x0b; x0b; x0b; x0b; x0b;
    x0b; x0b; x0b]
    [xf0; xf1; xf2; xf3; xf4; xf5; xf6; xf7; xf8; xf9] 42
    [x00; x01; x02; x03; x04; x05; x06; x07; x08; x09; x0a; x0b; x0c]
  = [x3c; xb2; x5f; x25; xfa; xac; xd5; x7a; x90; x43; x4f; x64; xd0; x36; x2f; x2a; x2d; x2d; x0a;
    x90; xcf; x1a; x5a; x4c; x5d; xb0; x2d; x56; xec; xc4; xc5; xbf; x34; x00; x72; x08; xd5;
    xb8; x87; x18; x58; x65].
Proof. vm_compute. reflexivity. Qed.

Example test_vectorLongV3 :
  hkdf_deriveSecrets tv hkdf_v3
    [x00; x01; x02; x03; x04; x05; x06; x07; x08; x09; x0a; x0b; x0c; x0d; x0e; x0f; x10; x11; x12;
    x13; x14; x15; x16; x17; x18; x19; x1a; x1b; x1c; x1d; x1e; x1f; x20; x21; x22; x23; x24;
    x25; x26; x27; x28; x29; x2a; x2b; x2c; x2d; x2e; x2f; x30; x31; x32; x33; x34; x35; x36;
    x37; x38; x39; x3a; x3b; x3c; x3d; x3e; x3f; x40; x41; x42; x43; x44; x45; x46; x47; x48;
    x49; x4a; x4b; x4c; x4d; x4e; x4f]
    [xb0; xb1; xb2; xb3; xb4; xb5; xb6; xb7; xb8; xb9; xba; xbb; xbc; xbd; xbe; xbf; xc0; xc1; xc2;
    xc3; xc4; xc5; xc6; xc7; xc8; xc9; xca; xcb; xcc; xcd; xce; xcf; xd0; xd1; xd2; xd3; xd4;
    xd5; xd6; xd7; xd8; xd9; xda; xdb; xdc; xdd; xde; xdf; xe0; xe1; xe2; xe3; xe4; xe5; xe6;
    xe7; xe8; xe9; xea; xeb; xec; xed; xee; xef; xf0; xf1; xf2; xf3; xf4; xf5; xf6; xf7; xf8;
    xf9; xfa; xfb; xfc; xfd; xfe; xff] 82
    [x60; x61; x62; x63; x64; x65; x66; x67; x68; x69; x6a; x6b; x6c; x6d; x6e; x6f; x70; x71; x72;
    x73; x74; x75; x76; x77; x78; x79; x7a; x7b; x7c; x7d; x7e; x7f; x80; x81; x82; x83; x84;
    x85; x86; x87; x88; x89; x8a; x8b; x8c; x8d; x8e; x8f; x90; x91; x92; x93; x94; x95; x96;
    x97; x98; x99; x9a; x9b; x9c; x9d; x9e; x9f; xa0; xa1; xa2; xa3; xa4; xa5; xa6; xa7; xa8;
    xa9; xaa; xab; xac; xad; xae; xaf]
  = [xb1; x1e; x39; x8d; xc8; x03; x27; xa1; xc8; xe7; xf7; x8c; x59; x6a; x49; x34; x4f; x01; x2e;
    xda; x2d; x4e; xfa; xd8; xa0; x50; xcc; x4c; x19; xaf; xa9; x7c; x59; x04; x5a; x99; xca;
    xc7; x82; x72; x71; xcb; x41; xc6; x5e; x59; x0e; x09; xda; x32; x75; x60; x0c; x2f; x09;
    xb8; x36; x77; x93; xa9; xac; xa3; xdb; x71; xcc; x30; xc5; x81; x79; xec; x3e; x87; xc1;
    x4c; x01; xd5; xc1; xf3; x43; x4f; x1d; x87].
Proof. vm_compute. reflexivity. Qed.

Example test_vectorV2 :
  hkdf_deriveSecrets tv hkdf_v2
    [x0b; x0b; x0b; x0b; x0b; x0b; x0b; x0b; x0b; x0b; x0b; x0b; x0b; x0b; x0b; x0b; x0b; x0b; x0b;
    x0b; x0b; x0b]
    [xf0; xf1; xf2; xf3; xf4; xf5; xf6; xf7; xf8; xf9] 64
    [x00; x01; x02; x03; x04; x05; x06; x07; x08; x09; x0a; x0b; x0c]
  = [x6e; xc2; x55; x6d; x5d; x7b; x1d; x81; xde; xe4; x22; x2a; xd7; x48; x36; x95; xdd; xc9; x8f;
    x4f; x5f; xab; xc0; xe0; x20; x5d; xc2; xef; x87; x52; xd4; x1e; x04; xe2; xe2; x11; x01;
    xc6; x8f; xf0; x93; x94; xb8; xad; x0b; xdc; xb9; x60; x9c; xd4; xee; x82; xac; x13; x19;
    x9b; x4a; xa9; xfd; xa8; x99; xda; xeb; xec].
Proof. vm_compute. reflexivity. Qed.

(** ** ratchet/test_chainkey.py *)

Definition test_chainKeyDerivationV2_seed : bytes :=
  [x8a; xb7; x2d; x6f; x4c; xc5; xac; x0d; x38; x7e; xaf; x46; x33; x78; xdd; xb2; x8e; xdd; x07;
    x38; x5b; x1c; xb0; x12; x50; xc7; x15; x98; x2e; x7a; xd4; x8f].
Example test_chainKeyDerivationV2 :
  let c := ChainKey hkdf_v2 test_chainKeyDerivationV2_seed 0 in
  let k := ck_messageKeys tv c in
  let n := ck_next tv c in
  (mCipher k, mMac k, mCounter k, cKey n, cIndex n)
  = ([x02; xa9; xaa; x6c; x7d; xbd; x64; xf9; xd3; xaa; x92; xf9; x2a; x27; x7b; xf5; x46; x09; xda;
    xdf; x0b; x00; x82; x8a; xcf; xc6; x1e; x3c; x72; x4b; x84; xa7],
    [xbf; xbe; x5e; xfb; x60; x30; x30; x52; x67; x42; xe3; xee; x89; xc7; x02; x4e; x88; x4e; x44;
    x0f; x1f; xf3; x76; xbb; x23; x17; xb2; xd6; x4d; xeb; x7c; x83], 0%N,
    [x28; xe8; xf8; xfe; xe5; x4b; x80; x1e; xef; x7c; x5c; xfb; x2f; x17; xf3; x2c; x7b; x33; x44;
    x85; xbb; xb7; x0f; xac; x6e; xc1; x03; x42; xa2; x46; xd1; x5d], 1%N).
Proof. vm_compute. reflexivity. Qed.

(** ** ratchet/test_rootkey.py *)

Definition tvChainOf (r : res (rootKey * chainKey)) : option (bytes * bytes) :=
  match r with Ok (a, b) => Some (rKey a, cKey b) | Err _ => None end.
Example test_rootKeyDerivationV2 :
  tvChainOf (rk_createChain tv (RootKey hkdf_v2 [x7b; xa6; xde; xbc; x2b; xc1; xbb; xf9; x1a; xbb; xc1; x36; x74; x04; x17; x6c; xa6; x23; x09;
    x5b; x7e; xc6; x6b; x45; xf6; x02; xd9; x35; x38; x94; x2d; xcc])
    tvPub0 (KeyPair [xee; x4f; xa6; xcd; xc0; x30; xdf; x49; xec; xd0; xba; x6c; xfc; xff; xb2; x33; xd3; x65; xa2;
    x7f; xad; xbe; xff; x77; xe9; x63; xfc; xb1; x62; x22; xe1; x3a] tvPriv0))
  = Some ([xb1; x14; xf5; xde; x28; x01; x19; x85; xe6; xeb; xa2; x5d; x50; xe7; xec; x41; xa9; xb0; x2f;
    x56; x93; xc5; xc7; x88; xa6; x3a; x06; xd2; x12; xa2; xf7; x31],
    [x9d; x7d; x24; x69; xbc; x9a; xe5; x3e; xe9; x80; x5a; xa3; x26; x4d; x24; x99; xa3; xac; xe8;
    x0f; x4c; xca; xe2; xda; x13; x43; x0c; x5c; x55; xb5; xca; x5f]).
Proof. vm_compute. reflexivity. Qed.

(** ** ratchet/test_ratchetingsession.py *)

Definition rs_bobPublic : bytes :=
  [x05; x2c; xb4; x97; x76; xb8; x77; x02; x05; x74; x5a; x3a; x6e; x24; xf5; x79; xcd; xb4; xba;
    x7a; x89; x04; x10; x05; x92; x8e; xbb; xad; xc9; xc0; x5a; xd4; x58].
Definition rs_bobPrivate : bytes :=
  [xa1; xca; xb4; x8f; x7c; x89; x3f; xaf; xa9; x88; x0a; x28; xc3; xb4; x99; x9d; x28; xd6; x32;
    x95; x62; xd2; x7a; x4e; xa4; xe2; x2e; x9f; xf1; xbd; xd6; x5a].
Definition rs_bobIdentityPublic : bytes :=
  [x05; xf1; xf4; x38; x74; xf6; x96; x69; x56; xc2; xdd; x47; x3f; x8f; xa1; x5a; xde; xb7; x1d;
    x1c; xb9; x91; xb2; x34; x16; x92; x32; x4c; xef; xb1; xc5; xe6; x26].
Definition rs_aliceBasePublic : bytes :=
  [x05; x47; x2d; x1f; xb1; xa9; x86; x2c; x3a; xf6; xbe; xac; xa8; x92; x02; x77; xe2; xb2; x6f;
    x4a; x79; x21; x3e; xc7; xc9; x06; xae; xb3; x5e; x03; xcf; x89; x50].
Definition rs_aliceIdentityPublic : bytes :=
  [x05; xb4; xa8; x45; x56; x60; xad; xa6; x5b; x40; x10; x07; xf6; x15; xe6; x54; x04; x17; x46;
    x43; x2e; x33; x39; xc6; x87; x51; x49; xbc; xee; xfc; xb4; x2b; x4a].
Definition rs_bobSignedPreKeyPublic : bytes :=
  [x05; xac; x24; x8a; x8f; x26; x3b; xe6; x86; x35; x76; xeb; x03; x62; xe2; x8c; x82; x8f; x01;
    x07; xa3; x37; x9d; x34; xba; xb1; x58; x6b; xf8; xc7; x70; xcd; x67].
Definition rs_session : res ss_s :=
  i ← decodePoint rs_bobIdentityPublic 0; e ← decodePoint rs_bobPublic 0; p ← decodePoint rs_bobSignedPreKeyPublic 0;
  b ← decodePoint rs_aliceBasePublic 0; a ← decodePoint rs_aliceIdentityPublic 0;
  initializeSessionAsBob tv st_new (KeyPair i tvPriv2) (KeyPair p tvPriv1) (KeyPair e rs_bobPrivate) None a b.
Example test_ratchetingSessionAsBob :
  match (s ← rs_session; l ← st_getLocalIdentityKey s; r ← st_getRemoteIdentityKey s; c ← st_getSenderChainKey s;
         Ok (pub_serialize l, pub_serialize r, cKey c)) with Ok x => Some x | Err _ => None end
  = Some (rs_bobIdentityPublic, rs_aliceIdentityPublic,
    [x97; x97; xca; xca; x53; xc9; x89; xbb; xe2; x29; xa4; x0c; xa7; x72; x70; x10; xeb; x26; x04;
    xfc; x14; x94; x5d; x77; x95; x8a; x0a; xed; xa0; x88; xb4; x4d]).
Proof. vm_compute. reflexivity. Qed.
