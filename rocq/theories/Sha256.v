(** SHA-256 (FIPS 180-4) and HMAC (RFC 2104), to run the project's own test vectors
    through the model.  No theorem depends on this file. *)
From Verif Require Import PyBase.

Local Open Scope N_scope.

(** 32-bit words. *)
Definition w32 (x : N) : N := N.land x 0xffffffff.
Definition rotr (n x : N) : N := w32 (N.lor (N.shiftr x n) (N.shiftl x (32 - n))).
Definition w_not (x : N) : N := N.lxor x 0xffffffff.

Definition ch (x y z : N) : N := N.lxor (N.land x y) (N.land (w_not x) z).
Definition maj (x y z : N) : N := N.lxor (N.lxor (N.land x y) (N.land x z)) (N.land y z).
Definition bsig0 (x : N) : N := N.lxor (N.lxor (rotr 2 x) (rotr 13 x)) (rotr 22 x).
Definition bsig1 (x : N) : N := N.lxor (N.lxor (rotr 6 x) (rotr 11 x)) (rotr 25 x).
Definition ssig0 (x : N) : N := N.lxor (N.lxor (rotr 7 x) (rotr 18 x)) (N.shiftr x 3).
Definition ssig1 (x : N) : N := N.lxor (N.lxor (rotr 17 x) (rotr 19 x)) (N.shiftr x 10).

Definition sha_k : list N :=
  [0x428a2f98; 0x71374491; 0xb5c0fbcf; 0xe9b5dba5; 0x3956c25b; 0x59f111f1; 0x923f82a4;
   0xab1c5ed5; 0xd807aa98; 0x12835b01; 0x243185be; 0x550c7dc3; 0x72be5d74; 0x80deb1fe;
   0x9bdc06a7; 0xc19bf174; 0xe49b69c1; 0xefbe4786; 0x0fc19dc6; 0x240ca1cc; 0x2de92c6f;
   0x4a7484aa; 0x5cb0a9dc; 0x76f988da; 0x983e5152; 0xa831c66d; 0xb00327c8; 0xbf597fc7;
   0xc6e00bf3; 0xd5a79147; 0x06ca6351; 0x14292967; 0x27b70a85; 0x2e1b2138; 0x4d2c6dfc;
   0x53380d13; 0x650a7354; 0x766a0abb; 0x81c2c92e; 0x92722c85; 0xa2bfe8a1; 0xa81a664b;
   0xc24b8b70; 0xc76c51a3; 0xd192e819; 0xd6990624; 0xf40e3585; 0x106aa070; 0x19a4c116;
   0x1e376c08; 0x2748774c; 0x34b0bcb5; 0x391c0cb3; 0x4ed8aa4a; 0x5b9cca4f; 0x682e6ff3;
   0x748f82ee; 0x78a5636f; 0x84c87814; 0x8cc70208; 0x90befffa; 0xa4506ceb; 0xbef9a3f7;
   0xc67178f2].
Definition sha_h0 : list N := [0x6a09e667; 0xbb67ae85; 0x3c6ef372; 0xa54ff53a; 0x510e527f; 0x9b05688c; 0x1f83d9ab; 0x5be0cd19].

(** The message schedule: from sixteen words, the next [n] (newest first in [acc]). *)
Fixpoint schedule (n : nat) (acc : list N) : list N :=
  match n with
  | O => rev acc
  | S n =>
      let w := match acc !! 1%nat, acc !! 6%nat, acc !! 14%nat, acc !! 15%nat with
               | Some a, Some b, Some c, Some d => w32 (ssig1 a + b + ssig0 c + d)
               | _, _, _, _ => 0 end in
      schedule n (w :: acc)
  end.

Definition sha_round (s : list N) (kw : N * N) : list N :=
  match s with
  | [a; b; c; d; e; f; g; h] =>
      let t1 := h + bsig1 e + ch e f g + kw.1 + kw.2 in
      let t2 := bsig0 a + maj a b c in
      [w32 (t1 + t2); a; b; c; w32 (d + t1); e; f; g]
  | _ => []
  end.

(** Big-endian words. *)
Fixpoint words (bs : bytes) : list N :=
  match bs with
  | a :: b :: c :: d :: r => (b2n a * 16777216 + b2n b * 65536 + b2n c * 256 + b2n d) :: words r
  | _ => []
  end.
Definition word_bytes (x : N) : bytes :=
  [n2b (N.shiftr x 24); n2b (N.shiftr x 16); n2b (N.shiftr x 8); n2b x].

Definition sha_block (h : list N) (block : bytes) : list N :=
  zip_with (fun a b => w32 (a + b)) h (foldl sha_round h (zip sha_k (schedule 48 (rev (words block))))).

Fixpoint sha_blocks (n : nat) (h : list N) (m : bytes) : list N :=
  match n with
  | O => h
  | S n => sha_blocks n (sha_block h (take 64 m)) (drop 64 m)
  end.

Definition sha_pad (m : bytes) : bytes :=
  let l := length m in
  m ++ [x80] ++ replicate ((119 - l mod 64) mod 64)%nat x00 ++
  replicate 4 x00 ++ word_bytes (8 * N.of_nat l).

Definition sha256 (m : bytes) : bytes :=
  let p := sha_pad m in concat (word_bytes <$> sha_blocks (length p / 64)%nat sha_h0 p).

Definition hmac_sha256 (key m : bytes) : bytes :=
  let k := if (64 <? length key)%nat then sha256 key else key in
  let k := k ++ replicate (64 - length k)%nat x00 in
  let mask (c : N) := (fun x => n2b (N.lxor (b2n x) c)) <$> k in
  sha256 (mask 0x5c ++ sha256 (mask 0x36 ++ m)).

(** FIPS 180-4: SHA-256 of "abc"; RFC 4231 test case 2. *)
Example sha256_abc : sha256 [x61; x62; x63] =
  [xba; x78; x16; xbf; x8f; x01; xcf; xea; x41; x41; x40; xde; x5d; xae; x22; x23; xb0; x03; x61; xa3; x96; x17; x7a; x9c; xb4; x10; xff; x61; xf2; x00; x15; xad].
Proof. vm_compute. reflexivity. Qed.
Example hmac_jefe : hmac_sha256 [x4a; x65; x66; x65]
  [x77; x68; x61; x74; x20; x64; x6f; x20; x79; x61; x20; x77; x61; x6e; x74; x20; x66; x6f; x72; x20; x6e; x6f; x74; x68; x69; x6e; x67; x3f] =
  [x5b; xdc; xc1; x46; xbf; x60; x75; x4e; x6a; x04; x24; x26; x08; x95; x75; xc7; x5a; x00; x3f; x08; x9d; x27; x39; x83; x9d; xec; x58; xb9; x64; xec; x38; x43].
Proof. vm_compute. reflexivity. Qed.
