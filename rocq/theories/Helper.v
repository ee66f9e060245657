(** util/keyhelper.py, axolotladdress.py, groups/senderkeyname.py. *)
From Verif Require Import PyBase Protos Crypto Ecc State Prog Builder.

Section helper.
Context (C : crypto).

(** KeyHelper.generateIdentityKeyPair, util/keyhelper.py:20-35. *)
Definition generateIdentityKeyPair : prog keypair := generateKeyPair C.

(** KeyHelper.generateRegistrationId, util/keyhelper.py:37-51. *)
Definition generateRegistrationId (extended_range : bool) : prog N :=
  v ← getRandomSequence (if extended_range then 2147483646 else 16380);
  Ret (v + 1)%N.

(** The id computed at util/keyhelper.py:72-74 for a (possibly non-positive) start. *)
Definition preKeyId_at (start : Z) (i : nat) : Z :=
  ((start - 1 + Z.of_nat i) mod (Z.of_N MEDIUM_MAX_VALUE - 1) + 1)%Z.

(** The loop of generatePreKeys, util/keyhelper.py:73-75, [n] rounds from [i]. *)
Fixpoint generatePreKeys_loop (start : Z) (i n : nat) : prog (list pr_s) :=
  match n with
  | O => Ret []
  | S n => kp ← generateKeyPair C;
           r ← lift (prekeyrecord_create (Z.to_N (preKeyId_at start i)) kp);
           l ← generatePreKeys_loop start (S i) n;
           Ret (r :: l)
  end.

(** KeyHelper.generatePreKeys, util/keyhelper.py:57-77. *)
Definition generatePreKeys (start : Z) (count : nat) : prog (list pr_s) := generatePreKeys_loop start 0 count.

(** KeyHelper.generateSignedPreKey, util/keyhelper.py:79-86. *)
Definition generateSignedPreKey (identity : keypair) (signedPreKeyId : N) : prog spr_s :=
  kp ← generateKeyPair C;
  sig ← calculateSignature C (kp_priv identity) (pub_serialize (kp_pub kp));
  t ← do CTimeMillis;
  lift (signedprekeyrecord_create signedPreKeyId t kp sig).

(** KeyHelper.generateSenderKeyId, util/keyhelper.py:96-98. *)
Definition generateSenderKeyId : prog N := getRandomSequence 2147483647.

(** KeyHelper.generateSenderKey, util/keyhelper.py:92-94. *)
Definition generateSenderKey : prog bytes := do (CUrandom 32).

(** KeyHelper.generateSenderSigningKey, util/keyhelper.py:88-90. *)
Definition generateSenderSigningKey : prog keypair := generateKeyPair C.
End helper.

(** AxolotlAddress, axolotladdress.py:1-10. *)
Record axolotlAddress := AxolotlAddress { aName : string; aDevice : Z }.

(** AxolotlAddress.__eq__ for another AxolotlAddress, axolotladdress.py:15-22. *)
Definition address_eqb (a b : axolotlAddress) : bool :=
  bool_decide (aName a = aName b) && bool_decide (aDevice a = aDevice b).

(** AxolotlAddress.__hash__, axolotladdress.py:24-25; [h] is Python's str hash. *)
Definition address_hash (h : string -> Z) (a : axolotlAddress) : Z := Z.lxor (h (aName a)) (aDevice a).

(** SenderKeyName, groups/senderkeyname.py:1-10. *)
Record senderKeyNameObj := SenderKeyNameObj { nGroup : string; nSender : axolotlAddress }.

(** SenderKeyName.__eq__ for another SenderKeyName, groups/senderkeyname.py:15-19. *)
Definition skname_eqb (a b : senderKeyNameObj) : bool :=
  bool_decide (nGroup a = nGroup b) && address_eqb (nSender a) (nSender b).

(** SenderKeyName.__hash__, groups/senderkeyname.py:21-22; the inner hash() leaves an
    int in the machine range unchanged. *)
Definition skname_hash (h : string -> Z) (a : senderKeyNameObj) : Z := Z.lxor (h (nGroup a)) (address_hash h (nSender a)).

(** The key under which a SenderKeyName is found in a dict. *)
Definition skname_key (a : senderKeyNameObj) : senderKeyName := (nGroup a, aName (nSender a), aDevice (nSender a)).

(** Decimal digits of a natural number, ["%s" % n], with enough fuel. *)
Fixpoint dec_digits (fuel : nat) (n : N) : string :=
  match fuel with
  | O => EmptyString
  | S f => String.append (if (n <? 10)%N then EmptyString else dec_digits f (n / 10))
             (String (Ascii.ascii_of_N (48 + n mod 10)) EmptyString)
  end.

(** ["%s" % z] for an integer. *)
Definition dec_Z (z : Z) : string :=
  let n := Z.to_N (Z.abs z) in
  String.append (if (z <? 0)%Z then "-"%string else EmptyString) (dec_digits (S (N.to_nat (N.size n))) n).

(** SenderKeyName.serialize, groups/senderkeyname.py:12-13. *)
Definition skname_serialize (a : senderKeyNameObj) : string :=
  String.append (nGroup a) (String.append "::" (String.append (aName (nSender a))
    (String.append "::" (dec_Z (aDevice (nSender a)))))).

(** AxolotlAddress.__str__, axolotladdress.py:12-13. *)
Definition address_str (a : axolotlAddress) : string :=
  String.append (aName a) (String.append ";" (dec_Z (aDevice a))).
