(** C98: replacing prekeys disturbs nothing else. *)
From Verif Require Import PyBase Wire Protos Crypto Ecc Kdf Messages State Prog Builder Cipher Groups Toy Sched.
From Verif Require Import SpecSession SpecApi SpecRotate RotateProofs Ex.

(** Storing, replacing or removing the signed prekey number [i] changes neither the result of a
    call nor what the call does to the stores, unless the call is given a prekey message that
    names [i]. *)
Theorem C98_signed : forall C i o w,
  (forall r d b, unaffected (processPreKeyBundle C r d b) (put_signed i o) w) /\
  (forall r d, unaffected (processInitKeyExchangeMessage C r d) (put_signed i o) w) /\
  (forall r d m, unaffected (processKeyExchangeMessage C r d m) (put_signed i o) w) /\
  (forall r d pt, unaffected (encrypt C r d pt) (put_signed i o) w) /\
  (forall r d m, unaffected (decryptMsg C r d m) (put_signed i o) w) /\
  (forall r d m, pSignedPreKeyId m <> i -> unaffected (decryptPkmsg C r d m) (put_signed i o) w) /\
  (forall n, unaffected (group_create C n) (put_signed i o) w) /\
  (forall n m, unaffected (group_process n m) (put_signed i o) w) /\
  (forall n pt, unaffected (group_encrypt C n pt) (put_signed i o) w) /\
  (forall n ct, unaffected (group_decrypt C n ct) (put_signed i o) w).
Proof. exact rotate_signed. Qed.
Print Assumptions C98_signed.

(** The same for the one-time prekey number [i]. *)
Theorem C98_prekey : forall C i o w,
  (forall r d b, unaffected (processPreKeyBundle C r d b) (put_prekey i o) w) /\
  (forall r d, unaffected (processInitKeyExchangeMessage C r d) (put_prekey i o) w) /\
  (forall r d m, unaffected (processKeyExchangeMessage C r d m) (put_prekey i o) w) /\
  (forall r d pt, unaffected (encrypt C r d pt) (put_prekey i o) w) /\
  (forall r d m, unaffected (decryptMsg C r d m) (put_prekey i o) w) /\
  (forall r d m, pPreKeyId m <> Some i -> unaffected (decryptPkmsg C r d m) (put_prekey i o) w) /\
  (forall n, unaffected (group_create C n) (put_prekey i o) w) /\
  (forall n m, unaffected (group_process n m) (put_prekey i o) w) /\
  (forall n pt, unaffected (group_encrypt C n pt) (put_prekey i o) w) /\
  (forall n ct, unaffected (group_decrypt C n ct) (put_prekey i o) w).
Proof. exact rotate_prekey. Qed.
Print Assumptions C98_prekey.

(** A prekey message whose session has been set up is not affected even by the prekeys it names. *)
Theorem C98_known : forall C i o r d m w rec,
  session_at w r d = Ok rec -> belongs rec (pVersion m) (pBaseKey m) ->
  unaffected (decryptPkmsg C r d m) (put_signed i o) w /\ unaffected (decryptPkmsg C r d m) (put_prekey i o) w.
Proof. exact rotate_known. Qed.
Print Assumptions C98_known.

(** A prekey message for a session that is not there and whose signed prekey has been removed is
    refused as naming an unknown key, and changes nothing. *)
Theorem C98_removed : forall C r d m w rec,
  session_at w r d = Ok rec -> ~ belongs rec (pVersion m) (pBaseKey m) -> trusts w r (pIdentityKey m) ->
  run (decryptPkmsg C r d m) (put_signed (pSignedPreKeyId m) None w) = (Err EInvalidKeyId, put_signed (pSignedPreKeyId m) None w).
Proof. exact rotate_removed. Qed.
Print Assumptions C98_removed.

(** Alice sends two messages before Bob has got any. *)
Definition roList : list preKeyWhisperMessage := map (fun x => get noPk (prekey_parse x.2)) (n_fromA (after [SendA [x01]; SendA [x02]])).
Definition roMsg (k : nat) : preKeyWhisperMessage := default noPk (roList !! k).
Definition roSid : N := pSignedPreKeyId (roMsg 0).
Definition roBob : world := (run (decryptPkmsg toy 1 1 (roMsg 0)) bob1).2.
Definition roRead (k : nat) (w : world) : res bytes := (run (decryptPkmsg toy 1 1 (roMsg k)) w).1.

(** The messages name a signed and a one-time prekey that Bob has. *)
Example C98_hypotheses :
  bool_decide (is_Some (w_signed bob1 !! roSid)) = true /\ map (fun m => (pSignedPreKeyId m =? roSid, pPreKeyId m))%N roList = [(true, Some 5); (true, Some 5)]%N /\
  bool_decide (is_Some (w_prekeys bob1 !! 5%N)) = true.
Proof. vm_compute. by split_and!. Qed.
(** Removing another signed prekey, or replacing it with garbage, does nothing to the first message;
    removing a named one makes it fail. *)
Example C98_first :
  map (roRead 0) [bob1; put_signed (roSid + 1) None bob1; put_signed (roSid + 1) (Some [x01]) bob1; put_prekey 6 None bob1;
                  put_signed roSid None bob1; put_prekey 5 None bob1] =
  [Ok [x01]; Ok [x01]; Ok [x01]; Ok [x01]; Err EInvalidKeyId; Err EInvalidKeyId].
Proof. vm_compute. reflexivity. Qed.
(** Once the session is there, the second message can be read without the prekeys it names; the
    first one has used up its one-time prekey. *)
Example C98_later :
  map (roRead 1) [roBob; put_signed roSid None roBob; put_prekey 5 None roBob; put_signed roSid None (put_prekey 5 None bob1)] =
  [Ok [x02]; Ok [x02]; Ok [x02]; Err EInvalidKeyId] /\
  bool_decide (w_prekeys roBob !! 5%N = None) = true.
Proof. vm_compute. by split. Qed.
(** A new prekey stored under the number of the used one survives the second message, which names
    that number. *)
Example C98_reused_number :
  let x := run (decryptPkmsg toy 1 1 (roMsg 1)) (put_prekey 5 (Some [x01]) roBob) in
  x.1 = Ok [x02] /\ x.2.(w_prekeys) !! 5%N = Some [x01].
Proof. vm_compute. by split. Qed.
