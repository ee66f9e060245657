(** sessionbuilder.py.  A SessionBuilder is its (recipientId, deviceId), [r] and [d]. *)
From Verif Require Import PyBase Protos Crypto Ecc Kdf Messages State Prog Ratchet.

(** Medium.MAX_VALUE, util/medium.py:4-5. *)
Definition MEDIUM_MAX_VALUE : N := 16777215.

Section builder.
Context (C : crypto) (r d : Z).

(** [if not record.isFresh(): record.archiveCurrentState()], sessionbuilder.py:75-76,
    119-120, 174-175, 215-216. *)
Definition archiveUnlessFresh (rec : sessionRecord) : sessionRecord :=
  if sr_fresh rec then rec else sr_archiveCurrentState rec.

(** processV3, sessionbuilder.py:50-86: the updated record and the used prekey id. *)
Definition processV3 (rec : sessionRecord) (m : preKeyWhisperMessage) : prog (sessionRecord * option N) :=
  if sr_hasSessionState (pVersion m) (pub_serialize (pBaseKey m)) rec then Ret (rec, None)
  else
    spr ← do (CLoadSignedPreKey (pSignedPreKeyId m));
    ourSignedPreKey ← lift (signedprekeyrecord_getKeyPair spr);
    ourIdentity ← do CGetIdentityKeyPair;
    otpk ← match pPreKeyId m with
           | Some i => pr ← do (CLoadPreKey i); kp ← lift (prekeyrecord_getKeyPair pr); Ret (Some kp)
           | None => Ret None
           end;
    let rec := archiveUnlessFresh rec in
    s ← lift (initializeSessionAsBob C (sr_state rec) ourIdentity ourSignedPreKey ourSignedPreKey otpk
                (pIdentityKey m) (pBaseKey m));
    regid ← do CGetLocalRegistrationId;
    s ← lift (st_setLocalRegistrationId regid s);
    s ← lift (st_setRemoteRegistrationId (pRegistrationId m) s);
    let s := st_setAliceBaseKey (pub_serialize (pBaseKey m)) s in
    Ret (sr_setState s rec,
         match pPreKeyId m with
         | Some i => if (i =? MEDIUM_MAX_VALUE)%N then None else Some i
         | None => None
         end).

(** process, sessionbuilder.py:32-48. *)
Definition builder_process (rec : sessionRecord) (m : preKeyWhisperMessage) : prog (sessionRecord * option N) :=
  trusted ← do (CIsTrusted r (pIdentityKey m));
  if (trusted : bool) then
    x ← processV3 rec m;
    _ ← do (CSaveIdentity r (pIdentityKey m));
    Ret x
  else Raise (EUntrustedIdentity r (pIdentityKey m)).

(** processPreKeyBundle, sessionbuilder.py:88-131. *)
Definition processPreKeyBundle (b : preKeyBundle) : prog unit :=
  trusted ← do (CIsTrusted r (bu_identityKey b));
  if (trusted : bool) then
    match bu_signedPreKey b with
    | None => Raise EInvalidKey
    | Some spk =>
        ok ← lift (verifySignature C (bu_identityKey b) (pub_serialize spk) (bu_signedPreKeySignature b));
        if (ok : bool) then
          rec ← do (CLoadSession r d);
          ourBaseKey ← generateKeyPair C;
          ourIdentity ← do CGetIdentityKeyPair;
          let otpkId := match bu_preKey b with Some _ => bu_preKeyId b | None => None end in
          let rec := archiveUnlessFresh rec in
          s ← initializeSessionAsAlice C (sr_state rec) ourIdentity ourBaseKey (bu_identityKey b) spk spk (bu_preKey b);
          s ← lift (st_setUnacknowledgedPreKeyMessage otpkId (bu_signedPreKeyId b) (kp_pub ourBaseKey) s);
          regid ← do CGetLocalRegistrationId;
          s ← lift (st_setLocalRegistrationId regid s);
          s ← lift (st_setRemoteRegistrationId (bu_registrationId b) s);
          let s := st_setAliceBaseKey (pub_serialize (kp_pub ourBaseKey)) s in
          _ ← do (CStoreSession r d (sr_setState s rec));
          do (CSaveIdentity r (bu_identityKey b))
        else Raise EInvalidKey
    end
  else Raise (EUntrustedIdentity r (bu_identityKey b)).

(** processInitiate, sessionbuilder.py:147-189. *)
Definition processInitiate (m : keyExchangeMessage) : prog keyExchangeMessage :=
  rec ← do (CLoadSession r d);
  ok ← lift (verifySignature C (xIdentityKey m) (pub_serialize (xBaseKey m)) (xBaseKeySignature m));
  if (ok : bool) then
    ours ← (if st_hasPendingKeyExchange (sr_state rec) then
              lift (i ← st_getPendingKeyExchangeIdentityKey (sr_state rec);
                    b ← st_getPendingKeyExchangeBaseKey (sr_state rec);
                    t ← st_getPendingKeyExchangeRatchetKey (sr_state rec);
                    Ok (i, b, t, N.lor RESPONSE_FLAG SIMULTAENOUS_INITIATE_FLAG))
            else
              i ← do CGetIdentityKeyPair;
              b ← generateKeyPair C;
              t ← generateKeyPair C;
              Ret (i, b, t, RESPONSE_FLAG));
    let '(ourIdentity, ourBase, ourRatchet, flags) := ours in
    let rec := archiveUnlessFresh rec in
    s ← initializeSession C (sr_state rec) ourIdentity ourBase ourRatchet (xBaseKey m) (xRatchetKey m) (xIdentityKey m);
    _ ← do (CStoreSession r d (sr_setState s rec));
    _ ← do (CSaveIdentity r (xIdentityKey m));
    sig ← calculateSignature C (kp_priv ourIdentity) (pub_serialize (kp_pub ourBase));
    lift (kx_create (st_getSessionVersion s) (xSequence m) flags (kp_pub ourBase) sig (kp_pub ourRatchet) (kp_pub ourIdentity))
  else Raise EInvalidKey.

(** processResponse, sessionbuilder.py:191-227. *)
Definition processResponse (m : keyExchangeMessage) : prog unit :=
  rec ← do (CLoadSession r d);
  let st := sr_state rec in
  if negb (st_hasPendingKeyExchange st) || negb (st_getPendingKeyExchangeSequence st =? xSequence m)%N then
    if kx_isResponseForSimultaneousInitiate m then Ret tt else Raise EStaleKeyExchange
  else
    ourBase ← lift (st_getPendingKeyExchangeBaseKey st);
    ourRatchet ← lift (st_getPendingKeyExchangeRatchetKey st);
    ourIdentity ← lift (st_getPendingKeyExchangeIdentityKey st);
    let rec := archiveUnlessFresh rec in
    s ← initializeSession C (sr_state rec) ourIdentity ourBase ourRatchet (xBaseKey m) (xRatchetKey m) (xIdentityKey m);
    ok ← lift (verifySignature C (xIdentityKey m) (pub_serialize (xBaseKey m)) (xBaseKeySignature m));
    if (ok : bool) then
      _ ← do (CStoreSession r d (sr_setState s rec));
      do (CSaveIdentity r (xIdentityKey m))
    else Raise EInvalidKey.

(** processKeyExchangeMessage, sessionbuilder.py:133-145. *)
Definition processKeyExchangeMessage (m : keyExchangeMessage) : prog (option keyExchangeMessage) :=
  trusted ← do (CIsTrusted r (xIdentityKey m));
  if (trusted : bool) then
    if kx_isInitiate m then x ← processInitiate m; Ret (Some x)
    else _ ← processResponse m; Ret None
  else Raise (EUntrustedIdentity r (xIdentityKey m)).

(** processInitKeyExchangeMessage, sessionbuilder.py:229-245. *)
Definition processInitKeyExchangeMessage : prog keyExchangeMessage :=
  rethrow isInvalidKey EAssertionError (
    q ← getRandomSequence 65534;
    let sequence := (q + 1)%N in
    baseKey ← generateKeyPair C;
    ratchetKey ← generateKeyPair C;
    identityKey ← do CGetIdentityKeyPair;
    sig ← calculateSignature C (kp_priv identityKey) (pub_serialize (kp_pub baseKey));
    rec ← do (CLoadSession r d);
    s ← lift (st_setPendingKeyExchange sequence baseKey ratchetKey identityKey (sr_state rec));
    _ ← do (CStoreSession r d (sr_setState s rec));
    lift (kx_create CURRENT_VERSION sequence INITIATE_FLAG (kp_pub baseKey) sig (kp_pub ratchetKey) (kp_pub identityKey))).
End builder.
