(** The parameter classes of a handshake, ratchet/aliceaxolotlparameters.py,
    ratchet/bobaxolotlparamaters.py and ratchet/symmetricaxolotlparameters.py, and the calls that
    pass their arguments through them.  A Python [None] is [None]; a key of another Python type is
    not modelled.  [Ratchet.v] and [Builder.v] pass the fields as arguments; C99 relates the two. *)
From Verif Require Import PyBase Protos Crypto Ecc Kdf Messages State Prog Ratchet Builder.

(** Builder of AliceAxolotlParameters, aliceaxolotlparameters.py:48-55. *)
Record aliceBuilder := AliceBuilder {
  ab_ourIdentity : option keypair; ab_ourBase : option keypair; ab_theirIdentity : option bytes;
  ab_theirSigned : option bytes; ab_theirRatchet : option bytes; ab_theirOneTime : option bytes }.
(** newBuilder, aliceaxolotlparameters.py:44-55. *)
Definition alice_newBuilder : aliceBuilder := AliceBuilder None None None None None None.
(** The setters, aliceaxolotlparameters.py:57-79. *)
Inductive aliceSet :=
| AOurIdentity (o : option keypair) | AOurBase (o : option keypair) | ATheirRatchet (o : option bytes)
| ATheirIdentity (o : option bytes) | ATheirSigned (o : option bytes) | ATheirOneTime (o : option bytes).
Definition alice_set (b : aliceBuilder) (x : aliceSet) : aliceBuilder :=
  let 'AliceBuilder oi ob ti ts tr t1 := b in
  match x with
  | AOurIdentity o => AliceBuilder o ob ti ts tr t1
  | AOurBase o => AliceBuilder oi o ti ts tr t1
  | ATheirRatchet o => AliceBuilder oi ob ti ts o t1
  | ATheirIdentity o => AliceBuilder oi ob o ts tr t1
  | ATheirSigned o => AliceBuilder oi ob ti o tr t1
  | ATheirOneTime o => AliceBuilder oi ob ti ts tr o
  end.
(** AliceAxolotlParameters with its getters, aliceaxolotlparameters.py:4-42. *)
Record aliceParams := AliceParams {
  ap_ourIdentity : keypair; ap_ourBase : keypair; ap_theirIdentity : bytes;
  ap_theirSigned : bytes; ap_theirRatchet : bytes; ap_theirOneTime : option bytes }.
(** create and the None check, aliceaxolotlparameters.py:81-83, 22-24. *)
Definition alice_create (b : aliceBuilder) : res aliceParams :=
  match ab_ourBase b, ab_ourIdentity b, ab_theirSigned b, ab_theirRatchet b, ab_theirIdentity b with
  | Some ob, Some oi, Some ts, Some tr, Some ti => Ok (AliceParams oi ob ti ts tr (ab_theirOneTime b))
  | _, _, _, _, _ => Err EValueError
  end.

(** Builder of BobAxolotlParameters, bobaxolotlparamaters.py:48-55. *)
Record bobBuilder := BobBuilder {
  bb_ourIdentity : option keypair; bb_ourSigned : option keypair; bb_ourOneTime : option keypair;
  bb_ourRatchet : option keypair; bb_theirIdentity : option bytes; bb_theirBase : option bytes }.
(** newBuilder, bobaxolotlparamaters.py:44-55. *)
Definition bob_newBuilder : bobBuilder := BobBuilder None None None None None None.
(** The setters, bobaxolotlparamaters.py:57-79. *)
Inductive bobSet :=
| BOurIdentity (o : option keypair) | BOurSigned (o : option keypair) | BOurOneTime (o : option keypair)
| BOurRatchet (o : option keypair) | BTheirIdentity (o : option bytes) | BTheirBase (o : option bytes).
Definition bob_set (b : bobBuilder) (x : bobSet) : bobBuilder :=
  let 'BobBuilder oi os o1 or_ ti tb := b in
  match x with
  | BOurIdentity o => BobBuilder o os o1 or_ ti tb
  | BOurSigned o => BobBuilder oi o o1 or_ ti tb
  | BOurOneTime o => BobBuilder oi os o or_ ti tb
  | BOurRatchet o => BobBuilder oi os o1 o ti tb
  | BTheirIdentity o => BobBuilder oi os o1 or_ o tb
  | BTheirBase o => BobBuilder oi os o1 or_ ti o
  end.
(** BobAxolotlParameters with its getters, bobaxolotlparamaters.py:4-42. *)
Record bobParams := BobParams {
  bp_ourIdentity : keypair; bp_ourSigned : keypair; bp_ourRatchet : keypair;
  bp_ourOneTime : option keypair; bp_theirIdentity : bytes; bp_theirBase : bytes }.
(** create and the None check, bobaxolotlparamaters.py:81-83, 22-24. *)
Definition bob_create (b : bobBuilder) : res bobParams :=
  match bb_ourIdentity b, bb_ourSigned b, bb_ourRatchet b, bb_theirIdentity b, bb_theirBase b with
  | Some oi, Some os, Some or_, Some ti, Some tb => Ok (BobParams oi os or_ (bb_ourOneTime b) ti tb)
  | _, _, _, _, _ => Err EValueError
  end.

(** Builder of SymmetricAxolotlParameters, symmetricaxolotlparameters.py:48-55. *)
Record symBuilder := SymBuilder {
  sb_ourIdentity : option keypair; sb_ourBase : option keypair; sb_ourRatchet : option keypair;
  sb_theirRatchet : option bytes; sb_theirIdentity : option bytes; sb_theirBase : option bytes }.
(** newBuilder, symmetricaxolotlparameters.py:44-55. *)
Definition sym_newBuilder : symBuilder := SymBuilder None None None None None None.
(** The setters, symmetricaxolotlparameters.py:57-79. *)
Inductive symSet :=
| SOurIdentity (o : option keypair) | SOurBase (o : option keypair) | SOurRatchet (o : option keypair)
| STheirRatchet (o : option bytes) | STheirIdentity (o : option bytes) | STheirBase (o : option bytes).
Definition sym_set (b : symBuilder) (x : symSet) : symBuilder :=
  let 'SymBuilder oi ob or_ tr ti tb := b in
  match x with
  | SOurIdentity o => SymBuilder o ob or_ tr ti tb
  | SOurBase o => SymBuilder oi o or_ tr ti tb
  | SOurRatchet o => SymBuilder oi ob o tr ti tb
  | STheirRatchet o => SymBuilder oi ob or_ o ti tb
  | STheirIdentity o => SymBuilder oi ob or_ tr o tb
  | STheirBase o => SymBuilder oi ob or_ tr ti o
  end.
(** SymmetricAxolotlParameters with its getters, symmetricaxolotlparameters.py:4-42. *)
Record symParams := SymParams {
  sp_ourBase : keypair; sp_ourRatchet : keypair; sp_ourIdentity : keypair;
  sp_theirBase : bytes; sp_theirRatchet : bytes; sp_theirIdentity : bytes }.
(** create and the None check, symmetricaxolotlparameters.py:81-83, 22-24. *)
Definition sym_create (b : symBuilder) : res symParams :=
  match sb_ourBase b, sb_ourIdentity b, sb_ourRatchet b, sb_theirRatchet b, sb_theirIdentity b, sb_theirBase b with
  | Some ob, Some oi, Some or_, Some tr, Some ti, Some tb => Ok (SymParams ob or_ oi tb tr ti)
  | _, _, _, _, _, _ => Err EValueError
  end.

Section calls.
Context (C : crypto).

(** initializeSessionAsAlice on a parameter object, ratchetingsession.py:39-70. *)
Definition asAlice_params (s : ss_s) (p : aliceParams) : prog ss_s :=
  initializeSessionAsAlice C s (ap_ourIdentity p) (ap_ourBase p) (ap_theirIdentity p) (ap_theirSigned p) (ap_theirRatchet p)
    (ap_theirOneTime p).
(** initializeSessionAsBob on a parameter object, ratchetingsession.py:72-100. *)
Definition asBob_params (s : ss_s) (p : bobParams) : res ss_s :=
  initializeSessionAsBob C s (bp_ourIdentity p) (bp_ourSigned p) (bp_ourRatchet p) (bp_ourOneTime p) (bp_theirIdentity p) (bp_theirBase p).

(** initializeSession, ratchetingsession.py:14-37. *)
Definition initializeSession_params (s : ss_s) (p : symParams) : prog ss_s :=
  alice ← lift (isAlice (kp_pub (sp_ourBase p)) (sp_theirBase p));
  if (alice : bool) then
    let b := alice_newBuilder in
    let b := alice_set b (AOurBase (Some (sp_ourBase p))) in
    let b := alice_set b (AOurIdentity (Some (sp_ourIdentity p))) in
    let b := alice_set b (ATheirRatchet (Some (sp_theirRatchet p))) in
    let b := alice_set b (ATheirIdentity (Some (sp_theirIdentity p))) in
    let b := alice_set b (ATheirSigned (Some (sp_theirBase p))) in
    let b := alice_set b (ATheirOneTime None) in
    ap ← lift (alice_create b);
    asAlice_params s ap
  else
    let b := bob_newBuilder in
    let b := bob_set b (BOurIdentity (Some (sp_ourIdentity p))) in
    let b := bob_set b (BOurRatchet (Some (sp_ourRatchet p))) in
    let b := bob_set b (BOurSigned (Some (sp_ourBase p))) in
    let b := bob_set b (BOurOneTime None) in
    let b := bob_set b (BTheirBase (Some (sp_theirBase p))) in
    let b := bob_set b (BTheirIdentity (Some (sp_theirIdentity p))) in
    bp ← lift (bob_create b);
    lift (asBob_params s bp).

Context (r d : Z).

(** processV3, sessionbuilder.py:50-86. *)
Definition processV3_params (rec : sessionRecord) (m : preKeyWhisperMessage) : prog (sessionRecord * option N) :=
  if sr_hasSessionState (pVersion m) (pub_serialize (pBaseKey m)) rec then Ret (rec, None)
  else
    spr ← do (CLoadSignedPreKey (pSignedPreKeyId m));
    ourSignedPreKey ← lift (signedprekeyrecord_getKeyPair spr);
    let b := bob_newBuilder in
    let b := bob_set b (BTheirBase (Some (pBaseKey m))) in
    let b := bob_set b (BTheirIdentity (Some (pIdentityKey m))) in
    ourIdentity ← do CGetIdentityKeyPair;
    let b := bob_set b (BOurIdentity (Some ourIdentity)) in
    let b := bob_set b (BOurSigned (Some ourSignedPreKey)) in
    let b := bob_set b (BOurRatchet (Some ourSignedPreKey)) in
    b ← match pPreKeyId m with
        | Some i => pr ← do (CLoadPreKey i); kp ← lift (prekeyrecord_getKeyPair pr); Ret (bob_set b (BOurOneTime (Some kp)))
        | None => Ret (bob_set b (BOurOneTime None))
        end;
    let rec := archiveUnlessFresh rec in
    bp ← lift (bob_create b);
    s ← lift (asBob_params (sr_state rec) bp);
    regid ← do CGetLocalRegistrationId;
    s ← lift (st_setLocalRegistrationId regid s);
    s ← lift (st_setRemoteRegistrationId (pRegistrationId m) s);
    let s := st_setAliceBaseKey (pub_serialize (pBaseKey m)) s in
    Ret (sr_setState s rec,
         match pPreKeyId m with
         | Some i => if (i =? MEDIUM_MAX_VALUE)%N then None else Some i
         | None => None
         end).

(** processPreKeyBundle, sessionbuilder.py:88-131. *)
Definition processPreKeyBundle_params (b : preKeyBundle) : prog unit :=
  trusted ← do (CIsTrusted r (bu_identityKey b));
  if (trusted : bool) then
    match bu_signedPreKey b with
    | None => Raise EInvalidKey
    | Some spk =>
        ok ← lift (verifySignature C (bu_identityKey b) (pub_serialize spk) (bu_signedPreKeySignature b));
        if (ok : bool) then
          rec ← do (CLoadSession r d);
          ourBaseKey ← generateKeyPair C;
          let otpkId := match bu_preKey b with Some _ => bu_preKeyId b | None => None end in
          let p := alice_set alice_newBuilder (AOurBase (Some ourBaseKey)) in
          ourIdentity ← do CGetIdentityKeyPair;
          let p := alice_set p (AOurIdentity (Some ourIdentity)) in
          let p := alice_set p (ATheirIdentity (Some (bu_identityKey b))) in
          let p := alice_set p (ATheirSigned (Some spk)) in
          let p := alice_set p (ATheirRatchet (Some spk)) in
          let p := alice_set p (ATheirOneTime (bu_preKey b)) in
          let rec := archiveUnlessFresh rec in
          ap ← lift (alice_create p);
          s ← asAlice_params (sr_state rec) ap;
          s ← lift (st_setUnacknowledgedPreKeyMessage otpkId (bu_signedPreKeyId b) (kp_pub ourBaseKey) s);
          regid ← do CGetLocalRegistrationId;
          s ← lift (st_setLocalRegistrationId regid s);
          s ← lift (st_setRemoteRegistrationId (bu_registrationId b) s);
          let s := st_setAliceBaseKey (pub_serialize (kp_pub ourBaseKey)) s in
          _ ← do (CStoreSession r d (sr_setState s rec));
          do (CSaveIdentity r (bu_identityKey b))
        else Raise EInvalidKey
    end
  else Raise (EUntrustedIdentity r (bu_identityKey b)).

(** processInitiate, sessionbuilder.py:147-189. *)
Definition processInitiate_params (m : keyExchangeMessage) : prog keyExchangeMessage :=
  rec ← do (CLoadSession r d);
  ok ← lift (verifySignature C (xIdentityKey m) (pub_serialize (xBaseKey m)) (xBaseKeySignature m));
  if (ok : bool) then
    x ← (if negb (st_hasPendingKeyExchange (sr_state rec)) then
           i ← do CGetIdentityKeyPair;
           let b := sym_set sym_newBuilder (SOurIdentity (Some i)) in
           k ← generateKeyPair C;
           let b := sym_set b (SOurBase (Some k)) in
           t ← generateKeyPair C;
           Ret (sym_set b (SOurRatchet (Some t)), RESPONSE_FLAG)
         else
           lift (i ← st_getPendingKeyExchangeIdentityKey (sr_state rec);
                 let b := sym_set sym_newBuilder (SOurIdentity (Some i)) in
                 k ← st_getPendingKeyExchangeBaseKey (sr_state rec);
                 let b := sym_set b (SOurBase (Some k)) in
                 t ← st_getPendingKeyExchangeRatchetKey (sr_state rec);
                 Ok (sym_set b (SOurRatchet (Some t)), N.lor RESPONSE_FLAG SIMULTAENOUS_INITIATE_FLAG)));
    let b := x.1 in
    let b := sym_set b (STheirBase (Some (xBaseKey m))) in
    let b := sym_set b (STheirRatchet (Some (xRatchetKey m))) in
    let b := sym_set b (STheirIdentity (Some (xIdentityKey m))) in
    p ← lift (sym_create b);
    let rec := archiveUnlessFresh rec in
    s ← initializeSession_params (sr_state rec) p;
    _ ← do (CStoreSession r d (sr_setState s rec));
    _ ← do (CSaveIdentity r (xIdentityKey m));
    sig ← calculateSignature C (kp_priv (sp_ourIdentity p)) (pub_serialize (kp_pub (sp_ourBase p)));
    lift (kx_create (st_getSessionVersion s) (xSequence m) x.2 (kp_pub (sp_ourBase p)) sig (kp_pub (sp_ourRatchet p))
            (kp_pub (sp_ourIdentity p)))
  else Raise EInvalidKey.

(** processResponse, sessionbuilder.py:191-227. *)
Definition processResponse_params (m : keyExchangeMessage) : prog unit :=
  rec ← do (CLoadSession r d);
  let st := sr_state rec in
  if negb (st_hasPendingKeyExchange st) || negb (st_getPendingKeyExchangeSequence st =? xSequence m)%N then
    if kx_isResponseForSimultaneousInitiate m then Ret tt else Raise EStaleKeyExchange
  else
    ourBase ← lift (st_getPendingKeyExchangeBaseKey st);
    let b := sym_set sym_newBuilder (SOurBase (Some ourBase)) in
    ourRatchet ← lift (st_getPendingKeyExchangeRatchetKey st);
    let b := sym_set b (SOurRatchet (Some ourRatchet)) in
    ourIdentity ← lift (st_getPendingKeyExchangeIdentityKey st);
    let b := sym_set b (SOurIdentity (Some ourIdentity)) in
    let b := sym_set b (STheirBase (Some (xBaseKey m))) in
    let b := sym_set b (STheirRatchet (Some (xRatchetKey m))) in
    let b := sym_set b (STheirIdentity (Some (xIdentityKey m))) in
    let rec := archiveUnlessFresh rec in
    p ← lift (sym_create b);
    s ← initializeSession_params (sr_state rec) p;
    ok ← lift (verifySignature C (xIdentityKey m) (pub_serialize (xBaseKey m)) (xBaseKeySignature m));
    if (ok : bool) then
      _ ← do (CStoreSession r d (sr_setState s rec));
      do (CSaveIdentity r (xIdentityKey m))
    else Raise EInvalidKey.
End calls.
