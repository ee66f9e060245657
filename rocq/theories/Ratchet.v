(** ratchet/ratchetingsession.py.  The parameter classes (ratchet/*parameters.py) are
    plain containers whose None checks never fire for the arguments the library passes;
    their fields are passed as arguments. *)
From Verif Require Import PyBase Protos Crypto Ecc Kdf Messages State Prog.

Section ratchet.
Context (C : crypto).

(** getDiscontinuityBytes, ratchetingsession.py:102-104. *)
Definition getDiscontinuityBytes : bytes := replicate 32 xff.

(** calculateDerivedKeys, ratchetingsession.py:106-112. *)
Definition calculateDerivedKeys (masterSecret : bytes) : rootKey * chainKey :=
  let okm := hkdf_deriveSecrets C hkdf_v3 masterSecret (str "WhisperText") 64 [] in
  let '(rk, ck) := bu_split2 okm 32 32 in
  (RootKey hkdf_v3 rk, ChainKey hkdf_v3 ck 0).

(** initializeSessionAsAlice, ratchetingsession.py:39-70. *)
Definition initializeSessionAsAlice (s : ss_s) (ourIdentity ourBase : keypair)
    (theirIdentity theirSignedPreKey theirRatchetKey : bytes) (theirOneTimePreKey : option bytes) : prog ss_s :=
  let s := st_setSessionVersion CURRENT_VERSION s in
  let s := st_setRemoteIdentityKey theirIdentity s in
  let s := st_setLocalIdentityKey (kp_pub ourIdentity) s in
  sendingRatchetKey ← generateKeyPair C;
  lift (
    a1 ← calculateAgreement C theirSignedPreKey (kp_priv ourIdentity);
    a2 ← calculateAgreement C theirIdentity (kp_priv ourBase);
    a3 ← calculateAgreement C theirSignedPreKey (kp_priv ourBase);
    a4 ← match theirOneTimePreKey with
         | Some k => calculateAgreement C k (kp_priv ourBase)
         | None => Ok []
         end;
    let '(rk, ck) := calculateDerivedKeys (getDiscontinuityBytes ++ a1 ++ a2 ++ a3 ++ a4) in
    sendingChain ← rk_createChain C rk theirRatchetKey sendingRatchetKey;
    s ← st_addReceiverChain theirRatchetKey ck s;
    s ← st_setSenderChain sendingRatchetKey sendingChain.2 s;
    Ok (st_setRootKey sendingChain.1 s)).

(** initializeSessionAsBob, ratchetingsession.py:72-100. *)
Definition initializeSessionAsBob (s : ss_s) (ourIdentity ourSignedPreKey ourRatchetKey : keypair)
    (ourOneTimePreKey : option keypair) (theirIdentity theirBaseKey : bytes) : res ss_s :=
  let s := st_setSessionVersion CURRENT_VERSION s in
  let s := st_setRemoteIdentityKey theirIdentity s in
  let s := st_setLocalIdentityKey (kp_pub ourIdentity) s in
  a1 ← calculateAgreement C theirIdentity (kp_priv ourSignedPreKey);
  a2 ← calculateAgreement C theirBaseKey (kp_priv ourIdentity);
  a3 ← calculateAgreement C theirBaseKey (kp_priv ourSignedPreKey);
  a4 ← match ourOneTimePreKey with
       | Some k => calculateAgreement C theirBaseKey (kp_priv k)
       | None => Ok []
       end;
  let '(rk, ck) := calculateDerivedKeys (getDiscontinuityBytes ++ a1 ++ a2 ++ a3 ++ a4) in
  s ← st_setSenderChain ourRatchetKey ck s;
  Ok (st_setRootKey rk s).

(** isAlice, ratchetingsession.py:114-120. *)
Definition isAlice (ourKey theirKey : bytes) : res bool := pub_lt ourKey theirKey.

(** initializeSession, ratchetingsession.py:14-37. *)
Definition initializeSession (s : ss_s) (ourIdentity ourBase ourRatchet : keypair)
    (theirBase theirRatchet theirIdentity : bytes) : prog ss_s :=
  alice ← lift (isAlice (kp_pub ourBase) theirBase);
  if (alice : bool)
  then initializeSessionAsAlice s ourIdentity ourBase theirIdentity theirBase theirRatchet None
  else lift (initializeSessionAsBob s ourIdentity ourBase ourRatchet None theirIdentity theirBase).
End ratchet.
