(** The in-memory stores the project ships with its tests, on Python dictionaries.  The
    other files use maps for the same stores ([world] in Prog.v); here the dictionaries
    keep their order, and iteration fails when the size changes, as in Python 3. *)
From Verif Require Import PyBase Protos State Prog.

(** A dictionary: its items in insertion order, every key once. *)
Definition dict (K V : Type) : Type := list (K * V).

Section dict.
Context {K V : Type} `{EqDecision K}.

(** [d[k]], None for KeyError. *)
Fixpoint dict_get (k : K) (d : dict K V) : option V :=
  match d with [] => None | (k', v) :: d' => if bool_decide (k' = k) then Some v else dict_get k d' end.

(** [k in d]. *)
Definition dict_in (k : K) (d : dict K V) : bool := match dict_get k d with Some _ => true | None => false end.

(** [d[k] = v]: in place if the key is there, otherwise at the end. *)
Fixpoint dict_set (k : K) (v : V) (d : dict K V) : dict K V :=
  match d with
  | [] => [(k, v)]
  | (k', v') :: d' => if bool_decide (k' = k) then (k, v) :: d' else (k', v') :: dict_set k v d'
  end.

(** The items without the one of the key. *)
Fixpoint dict_remove (k : K) (d : dict K V) : dict K V :=
  match d with
  | [] => []
  | (k', v') :: d' => if bool_decide (k' = k) then d' else (k', v') :: dict_remove k d'
  end.

(** [del d[k]]. *)
Definition dict_del (k : K) (d : dict K V) : res unit * dict K V :=
  if dict_in k d then (Ok tt, dict_remove k d) else (Err EKeyError, d).

(** [for k in d.keys(): if sel(k): del d[k]].  The iterator compares the size of the
    dictionary with the size it had at the start before it goes on or ends. *)
Fixpoint dict_del_loop (sel : K -> bool) (size : nat) (todo : list K) (d : dict K V) : res unit * dict K V :=
  if Nat.eqb (length d) size then
    match todo with
    | [] => (Ok tt, d)
    | k :: todo =>
        if sel k then
          match dict_del k d with
          | (Ok _, d) => dict_del_loop sel size todo d
          | (Err e, d) => (Err e, d)
          end
        else dict_del_loop sel size todo d
    end
  else (Err ERuntimeError, d).
End dict.

(** ** InMemorySessionStore, tests/inmemorysessionstore.py:7-37 *)

Definition sessionDict : Type := dict (Z * Z) bytes.

(** loadSession, tests/inmemorysessionstore.py:11-15. *)
Definition ss_loadSession (r d : Z) (s : sessionDict) : res sessionRecord :=
  match dict_get (r, d) s with Some bs => sr_deserialize bs | None => Ok sr_new end.

(** getSubDeviceSessions, tests/inmemorysessionstore.py:17-23. *)
Definition ss_getSubDeviceSessions (r : Z) (s : sessionDict) : list Z :=
  flat_map (fun x => if (x.1.1 =? r)%Z then [x.1.2] else []) s.

(** storeSession, tests/inmemorysessionstore.py:25-26. *)
Definition ss_storeSession (r d : Z) (rec : sessionRecord) (s : sessionDict) : sessionDict :=
  dict_set (r, d) (sr_serialize rec) s.

(** containsSession, tests/inmemorysessionstore.py:28-29. *)
Definition ss_containsSession (r d : Z) (s : sessionDict) : bool := dict_in (r, d) s.

(** deleteSession, tests/inmemorysessionstore.py:31-32. *)
Definition ss_deleteSession (r d : Z) (s : sessionDict) : res unit * sessionDict := dict_del (r, d) s.

(** deleteAllSessions, tests/inmemorysessionstore.py:34-37 (Python 3; under Python 2
    [keys()] is a list and the loop goes on). *)
Definition ss_deleteAllSessions (r : Z) (s : sessionDict) : res unit * sessionDict :=
  dict_del_loop (fun k => (k.1 =? r)%Z) (length s) (map fst s) s.

(** ** InMemoryPreKeyStore, tests/inmemoryprekeystore.py:8-26 *)

Definition keyDict : Type := dict N bytes.

(** loadPreKey, tests/inmemoryprekeystore.py:12-16. *)
Definition ps_loadPreKey (i : N) (s : keyDict) : res pr_s :=
  match dict_get i s with Some bs => prekeyrecord_parse bs | None => Err EInvalidKeyId end.

(** storePreKey, tests/inmemoryprekeystore.py:18-19. *)
Definition ps_storePreKey (i : N) (r : pr_s) (s : keyDict) : keyDict := dict_set i (pr_enc r) s.

(** removePreKey, tests/inmemoryprekeystore.py:24-26. *)
Definition ps_removePreKey (i : N) (s : keyDict) : keyDict := if dict_in i s then (dict_del i s).2 else s.

(** ** InMemorySignedPreKeyStore, tests/inmemorysignedprekeystore.py:8-32 *)

(** loadSignedPreKey, tests/inmemorysignedprekeystore.py:12-16. *)
Definition sps_loadSignedPreKey (i : N) (s : keyDict) : res spr_s :=
  match dict_get i s with Some bs => signedprekeyrecord_parse bs | None => Err EInvalidKeyId end.

(** loadSignedPreKeys, tests/inmemorysignedprekeystore.py:18-23. *)
Fixpoint sps_loadSignedPreKeys (s : keyDict) : res (list spr_s) :=
  match s with
  | [] => Ok []
  | (_, bs) :: s => r ← signedprekeyrecord_parse bs; l ← sps_loadSignedPreKeys s; Ok (r :: l)
  end.

(** storeSignedPreKey, tests/inmemorysignedprekeystore.py:25-26. *)
Definition sps_storeSignedPreKey (i : N) (r : spr_s) (s : keyDict) : keyDict := dict_set i (spr_enc r) s.

(** containsSignedPreKey, tests/inmemorysignedprekeystore.py:28-29. *)
Definition sps_containsSignedPreKey (i : N) (s : keyDict) : bool := dict_in i s.

(** removeSignedPreKey, tests/inmemorysignedprekeystore.py:31-32. *)
Definition sps_removeSignedPreKey (i : N) (s : keyDict) : res unit * keyDict := dict_del i s.

(** InMemoryAxolotlStore.removeSignedPreKey, tests/inmemoryaxolotlstore.py:71-72: calls
    containsSignedPreKey without its argument. *)
Definition as_removeSignedPreKey (i : N) (s : keyDict) : res unit * keyDict := (Err ETypeError, s).
