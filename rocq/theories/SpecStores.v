(** What is expected of the stores, over whole histories of store operations. *)
From Verif Require Import PyBase Protos State Prog Stores.

(** What an application does with the session store. *)
Inductive sessionOp :=
| OStore (r d : Z) (rec : sessionRecord)
| ODelete (r d : Z)
| ODeleteAll (r : Z).

Definition op_does (o : sessionOp) (s : sessionDict) : sessionDict :=
  match o with
  | OStore r d rec => ss_storeSession r d rec s
  | ODelete r d => (ss_deleteSession r d s).2
  | ODeleteAll r => (ss_deleteAllSessions r s).2
  end.

(** The store after a history, starting empty. *)
Definition store_after (l : list sessionOp) : sessionDict := foldl (fun s o => op_does o s) [] l.

(** The record an address holds after a history of stores and deletions: the last one stored
    unless it was deleted since. *)
Definition op_writes (r d : Z) (o : sessionOp) (last : option sessionRecord) : option sessionRecord :=
  match o with
  | OStore r' d' rec => if (r' =? r)%Z && (d' =? d)%Z then Some rec else last
  | ODelete r' d' => if (r' =? r)%Z && (d' =? d)%Z then None else last
  | ODeleteAll r' => if (r' =? r)%Z then None else last
  end.
Definition last_write (r d : Z) (l : list sessionOp) : option sessionRecord :=
  foldl (fun x o => op_writes r d o x) None l.

(** Only stores and single deletions. *)
Definition no_delete_all (l : list sessionOp) : Prop :=
  Forall (fun o => match o with ODeleteAll _ => False | _ => True end) l.
