(** Vocabulary for the lock properties. *)
From Coq Require Import String Ascii List Bool NArith Arith.
From Verif Require Import Base VersionModel SpecifierModel CollectionModel LockModel.
Import ListNotations.
Open Scope nat_scope.
Open Scope list_scope.
Open Scope bool_scope.

(** the operations offered to users, and the locks they can produce *)
Inductive lock_op := LUpdate (e : envl) | LUnlock (names : list str) | LSaveLoad.
Definition lock_step (l : lock) (o : lock_op) : lock :=
  match o with
  | LUpdate e => update_lock l e
  | LUnlock ns => unlock_packages l ns
  | LSaveLoad => save_load l
  end.
Definition reachable_lock (l : lock) : Prop := exists ls ops, l = fold_left lock_step ops (lock_init ls).

(** the lock records at most one version of a package per environment *)
Definition one_per_env (ls : list locked) : Prop := NoDup (map (fun lp => (lenv lp, lock_key lp)) ls).
(** no package is installed twice *)
Definition installed_once (o : lock_op) : Prop :=
  match o with LUpdate e => NoDup (map pname (installed e)) | _ => True end.

(** some entry of the lock, for any environment, records the version of [p] *)
Definition locked_in (l : lock) (p : pdesc) : Prop :=
  exists lp, In lp (lock_entries l) /\ pname (lpkg lp) = pname p /\
    version_hash (pversion (lpkg lp)) = version_hash (pversion p) /\ version_eqb (pversion p) (pversion (lpkg lp)) = true.
