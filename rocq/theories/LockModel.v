(** The packages lock: pkm/src/pkm/resolution/packages_lock.py, and candidate filtering of
    pkm/src/pkm/api/repositories/repository.py. *)
From Coq Require Import String Ascii List Bool NArith Arith.
From Verif Require Import Base VersionModel SpecifierModel CollectionModel.
Import ListNotations.
Open Scope string_scope.
Open Scope nat_scope.
Open Scope list_scope.
Open Scope bool_scope.

(** api/packages/package.py:21-24 [PackageDescriptor]: name and version *)
Record pdesc := PD { pname : str; pversion : version }.
(** packages_lock.py:19-21 [_LockedVersion] *)
Record locked := LV { lenv : str; lpkg : pdesc }.
(** packages_lock.py:40: dict from package name to locks *)
Definition lock := list (str * list locked).
(** What the lock reads of an environment: its markers hash and its installed packages, in order *)
Record envl := EnvL { markers_hash : str; installed : list pdesc }.

(** packages_lock.py:41, 105 the grouping key *)
Definition lock_key (l : locked) : str := pname (lpkg l).
(** packages_lock.py:62, 73, 98-99, 118: all entries, in iteration order *)
Definition lock_entries (l : lock) : list locked := concat (map snd l).

(** packages_lock.py:38-42 [__init__] *)
Definition lock_init (ls : list locked) : lock := groupby str_eqb ls lock_key.
(** packages_lock.py:44-54 [unlock_packages]; [pop(pn, None)] ignores unknown names *)
Definition unlock_packages (l : lock) (names : list str) : lock := fold_left (fun d n => dict_del n d) names l.
(** packages_lock.py:56-63 [env_specific_locks] *)
Definition env_specific_locks (l : lock) (e : envl) : list pdesc :=
  map lpkg (filter (fun lp => str_eqb (lenv lp) (markers_hash e)) (lock_entries l)).
(** packages_lock.py:65-88 [locked_versions]; the empty name stands for "all packages" *)
Definition locked_versions (l : lock) (e : envl) (package : str) : list pdesc :=
  let relevant := match package with
                  | [] => lock_entries l
                  | _ => match dict_get package l with Some x => x | None => [] end
                  end in
  match relevant with
  | [] => []
  | _ =>
    let result := map lpkg (filter (fun lp => negb (str_eqb (lenv lp) (markers_hash e))) relevant) in
    if length result =? length relevant then result
    else match find (fun lp => str_eqb (lenv lp) (markers_hash e)) relevant with
         | Some lp => lpkg lp :: result
         | None => result (* cannot happen: [next] finds one, the lengths differ *)
         end
  end.
(** packages_lock.py:90-106 [update_lock] *)
Definition update_lock (l : lock) (e : envl) : lock :=
  groupby str_eqb
    (filter (fun lp => negb (str_eqb (lenv lp) (markers_hash e))) (lock_entries l)
     ++ map (LV (markers_hash e)) (installed e)) lock_key.
(** packages_lock.py:108-119, 128-137: [save] writes all entries, [load] groups them again.
    The TOML text in between is not modelled here. *)
Definition save_load (l : lock) : lock := lock_init (lock_entries l).

(** membership in a python set of versions: same hash and equal *)
Definition hash_key_eqb (a b : hash_key) : bool :=
  match a, b with
  | HUrl u p s, HUrl u' p' s' => str_eqb u u' && opt_eqb str_eqb p p' && str_eqb s s'
  | HNamed n, HNamed n' => str_eqb n n'
  | HStd (r, e, d, po, pr, ll), HStd (r', e', d', po', pr', ll') =>
      list_eqb N.eqb r r' && opt_eqb N.eqb e e' && opt_eqb N.eqb d d' && opt_eqb N.eqb po po'
      && opt_eqb pre_eqb pr pr' && opt_eqb str_eqb ll ll'
  | _, _ => false
  end.
Definition in_version_set (v : version) (s : list version) : bool :=
  existsb (fun w => hash_key_eqb (version_hash v) (version_hash w) && version_eqb v w) s.

(** python's stable [list.sort(key=...)] for integer keys: insertion sort from the right.
    Simplification: timsort is replaced by the unique stable result. *)
Fixpoint insert_by {A} (key : A -> nat) (x : A) (l : list A) : list A :=
  match l with
  | [] => [x]
  | y :: r => if key x <=? key y then x :: y :: r else y :: insert_by key x r
  end.
Fixpoint sort_by {A} (key : A -> nat) (l : list A) : list A :=
  match l with [] => [] | x :: r => insert_by key x (sort_by key r) end.

(** packages_lock.py:121-126 [sort_packages_by_lock_preference].  A package is its descriptor. *)
Definition sort_packages_by_lock_preference (l : lock) (e : envl) (ps : list pdesc) : list pdesc :=
  match ps with
  | [] => []
  | p0 :: _ =>
      let vs := map pversion (locked_versions l e (pname p0)) in
      sort_by (fun p => if in_version_set (pversion p) vs then 0 else 1) ps
  end.

(** repository.py:85-89 [_filter_prereleases] *)
Definition filter_prereleases (ps : list pdesc) (sp : spec) : list pdesc :=
  if allows_pre_or_dev sp then ps
  else let '(_, rest) := partition ps (fun p => is_pre_or_dev_release (pversion p)) in
       match rest with [] => ps | _ => rest end.
(** repository.py:73-78 [AbstractRepository.match], over the list returned by [_do_match];
    [compat p] is [p.is_compatible_with(env)] *)
Definition repo_match (compat : pdesc -> bool) (sp : spec) (do_match : list pdesc) : list pdesc :=
  filter_prereleases (filter compat do_match) sp.
(** packages_lock.py:140-147 [LockPrioritizingRepository]: [match] of the base repository, reordered,
    then the inherited [match] filters once more *)
Definition lock_repo_match (l : lock) (e : envl) (compat : pdesc -> bool) (sp : spec) (base : list pdesc) : list pdesc :=
  repo_match compat sp (sort_packages_by_lock_preference l e (repo_match compat sp base)).
