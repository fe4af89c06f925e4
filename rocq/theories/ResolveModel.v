(** Model of pkm/src/pkm/resolution/dependency_resolver.py: what the solver is asked and what becomes of its answer.

    Simplifications: requirements by url and versions that are not standard (74-76, 112-113) are left out; the repository answers every request; the promises
    of [_prefetch] (66-68) are answered at once, which is what [result()] waits for; an error while the dependencies of a
    package are read or a marker is evaluated is the MalformedPackageException of line 85. *)
From Coq Require Import String Ascii List Bool NArith Arith.
From Verif Require Import Base NamesModel VersionModel SpecifierModel MarkerModel DependencyModel LockModel PubgrubModel.
Import ListNotations.
Open Scope string_scope.
Open Scope nat_scope.
Open Scope list_scope.
Open Scope bool_scope.

(** what the resolver sees of a package: the name and the version of its descriptor, [is_compatible_with(env)] and what it
    requires, for every environment and extra *)
Record package := Package { k_name : str; k_version : version; k_fits : bool; k_requires : option (list dep) }.
(** 116-119 *)
Record rpkg := RPkg { g_name : str; g_extras : option (list str) }.
Definition rpkg_eqb (a b : rpkg) : bool := str_eqb (g_name a) (g_name b) && opt_eqb (list_eqb str_eqb) (g_extras a) (g_extras b).
(** 140-142 *)
Definition pkg_of (d : dep) : rpkg := RPkg (lower (d_name d)) (d_extras d).
Definition has_extras (g : rpkg) : bool := match g_extras g with Some (_ :: _) => true | _ => false end.
Definition extras_of (g : rpkg) : list str := match g_extras g with Some l => l | None => [] end.

(** 105: [list({p.version: p for p in ..}.values())]: the place of the first, the value of the last one *)
Fixpoint set_version (p : package) (l : list package) : list package :=
  match l with
  | [] => [p]
  | q :: r => if version_eqb (k_version p) (k_version q) then p :: r else q :: set_version p r
  end.
Definition unique_versions (l : list package) : list package := fold_left (fun acc p => set_version p acc) l [].

(** the keys of [opened_packages] *)
Definition key := (str * version)%type.
Definition key_eqb (a b : key) : bool := str_eqb (fst a) (fst b) && version_eqb (snd a) (snd b).
Definition opened := list (key * package).
Fixpoint opened_get (k : key) (o : opened) : option package :=
  match o with [] => None | (k', p) :: r => if key_eqb k k' then Some p else opened_get k r end.
Fixpoint opened_set (k : key) (p : package) (o : opened) : opened :=
  match o with [] => [(k, p)] | (k', q) :: r => if key_eqb k k' then (k', p) :: r else (k', q) :: opened_set k p r end.
(** package.py:41-44: the name in a descriptor; names that are empty after normalising do not get this far *)
Definition in_descriptor (name : str) : str := match descriptor_name name with Ok n => n | Err _ => [] end.

Section Resolve.
  Variable as_uri : str -> str.
  Variable env : list (str * str).
  (** repository.py:26-31 *)
  Variable repo_match : dep -> list package.
  (** 53-58 *)
  Variable overrides : list (str * dep).

  (** repository.py:33-39 *)
  Definition repo_list (name : str) : list package := repo_match (Dep name AllowAll None None).
  (** 101-110 *)
  Definition listed (g : rpkg) : list package := unique_versions (filter k_fits (repo_list (g_name g))).
  Definition versions_of (g : rpkg) : list version := filter is_std (map k_version (listed g)).
  Definition get_versions (o : opened) (g : rpkg) : list version * opened :=
    (versions_of g, fold_left (fun o p => opened_set (in_descriptor (lower (k_name p)), k_version p) p o) (listed g) o).
  (** dependency.py:39-40 on a list, standard_package.py:122-125 and line 93 *)
  Fixpoint applicable (extras : list str) (ds : list dep) : option (list dep) :=
    match ds with
    | [] => Some []
    | d :: r =>
        match is_applicable_for as_uri d env extras, applicable extras r with
        | Ok true, Some l => Some (d :: l)
        | Ok false, Some l => Some l
        | _, _ => None
        end
    end.
  (** 92-97 *)
  Definition term_of (d : dep) : rpkg * spec :=
    match dict_get (d_name d) overrides with
    | Some o => (pkg_of o, d_spec o)
    | None => (pkg_of d, d_spec d)
    end.
  (** 87-99 *)
  Definition terms_of (g : rpkg) (v : version) (p : package) : option (list (rpkg * spec)) :=
    match k_requires p with
    | None => None
    | Some ds =>
        match applicable (extras_of g) ds with
        | None => None
        | Some l => Some ((if has_extras g then [(RPkg (g_name g) None, Match v true)] else []) ++ map term_of l)
        end
    end.
  (** 70-99; a package that was not opened: KeyError *)
  Definition get_dependencies (o : opened) (g : rpkg) (v : version) : res (option (list (rpkg * spec))) :=
    match opened_get (in_descriptor (g_name g), v) o with
    | None => Err KeyError
    | Some p => Ok (terms_of g v p)
    end.

  (** what [get_dependencies] answers after [get_versions] of the same package *)
  Definition find_version (v : version) (l : list package) : option package := find (fun p => version_eqb (k_version p) v) l.
  Definition dependencies_of (g : rpkg) (v : version) : option (list (rpkg * spec)) :=
    match find_version v (listed g) with Some p => terms_of g v p | None => None end.

  (** ** The solver.  [universe]: the packages that can come up, in the order of [__lt__] (130-131); the solver numbers them *)
  Variable universe : list rpkg.
  Fixpoint position (g : rpkg) (l : list rpkg) : nat := match l with [] => 0 | h :: r => if rpkg_eqb g h then 0 else S (position g r) end.
  Definition code (g : rpkg) : pkg := N.of_nat (position g universe).
  Definition decode (n : pkg) : option rpkg := nth_error universe (N.to_nat n).
  Definition solver_problem : problem spec version :=
    Problem (fun n => match decode n with Some g => versions_of g | None => [] end)
            (fun n v => match decode n with
                        | Some g => option_map (map (fun t => T (code (fst t)) (snd t))) (dependencies_of g v)
                        | None => None
                        end)
            (fun _ _ => false).
  (** 40-48 *)
  Fixpoint collect (o : opened) (ds : list (pkg * spec)) : res (list package) :=
    match ds with
    | [] => Ok []
    | (n, c) :: r =>
        match decode n, c with
        | Some g, Match v true =>
            if has_extras g then collect o r
            else match opened_get (in_descriptor (g_name g), v) o with
                 | Some p => do l <- collect o r; Ok (p :: l)
                 | None => Err KeyError
                 end
        | _, _ => Err KeyError
        end
    end.
  (** the packages that are open after [get_versions] was asked for [gs], in this order *)
  Definition opened_by (gs : list rpkg) : opened := fold_left (fun o g => snd (get_versions o g)) gs [].
  Definition decoded (ds : list (pkg * spec)) : list rpkg := flat_map (fun e => match decode (fst e) with Some g => [g] | None => [] end) ds.
  (** 22-48.  The solver has asked for the versions of what it decided, and of more: see [C106_opened_partial] for why this does
      not matter. *)
  Definition resolve (pick : list pkg -> nat) (fuel : nat) (root : dep) : res (list package) :=
    do ds <- solve spec version real_ops solver_problem (code (pkg_of root)) pick fuel;
    collect (opened_by (decoded ds)) ds.
End Resolve.

(** ** Two repositories *)
(** repository.py:73-93 with the packages that [all] has for a name, best first *)
Definition answer (all : list package) (d : dep) : list package :=
  let matched := filter k_fits (filter (fun p => allows (d_spec d) (k_version p)) all) in
  if allows_pre_or_dev (d_spec d) then matched
  else match filter (fun p => negb (is_pre_or_dev_release (k_version p))) matched with [] => matched | rest => rest end.
(** an index that finds packages as PyPI does (pypi_repository.py:46-77); [index]: per normalised name the versions, best
    first, and what they require *)
Definition index := list (str * list (version * option (list dep))).
Definition pypi_name (s : str) : str := lower (sub_runs (fun c => Ascii.eqb c "-" || Ascii.eqb c "_" || Ascii.eqb c ".") "-" false s).
Definition pypi_match (ix : index) (d : dep) : list package :=
  answer (map (fun e => Package (in_descriptor (d_name d)) (fst e) true (snd e)) (match dict_get (pypi_name (d_name d)) ix with Some l => l | None => [] end)) d.
(** file_system_repository.py:18-26: packages by the name of their project *)
Definition local_match (packages : list (str * list package)) (d : dep) : list package :=
  answer (match dict_get (d_name d) packages with Some l => l | None => [] end) d.
