(** Model of pkm/src/pkm/api/environments/package_containers.py, of the part of pkm-cli/src/pkm_cli/controllers/env_controller.py that
    uses it, and of the packages that pkm-cli/src/pkm_cli/reports/environment_report.py lists.

    Simplifications: an installed package is its name, its version and the marks of its dist-info; the files of a container are the
    packages of its site. *)
From Coq Require Import List Bool NArith Ascii String Arith Lia.
From Verif Require Import Base CollectionModel NamesModel VersionModel SpecifierModel.
Import ListNotations.
Open Scope string_scope. Open Scope nat_scope. Open Scope list_scope. Open Scope bool_scope.

(** an installed package: the name of its descriptor, the key under which site_packages.py:85-90 files it, its version,
    [is_app_container] (distinfo.py:68-73) and [is_user_requested] *)
Record ipkg := IPkg { i_name : str; i_key : str; i_version : version; i_container : bool; i_requested : bool }.
(** site_packages.py:95-96 [installed_package] *)
Definition installed_package (site : list ipkg) (name : str) : res (option ipkg) :=
  do k <- package_name_key name; Ok (find (fun p => str_eqb (i_key p) k) site).

(** package_containers.py:29 *)
Definition wrapper_suffix : str := lit "_containerized".
(** package_containers.py:38-41 [PackageContainer]: the package and the packages of its site *)
Record container := Container { c_package : ipkg; c_site : list ipkg }.

(** package_containers.py:43-53 [containerized_package] *)
Definition containerized_package (c : container) : res (option ipkg) :=
  let name := i_name (c_package c) in
  do r <- (if ends_with wrapper_suffix (i_key (c_package c)) then installed_package (c_site c) (firstn (List.length name - List.length wrapper_suffix) name) else Ok None);
  match r with
  | Some p => Ok (Some p)
  | None => installed_package (c_site c) name
  end.
(** package_containers.py:68-76 [list_installed_plugins]: [None.name] for a container without its package *)
Definition list_installed_plugins (c : container) : res (list ipkg) :=
  match filter i_requested (c_site c) with
  | [] => Ok []
  | l =>
      do m <- containerized_package c;
      match m with
      | None => Err AttributeError
      | Some main => Ok (filter (fun p => negb (str_eqb (i_name p) (i_name main)) && negb (str_eqb (i_name p) (i_name (c_package c)))) l)
      end
  end.

Section Host.
  (** the packages of the environment, and of the site below the directory with the given name *)
  Variable host : list ipkg.
  Variable inside : str -> list ipkg.

  (** package_containers.py:97-103 [_target_of] *)
  Definition container_at (p : ipkg) : res container := do d <- normalize_src_package_name (i_name p); Ok (Container p (inside d)).
  (** package_containers.py:87-95 [containers] *)
  Fixpoint all_containers (l : list ipkg) : res (list container) :=
    match l with
    | [] => Ok []
    | p :: r => if i_container p then do c <- container_at p; do cs <- all_containers r; Ok (c :: cs) else all_containers r
    end.
  Definition containers : res (list container) := all_containers host.
  (** package_containers.py:105-116 [container_of] *)
  Definition container_of (name : str) : res (option container) :=
    do a <- installed_package host name;
    do cnt <- (match a with Some p => Ok (Some p) | None => installed_package host (name ++ wrapper_suffix) end);
    match cnt with
    | Some p => if i_container p then do c <- container_at p; Ok (Some c) else Ok None
    | None => Ok None
    end.
  (** package_containers.py:251-261 [_get_or_install]: [true] when it is installed (again) *)
  Definition must_install (name : str) (s : spec) : res bool :=
    do c <- container_of name;
    match c with
    | None => Ok true
    | Some c =>
        do m <- containerized_package c;
        match m with None => Err AttributeError | Some p => Ok (negb (allows s (i_version p))) end
    end.

  (** env_controller.py:26-39 [uninstall]: what is removed from where: the container itself, or names from a site *)
  Inductive removal := RemoveContainer (p : ipkg) | RemoveFrom (site : list ipkg) (names : list str).
  Definition uninstall (names : list str) (cnt : option str) : res removal :=
    match cnt with
    | Some (c :: cs) =>
        do o <- container_of (c :: cs);
        match o with
        | None => Err AttributeError
        | Some x => Ok (match names with [] => RemoveContainer (c_package x) | _ => RemoveFrom (c_site x) names end)
        end
    | _ => Ok (RemoveFrom host names)
    end.
End Host.

(** ** the entry points of a container *)
(** a script: its name, and the module and the object it refers to *)
Record script := Script { s_name : str; s_module : str; s_object : str }.
(** what can follow [def]: lines 287-289; the keywords of Python 3.10 *)
Definition keywords : list str := map lit ["False"; "None"; "True"; "and"; "as"; "assert"; "async"; "await"; "break"; "class"; "continue"; "def"; "del"; "elif"; "else"; "except";
  "finally"; "for"; "from"; "global"; "if"; "import"; "in"; "is"; "lambda"; "nonlocal"; "not"; "or"; "pass"; "raise"; "return"; "try"; "while"; "with"; "yield"].
Definition is_identifier (s : str) : bool :=
  match s with
  | [] => false
  | c :: _ => negb (is_digit c) && forallb (fun c => is_alnum c || Ascii.eqb c "_") s && negb (str_mem s keywords)
  end.
(** package_containers.py:285-291 [_entrypoints_script]: the functions of entrypoints.py in the order of the file *)
Fixpoint define_epfuncs (l : list script) : res (list (str * (str * str))) :=
  match l with
  | [] => Ok []
  | s :: r => do epn <- normalize_src_package_name (s_name s); do d <- define_epfuncs r; Ok ((epn, (s_module s, s_object s)) :: d)
  end.
(** importing entrypoints.py: a later function replaces an earlier one of the same name; one name that cannot be defined is a SyntaxError
    of the whole file *)
Definition import_entrypoints (defs : list (str * (str * str))) : res (list (str * (str * str))) :=
  if forallb (fun d => is_identifier (fst d)) defs then Ok (fold_left (fun ns d => dict_set (fst d) (snd d) ns) defs []) else Err OtherErr.
(** running a script of the environment: it calls the function that package_containers.py:210-214 writes in its entry point; the function
    calls what is returned here *)
Definition run_script (l : list script) (s : script) : res (str * str) :=
  do defs <- define_epfuncs l;
  do ns <- import_entrypoints defs;
  do epn <- normalize_src_package_name (s_name s);
  match dict_get epn ns with Some r => Ok r | None => Err AttributeError end.

(** ** register_container.py *)
(** [site.addsitedir]: the directory and the directories of its .pth files, those that are not known *)
Definition add_path (d : str) (sys_path : list str) : list str := if str_mem d sys_path then sys_path else sys_path ++ [d].
Definition addsitedir (dir : str) (pth : list str) (sys_path : list str) : list str := fold_left (fun p d => add_path d p) (dir :: pth) sys_path.
(** [sys.path.insert(1, sys.path.pop())], package_containers.py:322 *)
Definition last_second (l : list str) : res (list str) :=
  match rev l with
  | [] => Err IndexError
  | x :: r => match rev r with [] => Ok [x] | y :: z => Ok (y :: x :: z) end
  end.
(** package_containers.py:315-322 *)
Definition register_site (dir : str) (pth : list str) (sys_path : list str) : res (list str) := last_second (addsitedir dir pth sys_path).
(** package_containers.py:324-328: the variable PATH; [None]: not set *)
Definition register_path (bin : str) (old : option str) : str :=
  match old with
  | None | Some [] => bin
  | Some o => if contains bin o then o else bin ++ lit ":" ++ o
  end.

(** ** the report of an environment *)
(** an installed package and its dependencies, with the keys of their names; [applicable]: whether the marker holds here *)
Record rpkg := RPkg { r_key : str; r_container : bool; r_user : bool; r_deps : list (str * bool) }.
(** environment_report.py:35-44 *)
Definition listed (l : list rpkg) : list rpkg := filter (fun p => negb (r_container p)) l.
(** environment_report.py:46-53: who requires a package, and which dependencies of a package are missing *)
Definition requires (p : rpkg) : list str := map fst (filter snd (r_deps p)).
Definition required_by (l : list rpkg) (q : rpkg) : list rpkg :=
  flat_map (fun p => flat_map (fun d => if str_eqb d (r_key q) then [p] else []) (requires p)) (listed l).
Definition missing (l : list rpkg) (p : rpkg) : list str := filter (fun d => negb (str_mem d (map r_key (listed l)))) (requires p).
(** environment_report.py:55-56, 92-98: what is written about a package *)
Inductive line := LUser (p : rpkg) (missing : list str) | LRequired (p : rpkg) (by_ : list rpkg) (missing : list str) | LOrphan (p : rpkg) (missing : list str).
Definition describe (l : list rpkg) (p : rpkg) : line :=
  if r_user p then LUser p (missing l p)
  else match required_by l p with [] => LOrphan p (missing l p) | by_ => LRequired p by_ (missing l p) end.
Definition report (all : bool) (l : list rpkg) : list line := map (describe l) (filter (fun p => all || r_user p) (listed l)).
