(** Packages on the own disk and behind a plain url: pkm/src/pkm/repositories/file_repository.py, file_system_repository.py,
    url_repository.py and pkm/src/pkm/api/distributions/distribution.py. *)
From Coq Require Import String Ascii List Bool NArith Arith.
From Verif Require Import Base ParserModel NamesModel VersionModel VersionParse SpecifierModel DependencyModel UrlModel FsModel.
From Verif Require SharedModel ArtifactModel IndexModel GitModel ProjectModel.
Import ListNotations.
Open Scope string_scope.
Open Scope nat_scope.
Open Scope list_scope.
Open Scope bool_scope.

(** ** Packages *)
(** package.py:21-44 [PackageDescriptor]; a version is always true *)
Record descriptor := Desc { n_name : str; n_version : version }.
Definition make_descriptor (name : str) (v : version) : res descriptor := do n <- descriptor_name name; Ok (Desc n v).
(** package.py:99-108 *)
Definition from_dist_name (name : str) : res descriptor :=
  match split_on "-" name with
  | n :: v :: _ => do v <- parse_version v; make_descriptor n v
  | _ => Err IndexError
  end.
(** what is read of the [project] table of a pyproject.toml; [None]: no such entry *)
Record config := Config { c_name : option str; c_version : option version; c_python : spec; c_dynamic : list str;
                          c_dependencies : list dep; c_optional : list (str * list dep) }.
(** pyproject_configuration.py:252-254, 283-285: the values of a project without the table *)
Definition legacy_dynamic : list str :=
  [lit "description"; lit "readme"; lit "requires-python"; lit "license"; lit "authors"; lit "maintainers"; lit "keywords"; lit "classifiers";
   lit "urls"; lit "scripts"; lit "gui-scripts"; lit "entry-points"; lit "dependencies"; lit "optional-dependencies"].
Definition legacy_config (name : str) (v : version) : config := Config (Some name) (Some v) AllowAll legacy_dynamic [] [].

(** project.py:36-44 and distribution.py:66-69 *)
Inductive package :=
| Project (dir : path) (d : descriptor) (c : config)
| Wheel (file : path) (d : descriptor)
| Sdist (file : path) (d : descriptor).
Definition descriptor_of (p : package) : descriptor := match p with Project _ d _ | Wheel _ d | Sdist _ d => d end.
Definition name_of (p : package) : str := n_name (descriptor_of p).
Definition version_of (p : package) : version := n_version (descriptor_of p).
Definition place_of (p : package) : path := match p with Project l _ _ | Wheel l _ | Sdist l _ => l end.

(** strings.py:28-34 *)
Definition dist_suffixes : list str := [lit ".tar.gz"; lit ".whl"].
Definition endswith_any (s : str) (l : list str) : option str := find (fun x => ArtifactModel.ends_with x s) l.
Definition has_dist_suffix (name : str) : bool := is_some (endswith_any name dist_suffixes).
(** strings.py:16-25 *)
Definition without_prefix (s prefix : str) : str := if starts_with prefix s then skipn (length prefix) s else s.

(** distribution.py:45-62; [name] is the last component of the path *)
Definition package_from (file : path) (name : str) : res package :=
  do d <- from_dist_name name;
  Ok (if ArtifactModel.ends_with (lit ".whl") name then Wheel file d else Sdist file d).

Section Local.
  (** the project table of a text in TOML: [None]: it has none *)
  Variable project_table : str -> res (option config).
  (** the dependencies in the metadata that the build of a project gives (project.py:88-95) *)
  Variable built_dependencies : path -> res (list dep).
  (** the directories of the projects of a group (project_group.py) *)
  Variable group_projects : fs -> path -> res (list path).
  (** [env.compatibility_tag_score(tag) is not None], [env.interpreter_version] and [env] for markers *)
  Variable tag_fits : str -> bool.
  Variable interpreter : version.
  Variable env : list (str * str).
  Variable as_uri : str -> str.
  (** the current directory *)
  Variable cwd : path.

  (** pyproject_configuration.py:268-288 with no package given; a file that does not exist is an empty configuration.  [name] is the
      name of the directory. *)
  Definition load_config (f : fs) (dir : path) (name : str) : res config :=
    do t <- match lookup f (lit "pyproject.toml" :: dir) with
            | Some (File text) => project_table text
            | Some Dir => Err IOErr
            | None => Ok None
            end;
    do c <- match t with
            | Some c => Ok c
            | None => do v <- parse_version "unknown_version"; Ok (legacy_config name v)
            end;
    match c_name c with
    | Some n => do n <- normalize_name n; Ok (Config (Some n) (c_version c) (c_python c) (c_dynamic c) (c_dependencies c) (c_optional c))
    | None => Err TypeError
    end.
  (** project.py:348-353 and 36-42 *)
  Definition load_project (f : fs) (dir : path) (name : str) : res package :=
    do c <- load_config f dir name;
    match c_name c, c_version c with
    | Some n, Some v => do d <- make_descriptor n v; Ok (Project dir d c)
    | _, _ => Err AssertionError
    end.

  (** project.py:113-114, distribution.py:93-98 *)
  Definition is_compatible (p : package) : bool :=
    match p with
    | Project _ _ c => allows (c_python c) interpreter
    | Wheel file _ => tag_fits (ArtifactModel.tags_of (hd [] file))
    | Sdist _ _ => true
    end.
  (** project.py:101-111 and distribution.py:88-91: [published_metadata] is None for a distribution (package.py:121-128) *)
  Fixpoint applicable (l : list dep) (extras : list str) : res (list dep) :=
    match l with
    | [] => Ok []
    | d :: r => do b <- is_applicable_for as_uri d env extras; do ds <- applicable r extras; Ok (if b then d :: ds else ds)
    end.
  Definition dependencies (p : package) (extras : list str) : res (list dep) :=
    match p with
    | Project dir _ c =>
        do all <- (if existsb (str_eqb (lit "dependencies")) (c_dynamic c) || existsb (str_eqb (lit "optional-dependencies")) (c_dynamic c)
                   then built_dependencies dir
                   else ProjectModel.all_dependencies (c_dependencies c) (c_optional c));
        applicable all extras
    | Wheel _ _ | Sdist _ _ => Err AttributeError
    end.

  (** repository.py:70-90 *)
  Definition filter_prereleases (s : spec) (l : list package) : list package :=
    if allows_pre_or_dev s then l
    else match filter (fun p => negb (is_pre_or_dev_release (version_of p))) l with [] => l | rest => rest end.
  Definition match_with (do_match : dep -> res (list package)) (d : dep) : res (list package) :=
    do l <- do_match d; Ok (filter_prereleases (d_spec d) (filter is_compatible l)).

  (** dependency.py:45-54 *)
  Definition required_url (d : dep) : option str :=
    match d_spec d with Match (VUrl u _ _) true => Some u | _ => None end.

  (** ** [FileRepository] *)
  (** file_repository.py:30-36; [Path(t).name] is the last component *)
  Definition load_package_from_filesystem (f : fs) (t : str) : res (option package) :=
    let place := GitModel.join_path cwd t in
    let name := last (GitModel.components t) [] in
    if is_dir f place then do p <- load_project f place name; Ok (Some p)
    else if has_dist_suffix name then do p <- package_from place name; Ok (Some p)
    else Ok None.
  (** 17-22 *)
  Definition file_do_match (f : fs) (d : dep) : res (list package) :=
    match required_url d with
    | None => Ok []
    | Some u => do p <- load_package_from_filesystem f (without_prefix u "file://"); Ok (match p with Some p => [p] | None => [] end)
    end.
  Definition file_match (f : fs) : dep -> res (list package) := match_with (file_do_match f).

  (** ** [FileSystemRepositoryBuilder] *)
  (** the dictionary is a [defaultdict(list)] *)
  Definition add_package (d : list (str * list package)) (p : package) : list (str * list package) :=
    dict_set (name_of p) (match dict_get (name_of p) d with Some l => l | None => [] end ++ [p]) d.
  (** file_system_repository.py:64-65 *)
  Definition is_distribution (f : fs) (p : path) : bool := negb (is_dir f p) && has_dist_suffix (hd [] p).
  (** 51-54 *)
  Fixpoint add_distributions (f : fs) (dir : path) (names : list str) (d : list (str * list package)) : res (list (str * list package)) :=
    match names with
    | [] => Ok d
    | n :: r =>
        if is_distribution f (n :: dir) then do p <- package_from (n :: dir) n; add_distributions f dir r (add_package d p)
        else add_distributions f dir r d
    end.
  Fixpoint load_projects (f : fs) (dirs : list path) : res (list package) :=
    match dirs with
    | [] => Ok []
    | p :: r => do x <- load_project f p (hd [] p); do xs <- load_projects f r; Ok (x :: xs)
    end.
  (** 36-60; 48: only a [MalformedPackageException] is caught *)
  Definition build_local (f : fs) (p : path) : res (list (str * list package)) :=
    if is_dir f p then
      do d <- (if exists_at f (lit "pyproject-group.toml" :: p)
               then do l <- (do dirs <- group_projects f p; load_projects f dirs); Ok (fold_left add_package l [])
               else match load_project f p (hd [] p) with
                    | Ok x => Ok (add_package [] x)
                    | Err Malformed => Ok []
                    | Err e => Err e
                    end);
      do names <- SharedModel.iterdir f p;
      add_distributions f p names d
    else if is_distribution f p then do x <- package_from p (hd [] p); Ok (add_package [] x)
    else Ok [].
  (** 24-26 *)
  Definition local_do_match (packages : list (str * list package)) (d : dep) : res (list package) :=
    Ok (IndexModel.sorted_by_version version_of
          (filter (fun p => allows (d_spec d) (version_of p)) (match dict_get (d_name d) packages with Some l => l | None => [] end))).
  Definition local_match (packages : list (str * list package)) : dep -> res (list package) := match_with (local_do_match packages).

  (** ** [UrlRepository] *)
  (** url_repository.py:24-28, 31-37: the descriptor, the name of the only artifact and the url *)
  Record url_package := UrlPackage { k_descriptor : descriptor; k_artifact : str; k_url : str }.
  Definition url_do_match (d : dep) : res (list url_package) :=
    match d_spec d with
    | Match (VUrl u repo scheme) true =>
        do x <- make_descriptor (d_name d) (VUrl u repo scheme);
        do p <- url_parse u;
        Ok [UrlPackage x (last (GitModel.components (u_path p)) []) u]
    | _ => Ok []
    end.
  (** standard_package.py:49-91 for the one artifact; url versions are no pre-releases *)
  Definition url_fits (k : url_package) : bool :=
    if ArtifactModel.ends_with (lit ".whl") (k_artifact k) then tag_fits (ArtifactModel.tags_of (k_artifact k)) else true.
  Definition url_match (d : dep) : res (list url_package) := do l <- url_do_match d; Ok (filter url_fits l).
End Local.
