(** Model of the packages of a conda channel: repositories/conda-pkm-repo/src/conda_pkm_repo/conda_channel_subdir.py and
    conda_repo.py.

    Simplifications: an entry of the channel index has the keys that are read of it ([name], [version], [build],
    [build_number], [depends]); its build number is natural; the index of a subdirectory is given by [fetch] (it is
    downloaded once and kept, conda_repo.py 43-48); [OperatingPlatform] is given by the values it is made of. *)
From Coq Require Import String Ascii List Bool NArith Arith.
From Verif Require Import Base NamesModel VersionModel VersionParse SpecifierModel SpecParse TagsModel CollectionModel IndexModel LocalModel.
Import ListNotations.
Open Scope string_scope.
Open Scope nat_scope.
Open Scope list_scope.
Open Scope bool_scope.

(** environment.py 353-359, as far as it is read; the two names are in lower case (135, 137) *)
Record platform := Platform { pl_os : str; pl_machine : str; pl_bits : N }.
(** environment.py 364-365 *)
Definition has_x86_cpu (p : platform) : bool := str_mem (pl_machine p) [lit "i386"; lit "amd64"; lit "x86"; lit "x86_64"].
(** environment.py 367-368 *)
Definition has_arm_cpu (p : platform) : bool := contains (lit "armv71") (pl_machine p) || contains (lit "aarch64") (pl_machine p).
(** conda_channel_subdir.py 26-35 *)
Definition subdir_by_platform : list (str * str) :=
  [(lit "linux-64-x86", lit "linux-64"); (lit "linux-32-x86", lit "linux-32"); (lit "linux-64-arm", lit "linux-aarch64");
   (lit "darwin-64-arm", lit "osx-arm64"); (lit "darwin-64-x86", lit "osx-64"); (lit "windows-64-x86", lit "win-64");
   (lit "windows-32-x86", lit "win-32"); (lit "any", lit "noarch")].
(** 37-46 *)
Definition subdir_to_os_ctag : list (str * str) :=
  [(lit "linux-64", lit "linux_x86_64"); (lit "linux-32", lit "linux_i386"); (lit "linux-aarch64", lit "manylinux2014_aarch64");
   (lit "osx-arm64", lit "macosx_11_0_arm64"); (lit "osx-64", lit "macosx_10_14_x86_64"); (lit "win-64", lit "win_amd64");
   (lit "win-32", lit "win32"); (lit "any", lit "any")].
(** 51-67 *)
Definition subdir_of (p : platform) : res str :=
  do cpu <- (if has_x86_cpu p then Ok (lit "x86") else if has_arm_cpu p then Ok (lit "arm") else Err UnsupportedOperation);
  match dict_get (pl_os p ++ lit "-" ++ show_N (pl_bits p) ++ lit "-" ++ cpu) subdir_by_platform with
  | Some s => Ok s
  | None => Err UnsupportedOperation
  end.

(** an entry of the index of a subdirectory *)
Record info := Info { i_name : str; i_version : str; i_build : str; i_number : N; i_depends : list str }.
Definition artifact := (str * info)%type.
(** what is read of a repodata.json: the table [packages]; [r_conda] is the table [packages.conda] beside it *)
Record repodata := Repodata { r_packages : list artifact; r_conda : list artifact }.
(** 196-201 [CondaSubdirPackage] *)
Record cpackage := CPackage { cp_name : str; cp_version : str; cp_artifacts : list artifact }.

Definition key_eqb (a b : str * str) : bool := str_eqb (fst a) (fst b) && str_eqb (snd a) (snd b).
(** 77-80 (a [defaultdict] fills like [groupby]) and 82-83 *)
Definition channel_packages (r : repodata) : list cpackage :=
  map (fun g => CPackage (fst (fst g)) (snd (fst g)) (snd g))
      (groupby key_eqb (r_packages r) (fun a => (i_name (snd a), i_version (snd a)))).
(** 85 and 104-105 [general_package] *)
Definition general_package (r : repodata) (name : str) : list cpackage :=
  filter (fun p => str_eqb (cp_name p) name) (channel_packages r).
(** 107-112 [single_artifact_package] *)
Definition single_artifact_package (r : repodata) (name : str) : option cpackage :=
  match dict_get name (r_packages r) with
  | Some i => Some (CPackage (i_name i) (i_version i) [(name, i)])
  | None => None
  end.
(** 216-218 [descriptor]; package.py [version] *)
Definition package_version (p : cpackage) : res version :=
  do v <- parse_version (cp_version p); do d <- make_descriptor (cp_name p) v; Ok v.

(** 97: [re.escape(build).replace("\\*", ".*")], applied with [match], which asks for no end *)
Fixpoint build_match (p : str) (s : str) {struct p} : bool :=
  match p with
  | [] => true
  | c :: p' =>
      if Ascii.eqb c "*"
      then (fix any (s : str) : bool := build_match p' s || match s with [] => false | _ :: s' => any s' end) s
      else match s with [] => false | d :: s' => Ascii.eqb c d && build_match p' s' end
  end.

Section Channel.
  Variable as_uri : str -> str.

  (** packages that the condition [f] of their version keeps; reading the version may fail *)
  Fixpoint filter_version (f : version -> bool) (l : list cpackage) : res (list (version * cpackage)) :=
    match l with
    | [] => Ok []
    | p :: r => do v <- package_version p; do rest <- filter_version f r; Ok (if f v then (v, p) :: rest else rest)
    end.
  (** 94-102 *)
  Definition match_artifacts_by_build (r : repodata) (package version build : str) : res (list artifact) :=
    match build with
    | [] => Err AssertionError
    | _ =>
        do s <- (if str_eqb version "*" then Ok AllowAll else parse_specifier as_uri (lit "==" ++ version));
        do allowed <- filter_version (allows s) (general_package r package);
        Ok (filter (fun a => build_match build (i_build (snd a))) (flat_map (fun p => cp_artifacts (snd p)) allowed))
    end.
  (** 115-122; [c in "><=!~"] *)
  Definition parse_conda_spec (text : str) : res spec :=
    match text with
    | [] => Err IndexError
    | c :: _ =>
        if existsb (Ascii.eqb c) (lit "><=!~") then parse_specifier as_uri text
        else if str_eqb text "*" then Ok AllowAll
        else if ends_with ".*" text then parse_specifier as_uri (lit "~=" ++ firstn (length text - 2) text ++ lit ".0")
        else do v <- parse_version text; Ok (Match v true)
    end.
  Fixpoint all_ok {A B} (f : A -> res B) (l : list A) : res (list B) :=
    match l with [] => Ok [] | x :: r => do y <- f x; do rest <- all_ok f r; Ok (y :: rest) end.
  (** 151-153 *)
  Definition artifact_match (channel subdir : str) (a : artifact) : res spec :=
    do v <- parse_url_version (lit "conda+" ++ channel ++ lit "/" ++ subdir ++ lit "/" ++ fst a); Ok (Match v true).
  (** 139-162 [_parse_dependency] *)
  Definition parse_conda_dependency (channel subdir : str) (r : repodata) (text : str) : res (str * spec) :=
    match split_on " " text with
    | [name] => Ok (name, AllowAll)
    | [name; versions] =>
        do options <- all_ok parse_conda_spec (split_on "|" versions);
        match options with
        | [s] => Ok (name, s)
        | _ => do u <- mk_union options; Ok (name, u)
        end
    | name :: version :: build :: _ =>
        do artifacts <- match_artifacts_by_build r name version build;
        do matches <- all_ok (artifact_match channel subdir) artifacts;
        match matches with
        | [] => Ok (name, RestrictAll)
        | [s] => Ok (name, s)
        | _ => do u <- mk_union matches; Ok (name, u)
        end
    | [] => Err IndexError
    end.
  (** 134-137 [_all_dependencies] *)
  Definition all_dependencies (channel subdir : str) (r : repodata) (a : artifact) : res (list (str * spec)) :=
    all_ok (parse_conda_dependency channel subdir r) (i_depends (snd a)).
  (** 164-167; the dependencies have no markers *)
  Definition dependencies (channel subdir : str) (r : repodata) (a : artifact) : res (list (str * spec)) :=
    do l <- all_dependencies channel subdir r a; Ok (filter (fun d => negb (str_eqb (fst d) "python")) l).
  (** 169-174 [required_python] *)
  Definition required_python (channel subdir : str) (r : repodata) (a : artifact) : res spec :=
    do l <- all_dependencies channel subdir r a;
    Ok (match find (fun d => str_eqb (fst d) "python") l with Some d => snd d | None => AllowAll end).
  (** 180-188: the python tag of a range; [rp.min] may be None *)
  Definition python_tag (s : spec) : res str :=
    match s with
    | AllowAll => Ok (lit "py2.py3")
    | Range (Some m) _ i _ =>
        do rel <- (if i then Ok (release m) else bump_last (release m));
        Ok (lit "py" ++ concat (map show_N (firstn 2 rel)))
    | Range None _ i _ => Err (if i then AttributeError else TypeError)
    | _ => Err UnsupportedOperation
    end.
  (** 176-190 [compatibility_tag] *)
  Definition compatibility_tag (channel subdir : str) (r : repodata) (a : artifact) : res str :=
    do s <- required_python channel subdir r a;
    do py <- python_tag s;
    match dict_get subdir subdir_to_os_ctag with
    | Some os => Ok (py ++ lit "-none-" ++ os)
    | None => Err KeyError
    end.
  (** 204-209: the candidates with their scores, in order *)
  Fixpoint scored (m : machine) (channel subdir : str) (r : repodata) (l : list artifact) : res (list (artifact * (score * N))) :=
    match l with
    | [] => Ok []
    | a :: rest =>
        do tag <- compatibility_tag channel subdir r a;
        match compatibility_score m tag with
        | None => scored m channel subdir r rest
        | Some s =>
            do ds <- dependencies channel subdir r a;
            do others <- scored m channel subdir r rest;
            Ok (if forallb (fun d => negb (is_restrict (snd d))) ds then (a, (s, i_number (snd a))) :: others else others)
        end
    end.
  (** the order of pairs of a score and a build number *)
  Definition pair_lt (x y : score * N) : bool :=
    score_ltb (fst x) (fst y) || (list_eqb frac_eqb (fst x) (fst y) && (snd x <? snd y)%N).
  (** 214: [max] keeps the first of equal maxima *)
  Fixpoint max_from (best : artifact * (score * N)) (l : list (artifact * (score * N))) : artifact * (score * N) :=
    match l with [] => best | x :: r => max_from (if pair_lt (snd best) (snd x) then x else best) r end.
  (** 203-214 [_best_artifact_for] *)
  Definition best_artifact_for (m : machine) (channel subdir : str) (r : repodata) (p : cpackage) : res (option artifact) :=
    do l <- scored m channel subdir r (cp_artifacts p);
    Ok (match l with [] => None | x :: rest => Some (fst (max_from x rest)) end).
  (** 220-225 *)
  Definition package_dependencies (m : machine) (channel subdir : str) (r : repodata) (p : cpackage) : res (list (str * spec)) :=
    do a <- best_artifact_for m channel subdir r p;
    match a with None => Err UnsupportedOperation | Some a => dependencies channel subdir r a end.
  (** 227-228 *)
  Definition is_compatible_with (m : machine) (channel subdir : str) (r : repodata) (p : cpackage) : res bool :=
    do a <- best_artifact_for m channel subdir r p; Ok (is_some a).
  (** 236: where [install_to] downloads from *)
  Definition artifact_url (channel subdir : str) (a : artifact) : str := channel ++ lit "/" ++ subdir ++ lit "/" ++ fst a.

  (** conda_repo.py 54-55; [rstrip] *)
  Definition normalize_channel (channel : str) : str := lower (rev (lstrip "/" (rev channel))).
  (** dependency.py 45-54 *)
  Definition required_url (s : spec) : option version :=
    match s with Match (VUrl u p sc) true => Some (VUrl u p sc) | _ => None end.
  Variable fetch : str -> str -> res repodata.
  (** the packages that are found, each with its version, its subdirectory and the index it comes from *)
  Definition found := (version * (str * repodata * cpackage))%type.
  (** conda_repo.py 25-41 [_do_match]; the version of a package that is found by its url is read here already, in the code when
      it is asked for *)
  Definition conda_do_match (channel : str) (pl : platform) (name : str) (s : spec) : res (list found) :=
    match required_url s with
    | Some (VUrl u p sc) =>
        if negb (str_eqb (url_protocol p sc) "conda") then Err AssertionError else
        if starts_with (channel ++ lit "/") (lower u) then
          match split_on "/" (skipn (length (channel ++ lit "/")) u) with
          | [subdir; a] =>
              do r <- fetch channel subdir;
              match single_artifact_package r a with
              | Some p => do v <- package_version p; Ok [(v, (subdir, r, p))]
              | None => Ok []
              end
          | _ => Err ValueError
          end
        else Ok []
    | _ =>
        do subdir <- subdir_of pl;
        do r <- fetch channel subdir;
        do l <- filter_version (allows s) (general_package r name);
        Ok (map (fun x => (fst x, (subdir, r, snd x))) (sorted_by_version fst l))
    end.
  Fixpoint filter_compatible (m : machine) (channel : str) (l : list found) : res (list found) :=
    match l with
    | [] => Ok []
    | (v, (subdir, r, p)) :: rest =>
        do b <- is_compatible_with m channel subdir r p;
        do others <- filter_compatible m channel rest;
        Ok (if b then (v, (subdir, r, p)) :: others else others)
    end.
  (** repository.py 73-89 [match] *)
  Definition conda_match (m : machine) (channel : str) (pl : platform) (name : str) (s : spec) : res (list found) :=
    do l <- conda_do_match channel pl name s;
    do l <- filter_compatible m channel l;
    Ok (if allows_pre_or_dev s then l
        else match filter (fun x => negb (is_pre_or_dev_release (fst x))) l with [] => l | rest => rest end).
End Channel.
