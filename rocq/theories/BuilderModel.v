(** Building source distributions and wheels of a project: pkm/src/pkm/build/pkm_builders.py,
    pkm/src/pkm/api/projects/project.py:376-392, pyproject_configuration.py:93-116, 210-249,
    pkm/src/pkm/api/distributions/distinfo.py:276-324, wheel_distribution.py:70-82, 176-184. *)
From Coq Require Import String Ascii List Bool NArith Arith.
From Verif Require Import Base ParserModel FsModel SharedModel ArtifactModel RecordFileModel GitModel NamesModel VersionModel SpecifierModel.
Import ListNotations.
Open Scope string_scope.
Open Scope nat_scope.
Open Scope list_scope.
Open Scope bool_scope.

(** a text, or the name of a file *)
Inductive text_or_file := TText (s : str) | TFile (s : str).
(** a value of pyproject.toml, as far as the fields of texts tell them apart *)
Inductive raw_value := RText (s : str) | RTable (l : list (str * str)) | ROther.
(** pyproject_configuration.py:93-116.  [allow]: the field may be a plain text (152, 154: readme may, license may not) *)
Definition parse_text_or_file (allow : bool) (v : raw_value) : res text_or_file :=
  match v with
  | RText s => if allow then Ok (TText s) else Err ValueError
  | RTable l =>
      match dict_get (lit "text") l with
      | Some t => Ok (TText t)
      | None => match dict_get (lit "file") l with Some n => Ok (TFile n) | None => Err KeyError end
      end
  | ROther => Err ValueError
  end.
Definition unparse_text_or_file (allow : bool) (v : text_or_file) : raw_value :=
  match v with
  | TFile n => RTable [(lit "file", n)]
  | TText t => if allow then RText t else RTable [(lit "text", t)]
  end.
(** what is read of a project; [p_version]: [str(version)] *)
Record project := Project { p_name : str; p_version : str; p_packages : option (list str);
                            p_readme : option text_or_file; p_license : option text_or_file }.
(** [Path.exists] and [read_text]; a relative name is relative to the working directory [cwd] *)
Definition read_text (f : fs) (cwd : path) (name : str) : res str :=
  match lookup f (join_path cwd name) with Some (File t) => Ok t | _ => Err IOErr end.
(** pyproject_configuration.py:210-220.  [not self.readme]: an empty text counts as none; a [Path] is never false.
    Simplification: a readme that is a directory raises in the code. *)
Definition readme_content (f : fs) (cwd : path) (p : project) : res str :=
  match p_readme p with
  | None => Ok []
  | Some (TText t) => Ok t
  | Some (TFile name) => if exists_at f (join_path cwd name) then read_text f cwd name else Ok []
  end.
(** pyproject_configuration.py:242-249 *)
Definition license_content (f : fs) (cwd : path) (p : project) : res str :=
  match p_license p with
  | None => Ok []
  | Some (TText t) => Ok t
  | Some (TFile name) => read_text f cwd name
  end.

(** project.py:377-389 [ProjectDirectories.create]: the directories of the packages.  [Path.name] of a listed package that ends in
    ".." is not modelled: the system's directory is taken. *)
Definition src_packages (f : fs) (root : path) (packages : option (list str)) : res (list path) :=
  match packages with
  | Some (p :: r) => Ok (map (join_path root) (p :: r))
  | _ =>
      let src := if exists_at f (lit "src" :: root) then lit "src" :: root else root in
      do names <- iterdir f src;
      Ok (filter (is_dir f) (map (fun n => n :: src) names))
  end.
(** [mkdir(parents=True, exist_ok=True)].  Simplification: no file is in the way. *)
Fixpoint mkdirs (f : fs) (p : path) : fs :=
  match p with
  | [] => f
  | _ :: q => let f := mkdirs f q in if exists_at f p then f else write f p Dir
  end.
(** project.py:391-392: the file system after [create] *)
Definition with_etc (f : fs) (root : path) : fs := mkdirs f (lit "pkm" :: lit "etc" :: root).

Definition pycache : str := lit "__pycache__".
(** [ignore_patterns('__pycache__')] of [copytree]: the entries below a directory, without those of this name *)
Definition pruned (t : fs) : fs := keep (fun q => negb (existsb (str_eqb pycache) q)) t.
(** pkm_builders.py:148-164: what is added to the tree [t] at the directory [dst] in it.  [copytree] refuses a target that exists, and
    a source that is a file. *)
Fixpoint copy_packages (f : fs) (dst : path) (t : fs) (dirs : list path) : res fs :=
  match dirs with
  | [] => Ok t
  | d :: r =>
      if is_dir f d then
        if exists_at t (hd [] d :: dst) then Err IOErr
        else copy_packages f dst (graft (mkdirs t dst) (hd [] d :: dst) (pruned (tree_at f d))) r
      else Err IOErr
  end.
Definition copy_sources (f : fs) (root : path) (p : project) (dst : path) (t : fs) : res fs :=
  do dirs <- src_packages f root (p_packages p);
  copy_packages f dst t dirs.

(** 101-117: the prefix of names.  103: [project_cfg.name] *)
Definition file_prefix (p : project) : str := map (fun c => if Ascii.eqb c "-" then "_"%char else c) (p_name p) ++ lit "-" ++ p_version p.
Definition dist_info_name (p : project) : str := file_prefix p ++ lit ".dist-info".
Definition sdist_stem (p : project) : str := file_prefix p.

Section Builder.
  (** [PackageMetadata.from_project_config(..).save]: the text of METADATA, of the readme and the license; see MetadataModel.v *)
  Variable metadata : project -> str -> str -> res str.
  (** the text of entry_points.txt; see ProjectModel.v *)
  Variable entry_points : project -> res str.
  (** [bc.pyproject.save]: the text of pyproject.toml *)
  Variable pyproject : project -> str.
  (** the text of WHEEL *)
  Definition wheel_text : str := write_lines [(lit "Wheel-Version", lit "1.0"); (lit "Generator", lit "pkm"); (lit "Root-Is-Purelib", lit "true")].

  (** 127-146: the files of a dist-info directory *)
  Definition dist_info_files (f : fs) (cwd : path) (p : project) : res fs :=
    do readme <- readme_content f cwd p;
    do license <- license_content f cwd p;
    do meta <- metadata p readme license;
    do entries <- entry_points p;
    Ok [([], Dir); ([lit "METADATA"], File meta); ([lit "LICENSE"], File license); ([lit "WHEEL"], File wheel_text); ([lit "entry_points.txt"], File entries)].

  (** 22-49: the files of the archive; the file system afterwards has the directory of the results and etc/pkm *)
  Definition sdist_tree (f : fs) (cwd root : path) (p : project) : res fs :=
    do info <- dist_info_files f cwd p;
    let base := [([], Dir); ([lit "PKG-INFO"], match lookup info [lit "METADATA"] with Some n => n | None => Dir end); ([lit "pyproject.toml"], File (pyproject p))] in
    match p_packages p with
    | Some (_ :: _) => copy_sources f root p [] base
    | _ => copy_sources f root p [lit "src"] base
    end.
  (** 31-32: [target_dir] is [None] *)
  Definition build_sdist (f : fs) (cwd root : path) (p : project) : fs * res fs :=
    let f := mkdirs (with_etc f root) (p_version p :: lit "dist" :: root) in
    (f, sdist_tree f cwd root p).

  (** ** Wheels *)
  Variable digest : str -> str.
  Definition rel_text (q : path) : str := join "/" (rev q).
  (** distinfo.py:276-324: a record for every file *)
  Definition sign_tree (t : fs) : list record :=
    flat_map (fun e => match snd e with
                       | File c => [Rec (Some (rel_text (fst e))) (Some (Sig (lit "sha256") (digest c))) (Some (N.of_nat (length c)))]
                       | Dir => []
                       end) t.
  (** 75-92: the tree that is packed *)
  Definition wheel_tree (f : fs) (cwd root : path) (p : project) : res fs :=
    let name := dist_info_name p in
    do info <- dist_info_files f cwd p;
    do t <- copy_sources f root p [] (graft [([], Dir)] [name] info);
    let (_, text) := save_records (sign_tree t) in
    Ok (write t [lit "RECORD"; name] (File text)).
  (** 52-93 with [target_dir = None]: [project.directories] (project.py:147-152) creates etc/pkm first.  [pack]: the bytes of the archive,
      [fname]: its name.  The file system afterwards, and what was packed. *)
  Definition build_wheel (pack : fs -> str) (fname : str) (f : fs) (cwd root : path) (p : project) : res (fs * fs) :=
    let f := with_etc f root in
    do t <- wheel_tree f cwd root p;
    let dist := p_version p :: lit "dist" :: root in
    let f := mkdirs f dist in
    if is_dir f (fname :: dist) then Err IOErr else Ok (write f (fname :: dist) (File (pack t)), t).
  (** the same for [editable]: a link to the directories above the packages (152-157); [links]: the text of the link file *)
  Definition editable_tree (links : list path -> str) (f : fs) (cwd root : path) (p : project) : res fs :=
    let name := dist_info_name p in
    do info <- dist_info_files f cwd p;
    do dirs <- src_packages f root (p_packages p);
    let t := write (graft [([], Dir)] [name] info) [file_prefix p ++ lit ".pth"] (File (links (map (@tl str) dirs))) in
    let (_, text) := save_records (sign_tree t) in
    Ok (write t [lit "RECORD"; name] (File text)).

  (** ** Opening a wheel *)
  (** wheel_distribution.py:176-184 *)
  Definition find_dist_info (t : fs) : res str :=
    match filter (ends_with ".dist-info") (children t []) with
    | [name] => Ok name
    | _ => Err IOErr
    end.
  (** the wheel of ArtifactModel.v that a tree holds *)
  Definition open_wheel (t : fs) : res wheel :=
    do name <- find_dist_info t;
    do rs <- match lookup t [lit "RECORD"; name] with
             | Some (File text) => do l <- load_records text; Ok (Some (flat_map (fun r => match rec_file r with Some n => [(n, rec_hash r)] | None => [] end) l))
             | _ => Ok None
             end;
    Ok (Wheel (flat_map (fun e => match snd e with File c => [(rel_text (fst e), c)] | Dir => [] end) t) name rs).
End Builder.

(** ** The name of a wheel *)
(** wheel_distribution.py:70-82; [current]: the first number of the running interpreter's version *)
Definition first_two (r : list N) : str := concat (map show_N (firstn 2 r)).
Definition python_tag (current : N) (requires : spec) : res str :=
  match requires with
  | Range (Some v) _ _ _ => Ok (lit "py" ++ first_two (release v))
  | Range None _ _ _ => Err AttributeError
  | _ => Ok (lit "py" ++ first_two [current])
  end.
Definition wheel_file_name (current : N) (name version : str) (requires : spec) : res str :=
  do tag <- python_tag current requires;
  do src <- normalize_src_package_name name;
  Ok (src ++ lit "-" ++ version ++ lit "-" ++ tag ++ lit "-none-any.whl").
