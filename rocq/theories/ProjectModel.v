(** Projects: their dependencies, entry points, build directories and attached environment, and groups of projects.
    Source: pkm/src/pkm/api/projects/pyproject_configuration.py, project.py, project_group.py, utils/entrypoints.py,
    api/distributions/distinfo.py. *)
From Coq Require Import String Ascii List Bool NArith Arith.
From Verif Require Import Base ParserModel FsModel VersionModel SpecifierModel MarkerModel DependencyModel SharedModel.
Import ListNotations.
Open Scope string_scope.
Open Scope nat_scope.
Open Scope list_scope.
Open Scope bool_scope.

(** ** Dependencies: pyproject_configuration.py:192-205 [all_dependencies] *)
(** 197: [extra\s*==\s*('g'|"g")] at the begin of the text.
    Simplification: the name of the group has no characters that are special in a regular expression. *)
Definition quoted_by (q : ascii) (g : str) : str := q :: g ++ [q].
Definition guards (g text : str) : bool :=
  match smatch "extra" text with
  | None => false
  | Some s => match smatch "==" (ws s) with
              | None => false
              | Some s => starts_with (quoted_by squote g) (ws s) || starts_with (quoted_by dquote g) (ws s)
              end
  end.
(** 200: [str.rstrip(';')] *)
Definition rstrip_semi (s : str) : str := rev (snd (span (fun c => Ascii.eqb c ";") (rev s))).
Definition extra_is (g : str) : str := lit "extra==" ++ quoted_by squote g.
(** 199-204: one dependency of the group [g].  A marker object is never falsy. *)
Definition with_marker (d : dep) (m : marker) : dep := Dep (d_name d) (d_spec d) (d_extras d) (Some m).
Definition guard_dep (g : str) (d : dep) : res dep :=
  match d_marker d with
  | None => do m <- parse_marker (extra_is g); Ok (with_marker d m)
  | Some own =>
      if guards g (marker_str own) then Ok d
      else do m <- parse_marker (rstrip_semi (marker_str own) ++ lit ";" ++ extra_is g); Ok (with_marker d m)
  end.
Fixpoint guard_deps (g : str) (l : list dep) : res (list dep) :=
  match l with
  | [] => Ok []
  | d :: r => do d <- guard_dep g d; do r <- guard_deps g r; Ok (d :: r)
  end.
(** 193-205 *)
Fixpoint optional_deps (groups : list (str * list dep)) : res (list dep) :=
  match groups with
  | [] => Ok []
  | (g, l) :: r => do l <- guard_deps g l; do r <- optional_deps r; Ok (l ++ r)
  end.
Definition all_dependencies (deps : list dep) (groups : list (str * list dep)) : res (list dep) :=
  do o <- optional_deps groups; Ok (deps ++ o).

(** ** Build directory: project.py:362-379 [clean_dist] *)
(** 373-379: one round of the loop.  Simplification: removals always succeed. *)
Definition clean_entry (keep_names : list str) (dist : path) (f : fs) (name : str) : fs :=
  if is_dir f (name :: dist)
  then if str_mem name keep_names then f else remove_tree f (name :: dist)
  else remove_path f (name :: dist).
(** 368-379; 371: the versions are compared by their text *)
Definition clean_dist (f : fs) (dist : path) (keep_versions : list version) : res fs :=
  if negb (exists_at f dist) then Ok f
  else do names <- iterdir f dist;
       Ok (fold_left (clean_entry (map version_str keep_versions) dist) names f).

(** ** Attached environment: project.py:207-234 [attached_environment] *)
(** environments_config.py:10-14 *)
Record attached := Attached { at_path : option path; at_zoo : option path }.
(** 213-224.  The configuration object is truthy, also when both of its fields are missing. *)
Definition attached_path (own group : option attached) (project : path) (name : str) : path :=
  let cfg := match own with Some c => c | None => match group with Some c => c | None => Attached None None end end in
  match at_path cfg, at_zoo cfg with
  | None, None => lit ".venv" :: project
  | Some p, _ => p
  | None, Some z => name :: z
  end.
(** environment.py:307-313 [is_venv_path], 348-349 *)
Definition is_venv_path (f : fs) (p : path) : bool :=
  exists_at f (lit "pyvenv.cfg" :: p) &&
  (exists_at f (lit "python" :: lit "bin" :: p) || exists_at f (lit "python.exe" :: lit "Scripts" :: p)).
(** 228-234.  [create] is [EnvironmentBuilder.create_matching] (environment_builder.py:23-37), which fails when no interpreter
    fits.  The file system is kept when there is an error.  [shutil.rmtree] raises for a path that is no directory. *)
Definition attached_environment (create : fs -> path -> res fs) (f : fs) (own group : option attached) (project : path) (name : str)
  : fs * res path :=
  let p := attached_path own group project name in
  if is_venv_path f p then (f, Ok p)
  else if exists_at f p
       then if is_dir f p
            then let f := remove_tree f p in
                 match create f p with Ok f' => (f', Ok p) | Err e => (f, Err e) end
            else (f, Err IOErr)
       else match create f p with Ok f' => (f', Ok p) | Err e => (f, Err e) end.

(** ** Entry points: utils/entrypoints.py *)
(** 18-34 *)
Record oref := ORef { o_module : str; o_object : option str; o_extras : option (list str) }.
Definition oref_str (r : oref) : str :=
  o_module r
  ++ match o_object r with None | Some [] => [] | Some o => lit ":" ++ o end
  ++ match o_extras r with None | Some [] => [] | Some l => lit " [" ++ join (lit ", ") l ++ lit "]" end.
(** [re.split("\s*,\s*", s)]: the pieces between commas, where the blanks around a comma belong to the delimiter.
    The blanks at both ends of the text are gone (59 [ext.strip()]), so every piece is stripped. *)
Definition strip (s : str) : str := rev (snd (span is_space (rev (snd (span is_space s))))).
Definition split_extras (s : str) : list str := map strip (split_on "," s).
(** 13, 51-61.  The groups of the expression are greedy and each of them can be left out, so there is no going back:
    the module is the text before the first colon; the object is all the text up to a bracket, including blanks; the extras are
    what is between the brackets, if there is a closing one. *)
Definition oref_parse (s : str) : oref :=
  let '(m, r) := span (fun c => negb (Ascii.eqb c ":")) s in
  match r with
  | [] => ORef m None None
  | _ :: r =>
      let '(o, r) := span (fun c => negb (Ascii.eqb c "[")) r in
      match r with
      | [] => ORef m (Some o) None
      | _ :: r =>
          let '(x, r) := span (fun c => negb (Ascii.eqb c "]")) (ws r) in
          match r, x with
          | [], _ => ORef m (Some o) None
          | _, [] => ORef m (Some o) None
          | _, _ => ORef m (Some o) (Some (split_extras x))
          end
      end
  end.
(** 64-77 *)
Record entry := Entry { e_group : str; e_name : str; e_ref : oref }.
Definition console : str := "console_scripts".
Definition gui : str := "gui_scripts".
(** pyproject_configuration.py:57-58 *)
Definition entries_of (group : str) (t : list (str * str)) : list entry := map (fun e => Entry group (fst e) (oref_parse (snd e))) t.
(** 164-176.  168: [self.entry_points] is the property that is just computed: the recursion never ends. [fuel] is the
    recursion limit of python. *)
Definition add_entries (g : str) (l : list entry) (d : list (str * list entry)) : list (str * list entry) :=
  dict_set g (opt_or (dict_get g d) [] ++ l) d.
Fixpoint entry_points (fuel : nat) (tables : list (str * list (str * str))) (scripts gui_scripts : list (str * str))
  : res (list (str * list entry)) :=
  match fuel with
  | 0 => Err RecursionErr
  | S fuel =>
      do result <- match tables with
                   | [] => Ok []
                   | _ => do _ <- entry_points fuel tables scripts gui_scripts; Err ValueError
                   end;
      let result := match scripts with [] => result | _ => add_entries console (entries_of console scripts) result end in
      let result := match gui_scripts with [] => result | _ => add_entries gui (entries_of console gui_scripts) result end in
      Ok result
  end.
(** 178-182 *)
Definition all_entrypoints (fuel : nat) (tables : list (str * list (str * str))) (scripts gui_scripts : list (str * str)) : res (list entry) :=
  do d <- entry_points fuel tables scripts gui_scripts; Ok (concat (map snd d)).
(** distinfo.py:225-230: the file is written as groups of name and reference; utils/iterators.py:12-26 [groupby] *)
Definition add_entry (d : list (str * list (str * str))) (e : entry) : list (str * list (str * str)) :=
  dict_set (e_group e) (dict_set (e_name e) (oref_str (e_ref e)) (opt_or (dict_get (e_group e) d) [])) d.
Definition entries_data (l : list entry) : list (str * list (str * str)) := fold_left add_entry l [].
(** 215-223 *)
Definition data_entries (d : list (str * list (str * str))) : list entry := concat (map (fun g => entries_of (fst g) (snd g)) d).

(** ** Groups of projects: project_group.py *)
(** a configuration file pyproject-group.toml: the resolved children (172-176) and the configured parent *)
Record pgroup := PGroup { g_children : list path; g_parent : option path }.
(** what is on the disk: the group files by their directory (a missing one reads as an empty configuration,
    configclass.py:242-244) and the directories that have a pyproject.toml *)
Record disk := Disk { d_groups : list (path * pgroup); d_projects : list path }.
Fixpoint group_at (l : list (path * pgroup)) (p : path) : option pgroup :=
  match l with
  | [] => None
  | (q, g) :: r => if path_eqb q p then Some g else group_at r p
  end.
Definition load_group (k : disk) (p : path) : pgroup := match group_at (d_groups k) p with Some g => g | None => PGroup [] None end.
(** 140-147 [_find_group]: [path.parents] are the directories above, from the inside out *)
Fixpoint parents (p : path) : list path := match p with [] => [] | _ :: r => r :: parents r end.
Fixpoint find_in (k : disk) (p : path) (dirs : list path) : option path :=
  match dirs with
  | [] => None
  | d :: r =>
      match group_at (d_groups k) d with
      | Some g => if existsb (path_eqb p) (g_children g) then Some d else find_in k p r
      | None => find_in k p r
      end
  end.
Definition find_group (k : disk) (p : path) : option path := find_in k p (parents p).
(** 55-65 [parent] (the path of the file that is configured is seen as the path of its directory) *)
Definition group_parent (k : disk) (p : path) : option path :=
  match g_parent (load_group k p) with Some q => Some q | None => find_group k p end.
(** 67-71 [root] *)
Fixpoint group_root (fuel : nat) (k : disk) (p : path) : res (option path) :=
  match fuel with
  | 0 => Err RecursionErr
  | S fuel => match group_parent k p with
              | Some q => group_root fuel k q
              | None => Ok None
              end
  end.
(** 73-86 [children]; line 82 looks at the method [exists] and does not call it *)
Inductive child := CProject (p : path) | CGroup (p : path).
Definition child_of (k : disk) (p : path) : child := if existsb (path_eqb p) (d_projects k) then CProject p else CGroup p.
Definition group_children (k : disk) (p : path) : list child := map (child_of k) (g_children (load_group k p)).
(** 88-102 [project_children_recursive], 129-138 [build_all]: the projects in the order of their builds *)
Fixpoint projects_below (fuel : nat) (k : disk) (p : path) : res (list path) :=
  match fuel with
  | 0 => Err RecursionErr
  | S fuel =>
      fold_left (fun acc c => do l <- acc;
                              match c with
                              | CProject q => Ok (l ++ [q])
                              | CGroup q => do r <- projects_below fuel k q; Ok (l ++ r)
                              end) (group_children k p) (Ok [])
  end.
(** 104-112 [add] and 114-127 [remove] of a path: the entries as they are written in the file, where [resolve] is
    [self.path.parent.joinpath(it).resolve()] and [from_cwd] is [project.resolve()], which starts from the current directory *)
Definition group_add {P} (entries : list P) (p : P) : list P := entries ++ [p].
Definition group_remove {P} (resolve from_cwd : P -> path) (entries : list P) (p : P) : list P :=
  map fst (filter (fun e => negb (path_eqb (snd e) (from_cwd p))) (combine entries (map resolve entries))).
