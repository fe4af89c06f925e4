(** Installing an extracted wheel: pkm/src/pkm/api/distributions/wheel_distribution.py:84-220, with
    pkm/src/pkm/launchers/executables.py, pkm/src/pkm/utils/entrypoints.py and pkm/src/pkm/api/distributions/distinfo.py.
    The copy transaction is that of CopyTxModel.v, the check of the hashes that of ArtifactModel.v and the RECORD that of
    RecordFileModel.v. *)
From Coq Require Import String Ascii List Bool NArith Arith.
From Verif Require Import Base ParserModel FsModel FilesModel CopyTxModel VersionModel VersionParse ArtifactModel RecordFileModel InstallModel.
Import ListNotations.
Open Scope string_scope.
Open Scope nat_scope.
Open Scope list_scope.
Open Scope bool_scope.

(** ** Where files go *)
(** package_installation.py:35-45 [PackageInstallationTarget]; [t_interpreter]: [env.interpreter_path].
    Simplification: no entry is the empty string, so that the alternative of wheel_distribution.py:112 is not taken. *)
Record target := Target { t_interpreter : str; t_stdlib : path; t_platstdlib : path; t_platinclude : path; t_purelib : path;
                          t_platlib : path; t_include : path; t_data : path; t_scripts : path }.
(** [getattr(target, name)], then [Path(…)] of it: the attributes that are no strings give a TypeError.
    Simplification: the attributes every object has are not told apart from missing ones. *)
Definition get_place (t : target) (name : str) : res path :=
  if str_eqb name "stdlib" then Ok (t_stdlib t) else if str_eqb name "platstdlib" then Ok (t_platstdlib t)
  else if str_eqb name "platinclude" then Ok (t_platinclude t) else if str_eqb name "purelib" then Ok (t_purelib t)
  else if str_eqb name "platlib" then Ok (t_platlib t) else if str_eqb name "include" then Ok (t_include t)
  else if str_eqb name "data" then Ok (t_data t) else if str_eqb name "scripts" then Ok (t_scripts t)
  else if existsb (str_eqb name) [lit "env"; lit "site_packages"; lit "package_containers"; lit "reload"; lit "uninstall"; lit "install"; lit "force_remove"; lit "plan_installation"]
  then Err TypeError
  else Err AttributeError.

(** ** The extracted wheel: what the iteration of the directory yields, in that order *)
Definition content := list (str * tree).
(** wheel_distribution.py:182-189 [_find_dist_info] with distinfo.py:161-176 [DistInfo.load] *)
Definition find_dist_info (c : content) : res (str * content) :=
  match filter (fun e => ends_with ".dist-info" (fst e)) c with
  | [(name, TDir cs)] => if str_eqb name ".dist-info" then Err ValueError else Ok (name, cs)
  | [(_, TFile _)] => Err ValueError
  | _ => Err IOErr
  end.
(** the text of a file, [None] if there is none; a directory cannot be read *)
Definition text_of (name : str) (c : content) : res (option str) :=
  match dict_get name c with
  | None => Ok None
  | Some (TFile s) => Ok (Some s)
  | Some (TDir _) => Err IOErr
  end.
(** distinfo.py:233-252 [WheelFileConfiguration] with configfiles.py:64-87, [load] and [validate_supported_version]:
    whether the root is purelib *)
Definition wheel_config (text : option str) : res bool :=
  do fields <- match text with Some t => read_lines t | None => Ok [] end;
  do version <- match dict_get (lit "Wheel-Version") fields with
                | Some v => match parse_version v with Ok v => Ok v | Err _ => Err ValueError end
                | None => Ok (VStd (SV [1%N; 0%N] None None None None None))
                end;
  let purelib := match dict_get (lit "Root-Is-Purelib") fields with Some b => str_eqb b "true" | None => true end in
  match version with
  | VStd v =>
      match release v with
      | [] => Err IndexError
      | major :: rest =>
          if negb (major =? 1)%N then Err UnsupportedOperation
          else match rest with [] => Err IndexError | _ :: _ => Ok purelib end
      end
  | _ => Err UnsupportedOperation
  end.
(** 192-195 [_remove_empty_directories]: the directories that are empty when it starts, not those that become empty *)
Fixpoint prune (t : tree) : tree :=
  match t with
  | TFile s => TFile s
  | TDir cs =>
      TDir ((fix go (l : list (str * tree)) : list (str * tree) :=
               match l with
               | [] => []
               | (n, TDir []) :: r => go r
               | (n, c) :: r => (n, prune c) :: go r
               end) cs)
  end.
Definition prune_content (c : content) : content := match prune (TDir c) with TDir cs => cs | TFile _ => [] end.
(** the files below a directory with their paths below it, innermost name first *)
Fixpoint tree_files (at_ : path) (t : tree) : list (path * str) :=
  match t with
  | TFile s => [(at_, s)]
  | TDir cs => (fix go (l : list (str * tree)) : list (path * str) :=
                  match l with [] => [] | (n, c) :: r => tree_files (n :: at_) c ++ go r end) cs
  end.
(** [str] of a relative path *)
Definition relative_str (p : path) : str := join "/" (rev p).
(** the records that name a file; others are under the key None *)
Definition named_records (l : list record) : list (str * option signature) :=
  flat_map (fun r => match rec_file r with Some f => [(f, rec_hash r)] | None => [] end) l.

(** ** Scripts *)
(** executables.py:17-38 [patch_shabang_for_interpreter], on a system with \n *)
Definition first_line (s : str) : str * str :=
  match span (fun c => negb (Ascii.eqb c lf)) s with
  | (l, c :: rest) => (l ++ [c], rest)
  | (l, []) => (l, [])
  end.
Definition patch_script (interpreter : str) (s : str) : str :=
  let (line, rest) := first_line s in
  (if starts_with "#!python" line
   then lit "#!" ++ interpreter ++ (if starts_with "#!pythonw" line then lit "w" else []) ++ [lf]
   else line) ++ rest.
(** only the files directly in the directory: files.py:157 does not pass [file_copy] on *)
Definition patch_top (interpreter : str) (c : content) : content :=
  map (fun e => match snd e with TFile s => (fst e, TFile (patch_script interpreter s)) | TDir _ => e end) c.
(** entrypoints.py:14, 51-60 [ObjectReference.parse]: the module and the object.  The expression matches every text; what
    follows is ignored.  The extras are not used here. *)
Record reference := Ref { o_module : str; o_object : option str }.
Definition parse_reference (s : str) : reference :=
  match span (fun c => negb (Ascii.eqb c ":")) s with
  | (m, []) => Ref m None
  | (m, _ :: rest) => Ref m (Some (fst (span (fun c => negb (Ascii.eqb c "[")) rest)))
  end.
(** 43-49 [execution_script_snippet] *)
Definition snippet (r : reference) : res str :=
  match o_object r with
  | None | Some [] => Err UnsupportedOperation
  | Some o => Ok (lit "import sys;import " ++ o_module r ++ lit ";sys.exit(" ++ o_module r ++ lit "." ++ o ++ lit "())")
  end.
(** 63-85 [EntryPoint] and distinfo.py:215-223: the sections of entry_points.txt with their values *)
Record entry := Entry { e_group : str; e_name : str; e_ref : reference }.
Definition entries_of (sections : list (str * list (str * str))) : list entry :=
  flat_map (fun g => map (fun e => Entry (fst g) (fst e) (parse_reference (snd e))) (snd g)) sections.
Definition is_script (e : entry) : bool := str_eqb (e_group e) "console_scripts" || str_eqb (e_group e) "gui_scripts".

(** ** The steps of the transaction *)
(** an operation of the transaction, or an exception *)
Inductive action := Do (o : tx_op) | Stop (e : exn).
Definition run_actions (b : nat) (t : tx) (l : list action) : outcome :=
  fold_left (fun o a => and_then o (fun b t => match a with Do o => tx_step None b t o | Stop _ => Raised t end)) l (Go b t).
(** [copy_tree] of a file: [mkdir] of the target, then [iterdir] raises *)
Definition tree_actions (custom : bool) (accept : path -> bool) (src dst : path) (t : tree) : list action :=
  match t with
  | TDir _ => map Do (copy_tree_ops custom accept src dst t)
  | TFile _ => [Do (OMkdir dst); Stop IOErr]
  end.
(** wheel_distribution.py:111-119 *)
Definition data_actions (tg : target) (e : str * tree) : list action :=
  match get_place tg (fst e) with
  | Err x => [Stop x]
  | Ok p =>
      if str_eqb (fst e) "scripts"
      then tree_actions true (fun _ => true) [] p (match snd e with TDir cs => TDir (patch_top (t_interpreter tg) cs) | t => t end)
      else tree_actions false (fun _ => true) [] p (snd e)
  end.
(** [dist_info.path.with_suffix(".data")] *)
Definition data_name (dist_info : str) : str := firstn (length dist_info - length (lit ".dist-info")) dist_info ++ lit ".data".
(** 107-123; the record of the wheel is the only path that is not accepted *)
Definition copy_actions (tg : target) (site : path) (dist_info : str) (c : content) : list action :=
  flat_map (fun e =>
    match snd e with
    | TDir cs =>
        if str_eqb (fst e) (data_name dist_info) then flat_map (data_actions tg) cs
        else tree_actions false (fun p => negb (path_eqb p [lit "RECORD"; dist_info])) [fst e] (fst e :: site) (snd e)
    | TFile s => [Do (OCopy (Some s) (fst e :: site))]
    end) c.

(** [Path.mkdir(exist_ok=True, parents=True)]: it is not part of the transaction *)
Fixpoint make_dirs (f : fs) (p : path) : option fs :=
  match lookup f p with
  | Some Dir => Some f
  | Some (File _) => None
  | None => match p with
            | [] => None
            | _ :: q => match make_dirs f q with Some f => Some (write f p Dir) | None => None end
            end
  end.
(** [Path.write_text] *)
Definition write_text (f : fs) (p : path) (s : str) : option fs :=
  match p with
  | [] => None
  | _ :: q => if is_dir f q && negb (is_dir f p) then Some (write f p (File s)) else None
  end.
Definition on_disk (t : tx) (f : option fs) : option tx := option_map (set_fs t) f.
(** executables.py:39-75 [generate] on a system without windows launchers; wheel_distribution.py:125-129.  A name that is a path
    leads from the directory. *)
Definition launcher (interpreter : str) (body : str) : str := lit "#!" ++ interpreter ++ [lf] ++ body.
Definition launcher_step (tg : target) (e : entry) (b : nat) (t : tx) : outcome :=
  if is_script e then
    match snippet (e_ref e) with
    | Err _ => Raised t
    | Ok body =>
        let p := resolve_record (t_scripts tg) (e_name e) in
        and_then (syscall b t (on_disk t (make_dirs (fsys t) (t_scripts tg)))) (fun b t =>
        and_then (syscall b t (on_disk t (write_text (fsys t) p (launcher (t_interpreter tg) body)))) (fun b t =>
        tx_touch b t p false))
    end
  else Go b t.
Definition launcher_steps (tg : target) (l : list entry) (b : nat) (t : tx) : outcome :=
  fold_left (fun o e => and_then o (launcher_step tg e)) l (Go b t).

Section Installer.
  (** hashlib *)
  Variable h : hashlib.
  (** [configparser] as it is used in configfiles.py:56-66: the sections of a text with their values *)
  Variable ini : str -> res (list (str * list (str * str))).
  (** [compileall.compile_file]: the compiled code of a file, [None] if it cannot be compiled *)
  Variable compile : path -> str -> option str.
  (** [sys.implementation.cache_tag] *)
  Variable cache_tag : str.
  (** the order in which Python iterates over a set *)
  Variable order : list path -> list path.

  (** ** Compiled files *)
  Definition is_python (p : path) : bool := match p with n :: _ => ends_with ".py" n && negb (str_eqb n ".py") | [] => false end.
  (** [importlib.util.cache_from_source] *)
  Definition cache_of (p : path) : path :=
    match p with
    | n :: d => (firstn (length n - 3) n ++ lit "." ++ cache_tag ++ lit ".pyc") :: lit "__pycache__" :: d
    | [] => []
    end.
  (** [compile_file(cc, force=True, quiet=2)]: errors of the system are passed over *)
  Definition compile_one (f : fs) (p : path) : fs :=
    match lookup f p with
    | Some (File s) =>
        match compile p s with
        | Some code =>
            let f := if exists_at f (tl (cache_of p)) then f else write f (tl (cache_of p)) Dir in
            opt_or (write_text f (cache_of p) code) f
        | None => f
        end
    | _ => f
    end.
  (** wheel_distribution.py:131-142 *)
  Definition compile_step (b : nat) (t : tx) : outcome :=
    let sources := filter is_python (order (copied t)) in
    Go b (TX (fold_left compile_one sources (fsys t)) (copied t ++ map cache_of sources) (backups t)).

  (** ** The new RECORD *)
  (** distinfo.py:281-315 [sign_files] for one file *)
  Definition sign_one (precomputed : list (str * signature)) (f : fs) (site p : path) : res (list record) :=
    match lookup f p with
    | Some (File s) =>
        match path_to (length site) site p with
        | None => Err RecursionErr
        | Some r =>
            let name := join "/" r in
            do sig <- match dict_get name precomputed with
                      | Some sig => Ok sig
                      | None => match h (lit "sha256") with Some g => Ok (Sig "sha256" (g s)) | None => Err AttributeError end
                      end;
            Ok [Rec (Some name) (Some sig) (Some (N.of_nat (length s)))]
        end
    | _ => Ok []
    end.
  Definition sign_all (precomputed : list (str * signature)) (f : fs) (site : path) (l : list path) : res (list record) :=
    do rs <- map_res (sign_one precomputed f site) l; Ok (concat rs).
  (** distinfo.py:103-108 and configclass.py:242-244 *)
  Definition load_record_file (f : fs) (p : path) : res (list record) :=
    match lookup f p with
    | None => Ok []
    | Some (File s) => load_records s
    | Some Dir => Err IOErr
    end.
  (** wheel_distribution.py:144-153: the records that are there already are kept; [save] has written a part when it raises *)
  Definition record_step (precomputed : list (str * signature)) (site info : path) (b : nat) (t : tx) : outcome :=
    if is_file (fsys t) info then Raised t
    else
      match load_record_file (fsys t) (lit "RECORD" :: info) with
      | Err _ => Raised t
      | Ok old =>
          match sign_all precomputed (fsys t) site (order (copied t)) with
          | Err _ => Raised t
          | Ok new =>
              and_then (syscall b t (on_disk t (make_dirs (fsys t) info))) (fun b t =>
              let (r, text) := save_records (old ++ new) in
              and_then (syscall b t (on_disk t (write_text (fsys t) (lit "RECORD" :: info) text))) (fun b t =>
              match r with Ok _ => Go b t | Err _ => Raised t end))
          end
      end.
  (** 155-160: files that are written behind the record *)
  Definition mark_step (info : path) (request mode : option str) (b : nat) (t : tx) : outcome :=
    let put name (text : option str) o :=
      match text with
      | None => o
      | Some s => and_then o (fun b t => syscall b t (on_disk t (write_text (fsys t) (name :: info) s)))
      end in
    put (lit "INSTALLATION_MODE") mode (put (lit "REQUESTED") request (put (lit "INSTALLER") (Some (lit "pkm")) (Go b t))).

  (** ** [install_extracted_wheel] *)
  (** refused before the target is touched; installed; broken off and rolled back, [None] when the way back fails too *)
  Inductive result := Refused (e : exn) | Installed (f : fs) | Broken (f : option fs).
  (** 90-103: what is read of the wheel: dist-info name, whether the root is purelib, entry points, pruned content, records *)
  Definition open_wheel (c : content) (skip_verification : bool) : res (str * bool * list entry * content * list record) :=
    do di <- find_dist_info c;
    let (name, info) := di in
    do wheel <- text_of (lit "WHEEL") info;
    do purelib <- wheel_config wheel;
    do ep <- text_of (lit "entry_points.txt") info;
    do sections <- match ep with Some t => ini t | None => Ok [] end;
    let c := prune_content c in
    do record <- text_of (lit "RECORD") info;
    do records <- match record with Some t => load_records t | None => Ok [] end;
    do _ <- if skip_verification then Ok tt
            else verify_records h (Wheel (map (fun e => (relative_str (fst e), snd e)) (tree_files [] (TDir c))) name
                                         (option_map (fun _ => named_records records) record));
    Ok (name, purelib, entries_of sections, c, records).
  (** the transaction; [b]: the number of system calls that succeed *)
  Definition transaction (tg : target) (name : str) (purelib : bool) (entries : list entry) (c : content) (precomputed : list (str * signature))
    (request mode : option str) (b : nat) (f : fs) : outcome :=
    let site := if purelib then t_purelib tg else t_platlib tg in
    and_then (run_actions b (tx_start f) (copy_actions tg site name c)) (fun b t =>
    and_then (launcher_steps tg entries b t) (fun b t =>
    and_then (compile_step b t) (fun b t =>
    and_then (record_step precomputed site (name :: site) b t) (fun b t =>
    mark_step (name :: site) request mode b t)))).
  (** 84-160 *)
  Definition install_extracted (tg : target) (c : content) (request mode : option str) (skip_verification : bool) (b : nat) (f : fs) : result :=
    match open_wheel c skip_verification with
    | Err e => Refused e
    | Ok (name, purelib, entries, c, records) =>
        let precomputed := if skip_verification then [] else precomputed_hashes (named_records records) in
        match transaction tg name purelib entries c precomputed request mode b f with
        | Go _ t => Installed (fsys t)
        | Raised t => Broken (rollback (order (copied t)) t)
        end
    end.
End Installer.
