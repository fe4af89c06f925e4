(** Model of installing a conda package: repositories/conda-pkm-repo/src/conda_pkm_repo/conda_distribution.py:39-162.  The copy
    transaction is that of CopyTxModel.v, the RECORD that of RecordFileModel.v and WheelModel.v.

    Simplifications: the archive has been extracted (line 61): [w] is a file system with it below the directory [tmp]; what is read
    while files are copied is what was there before.  [..] in a path is resolved without looking at the file system.  Line 157
    removes nothing, since the RECORD of the target is not in the temporary directory. *)
From Coq Require Import String Ascii List Bool NArith Arith.
From Verif Require Import Base ParserModel FsModel FilesModel CopyTxModel ArtifactModel RecordFileModel InstallModel WheelModel.
Import ListNotations.
Open Scope string_scope. Open Scope nat_scope. Open Scope list_scope. Open Scope bool_scope.

(** ** Paths *)
(** the parts of [Path(s)], without the root *)
Definition path_parts (s : str) : list str := filter (fun c => negb (str_eqb c "" || str_eqb c ".")) (split_on "/" s).
Definition is_absolute (s : str) : bool := match s with "/"%char :: _ => true | _ => false end.
(** a relative path with these parts below [base] *)
Definition at_parts (base : path) (l : list str) : path := fold_left resolve_component l base.
Fixpoint drop_prefix (a l : list str) : option (list str) :=
  match a, l with
  | [], _ => Some l
  | x :: a, y :: l => if str_eqb x y then drop_prefix a l else None
  | _ :: _, [] => None
  end.
(** conda_distribution.py:77, 90: the key of a signature, [(tdir / s).relative_to(tdir)] *)
Definition key_of (tmp : path) (s : str) : res (list str) :=
  if is_absolute s then match drop_prefix (rev tmp) (path_parts s) with Some l => Ok l | None => Err ValueError end
  else Ok (path_parts s).
(** dictionaries with relative paths as keys *)
Definition sigs := list (list str * signature).
Fixpoint sig_get (k : list str) (d : sigs) : option signature :=
  match d with
  | [] => None
  | (x, v) :: r => if path_eqb k x then Some v else sig_get k r
  end.

(** line 26: the expression matches a prefix of the name *)
Definition is_python_dir (name : str) : bool :=
  starts_with "python" name &&
  match span is_digit (skipn 6 name) with
  | (_ :: _, "."%char :: c :: _) => is_digit c
  | _ => false
  end.
(** [iterdir]: the names in a directory, in the order in which the file system holds them *)
Definition names_in (w : fs) (d : path) : list str :=
  flat_map (fun e => match fst e with n :: p => if path_eqb p d then [n] else [] | [] => [] end) w.
(** [shutil.move] *)
Definition move (w : fs) (src dst : path) : res fs :=
  match src with
  | [] => Err IOErr
  | n :: _ =>
      if path_eqb src dst then Ok w
      else match lookup w dst with
           | None => Ok (graft (remove_tree w src) dst (tree_at w src))
           | Some Dir => if exists_at w (n :: dst) then Err IOErr else Ok (graft (remove_tree w src) (n :: dst) (tree_at w src))
           | Some (File _) => if is_dir w src then Err IOErr else Ok (graft (remove_path (remove_tree w src) dst) dst (tree_at w src))
           end
  end.
(** 113-124: the name of the directory that is moved, if any *)
Definition relocated_dir (w : fs) (tmp : path) (pylib : str) : option str :=
  if exists_at w (lit "lib" :: tmp) && negb (str_eqb "lib" pylib) then find is_python_dir (names_in w (lit "lib" :: tmp)) else None.
(** 121-123 and 136: [relocated_files.get(path, path)]; the dictionary has what was below the directory *)
Definition relocate (w : fs) (tmp : path) (pylib : str) (l : list str) : list str :=
  match relocated_dir w tmp pylib, l with
  | Some n, lb :: x :: c :: r =>
      if str_eqb lb "lib" && str_eqb x n && negb (existsb (str_eqb "..") (c :: r)) && exists_at w (at_parts tmp l)
      then lit "lib" :: pylib :: c :: r else l
  | _, _ => l
  end.
(** 124 *)
Definition moved (w : fs) (tmp : path) (pylib : str) : res fs :=
  match relocated_dir w tmp pylib with
  | Some n => move w (n :: lit "lib" :: tmp) (pylib :: lit "lib" :: tmp)
  | None => Ok w
  end.
(** [Path.name]: the root has none *)
Definition name_of (p : path) : str := match p with n :: _ => n | [] => [] end.

Section Conda.
  Variable h : hashlib.
  (** [hashlib.sha256(..).hexdigest()] *)
  Variable hexdigest : str -> str.
  (** 75: the paths and hashes in paths.json *)
  Variable read_paths : str -> res (list (str * str)).
  (** 92, 96: whether the build number in index.json is a text; KeyError if there is none *)
  Variable read_index : str -> res bool.
  (** the shell running a script.  Simplification: scripts do not change files. *)
  Variable run_script : str -> res unit.
  (** the order in which Python iterates over a set *)
  Variable order : list path -> list path.

  Definition text_at (f : fs) (p : path) : res str := match lookup f p with Some (File s) => Ok s | _ => Err IOErr end.
  (** 70-90 *)
  Fixpoint verify_paths (w : fs) (tmp : path) (l : list (str * str)) (acc : sigs) : res sigs :=
    match l with
    | [] => Ok acc
    | (s, sha) :: r =>
        match lookup w (resolve_record tmp s) with
        | None => Err OtherErr
        | Some Dir => Err IOErr
        | Some (File c) =>
            if str_eqb (hexdigest c) sha then
              match h (lit "sha256") with
              | None => Err AttributeError
              | Some g => do k <- key_of tmp s; verify_paths w tmp r ((k, Sig "sha256" (g c)) :: acc)
              end
            else Err OtherErr
        end
    end.
  (** 94-106 on a system that is not Windows: the names of systems are lower case, so that [has_windows_os] is never true.
      A number in the environment of a process is a TypeError. *)
  Definition hook (w : fs) (tmp : path) (textual : bool) (name : str) : res unit :=
    match lookup w ((name ++ lit ".sh") :: lit "bin" :: lit "info" :: tmp) with
    | None => Ok tt
    | Some n => if textual then match n with File s => run_script s | Dir => Err OtherErr end else Err TypeError
    end.

  (** ** Copying *)
  (** files.py:175-196 [copy]; a source that is missing is noticed after the target has been removed and its directory made *)
  Definition copy_node (b : nat) (t : tx) (source : option node) (dst : path) : outcome :=
    match source with
    | Some (File c) => tx_copy b t (Some c) dst None
    | Some Dir => tx_copy b t None dst None
    | None => and_then (if exists_at (fsys t) dst then tx_rm b t dst else Go b t) (fun b t =>
              and_then (tx_mkdir b t (tl dst)) (fun _ t => Raised t))
    end.
  (** 133-147; [w]: the archive after line 124; [site_in]: [purelib_in_package_path] *)
  Fixpoint copy_lines (w : fs) (tmp data site_in : path) (signed : sigs) (reloc : list str -> list str) (lines : list str)
      (pre : list (str * signature)) (created : list path) (b : nat) (t : tx) : outcome * list (str * signature) :=
    match lines with
    | [] => (Go b t, pre)
    | l :: r =>
        match (if is_absolute l then None else sig_get (path_parts l) signed) with
        | None => (Raised t, pre)
        | Some sig =>
            let p := reloc (path_parts l) in
            match path_to (length site_in) site_in (at_parts tmp p) with
            | None => (Raised t, pre)
            | Some k =>
                let pre := dict_set (join "/" k) sig pre in
                let dst := at_parts data p in
                let o := and_then (if path_mem (tl dst) created then Go b t else syscall b t (on_disk t (make_dirs (fsys t) (tl dst))))
                                  (fun b t => copy_node b t (lookup w (at_parts tmp p)) dst) in
                match o with
                | Raised t => (Raised t, pre)
                | Go b t => copy_lines w tmp data site_in signed reloc r pre (tl dst :: created) b t
                end
            end
        end
    end.
  (** 39-56, 150-151 with configclass.py: [save] makes the directory; none of this is part of the transaction *)
  Definition generate_step (info : path) (wheel metadata : str) (b : nat) (t : tx) : outcome :=
    if exists_at (fsys t) info then Go b t
    else and_then (syscall b t (on_disk t (make_dirs (fsys t) info))) (fun b t =>
         and_then (syscall b t (on_disk t (write_text (fsys t) (lit "WHEEL" :: info) wheel))) (fun b t =>
         syscall b t (on_disk t (write_text (fsys t) (lit "METADATA" :: info) metadata)))).
  (** 155 *)
  Definition unlink_step (p : path) (b : nat) (t : tx) : outcome :=
    match lookup (fsys t) p with
    | None => Go b t
    | Some (File _) => syscall b t (Some (set_fs t (remove_path (fsys t) p)))
    | Some Dir => Raised t
    end.
  (** 158-160 *)
  Definition to_sign (f : fs) (l : list path) : list path := filter (fun p => negb (str_eqb (name_of p) "RECORD") || exists_at f p) l.
  Definition sign_step (pre : list (str * signature)) (site info : path) (b : nat) (t : tx) : outcome :=
    record_step h (fun l => to_sign (fsys t) (order l)) pre site info b t.

  (** 149-162; [post]: what the post-link hook does *)
  Definition finish (site info : path) (wheel metadata : str) (post : res unit) (pre : list (str * signature)) (b : nat) (t : tx) : outcome :=
    and_then (generate_step info wheel metadata b t) (fun b t =>
    if is_file (fsys t) info then Raised t
    else and_then (unlink_step (lit "RECORD" :: info) b t) (fun b t =>
         and_then (sign_step pre site info b t) (fun b t => match post with Ok _ => Go b t | Err _ => Raised t end))).
  (** 130-162 *)
  Definition conda_transaction (w : fs) (tmp data site : path) (info_name wheel metadata : str) (signed : sigs)
      (reloc : list str -> list str) (lines : list str) (post : res unit) (b : nat) (f : fs) : outcome :=
    if under data site then
      let (o, pre) := copy_lines w tmp data (rel_to data site ++ tmp) signed reloc lines [] [] b (tx_start f) in
      and_then o (finish site (info_name :: site) wheel metadata post pre)
    else Raised (tx_start f). (* ValueError of [relative_to] *)
  (** 58-128: what happens before the target is touched: the signatures, the archive, the lines of info/files, the build number *)
  Definition prepare (w : fs) (tmp : path) (site : path) : res (sigs * fs * list str * bool) :=
    let info := lit "info" :: tmp in
    if negb (is_dir w info) then Err OtherErr
    else if negb (exists_at w (lit "paths.json" :: info)) then Err OtherErr
    else
      do paths_text <- text_at w (lit "paths.json" :: info);
      do paths <- read_paths paths_text;
      do signed <- verify_paths w tmp paths [];
      do index <- text_at w (lit "index.json" :: info);
      do textual <- read_index index;
      do _ <- hook w tmp textual (lit "pre-link");
      do w' <- moved w tmp (name_of (tl site));
      do files <- text_at w' (lit "files" :: info);
      Ok (signed, w', filter (fun l => negb (str_eqb l "")) (split_lines files), textual).
  (** 58-162 [install_to]; [request] and [mode], the second and the third argument, are not used *)
  Definition install_conda (w : fs) (tmp : path) (tg : target) (info_name wheel metadata : str) (request mode : option str)
      (b : nat) (f : fs) : result :=
    match prepare w tmp (t_purelib tg) with
    | Err e => Refused e
    | Ok (signed, w', lines, textual) =>
        match conda_transaction w' tmp (t_data tg) (t_purelib tg) info_name wheel metadata signed
                (relocate w tmp (name_of (tl (t_purelib tg)))) lines (hook w' tmp textual (lit "post-link")) b f with
        | Go _ t => Installed (fsys t)
        | Raised t => Broken (rollback (order (copied t)) t)
        end
    end.
End Conda.
