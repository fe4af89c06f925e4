(** Model of building source distributions: pkm/src/pkm/build/external_builders.py (build_wheel, 80-156) and
    pkm/src/pkm/build/source_build_cache.py (37-91).

    First part: the detection of build cycles. A package is a number. Simplifications: an installation into a build
    environment asks for the metadata of its source distributions (while resolving) and then for their wheels, one after the
    other (the code installs in several threads); the cache holds one archive for each package, and the environments have
    the same markers. *)
From Coq Require Import String Ascii List Bool NArith Arith.
From Verif Require Import Base NamesModel.
Import ListNotations.
Open Scope string_scope.
Open Scope nat_scope.
Open Scope list_scope.
Open Scope bool_scope.

Definition pkg := nat.
(** [needs p]: the source distributions that are installed into the build environment of [p] (119-120, 130-135: the requirements, the
    extra requirements and what they depend on); [published p]: the repository tells the dependencies of [p], so that no
    metadata is built (pypi_repository.py 115-126); [meta_hook p]: the backend of [p] can prepare metadata only (137-146) *)
Record world := World { needs : pkg -> list pkg; published : pkg -> bool; meta_hook : pkg -> bool }.
(** the cache directory of a package: METADATA only, or METADATA and a wheel *)
Inductive entry := MetaOnly | WithWheel.
Definition store := list (pkg * entry).
Fixpoint stored (c : store) (p : pkg) : option entry := match c with [] => None | (q, e) :: r => if p =? q then Some e else stored r p end.
Definition pmem (p : pkg) (l : list pkg) : bool := existsb (Nat.eqb p) l.
Inductive outcome := Built | CycleError (p : pkg) | NoMetaHook | StillRunning.

(** what a build leaves: the dictionary of the builds so far (it is shared with the build environments inside) and the cache *)
Definition result := (outcome * list pkg * store)%type.
Section Build.
  Variable w : world.
  (** [build_wheel] for a target environment that shares the dictionary [path] *)
  Variable build_in : bool -> pkg -> list pkg -> store -> result.
  (** source_build_cache.py 37-91; [path]: [None] for an environment without a dictionary, for which each build starts a new
      one (external_builders.py 95-96) *)
  Definition serves (metadata : bool) (e : option entry) : bool :=
    match e with Some WithWheel => true | Some MetaOnly => metadata | None => false end.
  Definition get_or_build (metadata : bool) (p : pkg) (path : option (list pkg)) (c : store) : outcome * option (list pkg) * store :=
    if serves metadata (stored c p) then (Built, path, c)
    else
      let c := filter (fun e : pkg * entry => negb (Nat.eqb (fst e) p)) c in          (* 55-56 *)
      let run only_meta path c :=
        match build_in only_meta p (match path with Some l => l | None => [] end) c with
        | (o, l, c) => (o, match path with Some _ => Some l | None => None end, c)
        end in
      match run metadata path c with
      | (Built, path, c) => (Built, path, (p, if metadata then MetaOnly else WithWheel) :: c)
      | (NoMetaHook, path, c) =>
          if metadata
          then match run false path c with                        (* 69-73 *)
               | (Built, path, c) => (Built, path, (p, WithWheel) :: c)
               | r => r
               end
          else (NoMetaHook, path, c)
      | r => r
      end.
  Fixpoint request_all (metadata : bool) (l : list pkg) (path : option (list pkg)) (c : store) : outcome * option (list pkg) * store :=
    match l with
    | [] => (Built, path, c)
    | p :: r =>
        if metadata && published w p then request_all metadata r path c
        else match get_or_build metadata p path c with
             | (Built, path, c) => request_all metadata r path c
             | o => o
             end
    end.
  (** installing the source distributions [l] *)
  Definition install (l : list pkg) (path : option (list pkg)) (c : store) : outcome * option (list pkg) * store :=
    match request_all true l path c with
    | (Built, path, c) => request_all false l path c
    | o => o
    end.
End Build.
(** external_builders.py 80-156: [put_if_absent] (98-104), and the package stays in the dictionary *)
Fixpoint build (fuel : nat) (w : world) (only_meta : bool) (p : pkg) (path : list pkg) (c : store) : result :=
  if pmem p path then (CycleError p, path, c)
  else
    match fuel with
    | 0 => (StillRunning, path, c)
    | S fuel =>
        match install w (build fuel w) (needs w p) (Some (path ++ [p])) c with
        | (Built, path', c) =>
            let path' := match path' with Some l => l | None => [] end in
            if only_meta && negb (meta_hook w p) then (NoMetaHook, path', c) else (Built, path', c)
        | (o, path', c) => (o, match path' with Some l => l | None => [] end, c)
        end
    end.
(** a request for the wheel of [p] from an environment that is no build environment *)
Definition wheel_of (fuel : nat) (w : world) (p : pkg) (c : store) : outcome * option (list pkg) * store := get_or_build (build fuel w) false p None c.

(** Second part: the files of the cache, source_build_cache.py 37-91.

    A file of the cache is known by its directory - the names of the package, of the version and of the markers and the digest
    of the archive - and its name. Simplifications: directories exist when they have files; the archive is given by its
    digest; the text of METADATA stands for what it parses to. *)
Definition base_dir := (str * str * str)%type.
Record file := File { f_base : base_dir; f_digest : str; f_name : str; f_content : str }.
Definition files := list file.
Definition base_eqb (a b : base_dir) : bool :=
  match a, b with (a1, a2, a3), (b1, b2, b3) => str_eqb a1 b1 && str_eqb a2 b2 && str_eqb a3 b3 end.
Definition same_file (b : base_dir) (d n : str) (f : file) : bool := base_eqb (f_base f) b && str_eqb (f_digest f) d && str_eqb (f_name f) n.
Definition in_dir (b : base_dir) (d : str) (f : file) : bool := base_eqb (f_base f) b && str_eqb (f_digest f) d.
(** the changes of the file system; a crash keeps the ones made before it *)
Inductive step := Unlink (b : base_dir) (d n : str) | Write (b : base_dir) (d n content : str).
Definition apply (fs : files) (s : step) : files :=
  match s with
  | Unlink b d n => filter (fun f => negb (same_file b d n f)) fs
  | Write b d n c => File b d n c :: filter (fun f => negb (same_file b d n f)) fs
  end.
Definition execute (fs : files) (l : list step) : files := fold_left apply l fs.

(** what a run of the build backend gives: nothing (a [BuildError]), a directory that has its METADATA or not, or a wheel
    with its name, its content and its metadata *)
Inductive build_output := BuildFails | MetaDir (metadata : option str) | WheelFile (name content metadata : str).
(** a request; [r_torn]: how much of a file that is being copied is written first *)
Record req := Req { r_name : str; r_version : str; r_markers : str; r_digest : str; r_meta : bool; r_out : build_output; r_torn : nat }.
Inductive reply := Metadata (text : str) | WheelPath (name content : str).
Definition METADATA : str := "METADATA".
Definition is_wheel_name (n : str) : bool := starts_with (rev (lit ".whl")) (rev n).
(** 38-40 *)
Definition req_base (r : req) : res base_dir :=
  do n <- normalize_src_package_name (r_name r);
  do v <- normalize_src_package_name (r_version r);
  Ok (n, v, r_markers r).
(** copying a file takes more than one step *)
Definition copy_steps (torn : nat) (b : base_dir) (d n content : str) : list step := [Write b d n (firstn torn content); Write b d n content].
Definition meta_text (fs : files) (b : base_dir) (d : str) : option str :=
  match find (same_file b d METADATA) fs with Some f => Some (f_content f) | None => None end.
(** 49-53 *)
Definition cached (fs : files) (b : base_dir) (d : str) (meta : bool) : option reply :=
  match meta_text fs b d with
  | None => None
  | Some text =>
      if meta then Some (Metadata text)
      else match filter (fun f => in_dir b d f && is_wheel_name (f_name f)) fs with
           | [f] => Some (WheelPath (f_name f) (f_content f))
           | _ => None
           end
  end.
(** 37-91: the changes made and the reply *)
Definition get (fs : files) (r : req) : res (list step * res reply) :=
  do b <- req_base r;
  let d := r_digest r in
  match cached fs b d (r_meta r) with
  | Some reply => Ok ([], Ok reply)
  | None =>
      let clear := map (fun f => Unlink (f_base f) (f_digest f) (f_name f)) (filter (fun f => base_eqb (f_base f) b) fs) in
      match r_out r with
      | BuildFails | MetaDir None => Ok (clear, Err OtherErr)
      | MetaDir (Some text) =>                                                                            (* 75-82 *)
          Ok (clear ++ copy_steps (r_torn r) b d METADATA text, Ok (Metadata text))
      | WheelFile name content text =>                                                                    (* 84-91 *)
          Ok (clear ++ copy_steps (r_torn r) b d METADATA text ++ copy_steps (r_torn r) b d name content, Ok (WheelPath name content))
      end
  end.
(** a request that runs to its end or is cut after some changes *)
Definition after (fs : files) (op : req * option nat) : files :=
  match get fs (fst op) with
  | Err _ => fs
  | Ok (l, _) => execute fs (match snd op with Some k => firstn k l | None => l end)
  end.
Definition history (ops : list (req * option nat)) : files := fold_left after ops [].
