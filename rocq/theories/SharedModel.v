(** The store of shared packages of an environments zoo and its cleaning.
    Source: pkm/src/pkm/repositories/shared_pacakges_repo.py, api/environments/environments_zoo.py,
    api/packages/site_packages.py, api/distributions/distinfo.py. *)
From Coq Require Import String Ascii List Bool NArith Arith.
From Verif Require Import Base FsModel NamesModel.
Import ListNotations.
Open Scope string_scope.
Open Scope nat_scope.
Open Scope list_scope.
Open Scope bool_scope.

(** [Path.iterdir]: the names in a directory.  [os.listdir] reads them all before the loop body runs.
    Simplification: the order is the order of the list [f]; the theorems hold for every such list. *)
Fixpoint dedup (l : list str) : list str :=
  match l with
  | [] => []
  | x :: r => x :: filter (fun y => negb (str_eqb x y)) (dedup r)
  end.
Definition children (f : fs) (p : path) : list str :=
  dedup (map (fun e => hd [] (fst e)) (filter (fun e => is_child p (fst e)) f)).
Definition iterdir (f : fs) (p : path) : res (list str) :=
  if is_dir f p then Ok (children f p) else Err IOErr.

(** [pathlib.PurePath.suffix]: from the last dot, unless that dot is the first or the last character *)
Fixpoint suffix_from (ext r : str) : str :=
  match r with
  | [] => []
  | c :: before =>
      if Ascii.eqb c "." then match ext, before with [], _ => [] | _, [] => [] | _, _ => c :: ext end
      else suffix_from (c :: ext) before
  end.
Definition suffix (name : str) : str := suffix_from [] (rev name).

(** distinfo.py:161-176 [DistInfo.load] (for a name that has the right suffix) and 178-187 [DistInfo.scan],
    site_packages.py:85-90 [_scan_packages]: a dictionary from the name key to the dist-info directory *)
Fixpoint scan_names (f : fs) (site : path) (names : list str) (result : list (str * path)) : res (list (str * path)) :=
  match names with
  | [] => Ok result
  | n :: r =>
      if str_eqb (suffix n) ".dist-info" then
        if exists_at f (n :: site) && negb (is_dir f (n :: site)) then Err ValueError
        else do k <- package_name_key (hd [] (split_on "-" n));
             scan_names f site r (dict_set k (n :: site) result)
      else scan_names f site r result
  end.
Definition scan_packages (f : fs) (site : path) (result : list (str * path)) : res (list (str * path)) :=
  if exists_at f site then do ns <- iterdir f site; scan_names f site ns result else Ok result.
(** site_packages.py:78-83 [_name_to_packages], 92-93 [installed_packages]; an environment is seen as the pair of its
    [purelib] and [platlib] directories *)
Definition installed_packages (f : fs) (env : path * path) : res (list path) :=
  do r <- scan_packages f (fst env) [];
  do r2 <- scan_packages f (snd env) r;
  Ok (map snd r2).

(** shared_pacakges_repo.py:34-36: the texts of the SHARED markers of the given dist-infos *)
Fixpoint markers_of (f : fs) (dists : list path) : res (list str) :=
  match dists with
  | [] => Ok []
  | d :: r =>
      match lookup f (lit "SHARED" :: d) with
      | None => markers_of f r
      | Some Dir => Err IOErr
      | Some (File t) => do l <- markers_of f r; Ok (t :: l)
      end
  end.
(** shared_pacakges_repo.py:32-36 *)
Fixpoint used_packages (f : fs) (envs : list (path * path)) : res (list str) :=
  match envs with
  | [] => Ok []
  | e :: r => do ds <- installed_packages f e; do m <- markers_of f ds; do l <- used_packages f r; Ok (m ++ l)
  end.

(** [str(shared_dir.absolute())] when the workspace directory is spelled [text].
    [Path.absolute] puts the current directory in front and does not look at the file system. *)
Definition artifact_text (text p v a : str) : str := text ++ lit "/" ++ p ++ lit "/" ++ v ++ lit "/" ++ a.

(** shared_pacakges_repo.py:46-51, one round of the inner loop.
    Simplification: [shutil.rmtree] always succeeds. *)
Definition clean_artifact (used : list str) (text : str) (ws : path) (p v : str) (f : fs) (a : str) : fs :=
  if is_dir f (a :: v :: p :: ws) then
    if str_mem (artifact_text text p v a) used then f else remove_tree f (a :: v :: p :: ws)
  else f.
(** shared_pacakges_repo.py:42-54, one round of the middle loop *)
Definition clean_version (used : list str) (text : str) (ws : path) (p : str) (f : fs) (v : str) : fs :=
  if is_dir f (v :: p :: ws) then
    let f1 := fold_left (clean_artifact used text ws p v) (children f (v :: p :: ws)) f in
    if is_empty_directory f1 (v :: p :: ws) then remove_path f1 (v :: p :: ws) else f1
  else f.
(** shared_pacakges_repo.py:38-57, one round of the outer loop *)
Definition clean_package (used : list str) (text : str) (ws : path) (f : fs) (p : str) : fs :=
  if is_dir f (p :: ws) then
    let f1 := fold_left (clean_version used text ws p) (children f (p :: ws)) f in
    if is_empty_directory f1 (p :: ws) then remove_path f1 (p :: ws) else f1
  else f.
(** shared_pacakges_repo.py:31-57 [remove_unused_packages], with the workspace at [ws], spelled [text] *)
Definition remove_unused_packages (f : fs) (ws : path) (text : str) (envs : list (path * path)) : res fs :=
  do used <- used_packages f envs;
  do ps <- iterdir f ws;
  Ok (fold_left (clean_package used text ws) ps f).

(** environment.py:307-313 [is_venv_path], 348-349 [_find_interpreter] *)
Definition is_venv_path (f : fs) (p : path) : bool :=
  exists_at f (lit "pyvenv.cfg" :: p) &&
  (exists_at f (lit "python" :: lit "bin" :: p) || exists_at f (lit "python.exe" :: lit "Scripts" :: p)).
(** environments_zoo.py:78-84 [list]; [sites e] are the two directories that the introspection of the environment at [e]
    reports *)
Definition zoo_list (f : fs) (zoo : path) (sites : path -> path * path) : res (list (path * path)) :=
  do ns <- iterdir f zoo;
  Ok (map (fun n => sites (n :: zoo)) (filter (fun n => is_venv_path f (n :: zoo)) ns)).
(** environments_zoo.py:58-61 [clean_unused_shared] with sharing enabled; the workspace is [.zoo/shared] in the zoo
    (repository_management.py:209); [text] is the zoo directory as it was spelled *)
Definition clean_unused_shared (f : fs) (zoo : path) (text : str) (sites : path -> path * path) : res fs :=
  do envs <- zoo_list f zoo sites;
  remove_unused_packages f (lit "shared" :: lit ".zoo" :: zoo) (text ++ lit "/.zoo/shared") envs.

(** shared_pacakges_repo.py:98-104: the names of the artifacts that are already shared.
    Simplification: the METADATA files are taken to be readable. *)
Definition shared_artifacts (f : fs) (shared_path : path) : res (list str) :=
  if exists_at f shared_path then iterdir f shared_path else Ok [].
(** shared_pacakges_repo.py:116-124 [_shared_artifact_for].  The generator reads [a.compatibility_tag], a name that
    the class (82-86) does not define, for each artifact; only [ValueError] is caught (that of [max] on nothing). *)
Definition shared_artifact_for (artifacts : list str) : res (option str) :=
  match artifacts with
  | [] => Ok None
  | _ :: _ => Err AttributeError
  end.
(** shared_pacakges_repo.py:140-148 [install_to]: [`Reuse a] links the artifact [a], [`Install] installs the package and
    moves it to the store *)
Inductive install_way := Reuse (artifact : str) | Install.
Definition install_to (f : fs) (shared_path : path) : res install_way :=
  do arts <- shared_artifacts f shared_path;
  do a <- shared_artifact_for arts;
  Ok (match a with Some x => Reuse x | None => Install end).
