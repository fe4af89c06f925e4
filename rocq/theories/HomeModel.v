(** The directory in which pkm keeps its data: pkm/src/pkm/api/pkm.py, and the hooks of a build, pkm/src/pkm/api/buildsys.py.

    Simplifications: no symbolic links (so that [..] is the directory above); on Windows the folder is given; creating a
    directory fails only if a file is in the way. *)
From Coq Require Import String Ascii List Bool NArith Arith.
From Verif Require Import Base ParserModel FsModel.
Import ListNotations.
Open Scope string_scope.
Open Scope nat_scope.
Open Scope list_scope.
Open Scope bool_scope.

(** ** pkm.py 146-158 *)
(** [Path(s)]: whether it is absolute, and its parts, outermost first *)
Definition path_parts (s : str) : list str := filter (fun c => negb (str_eqb c [] || str_eqb c (lit "."))) (split_on "/" s).
Definition is_absolute (s : str) : bool := starts_with (lit "/") s.
(** [expanduser]; [user_home]: the home of a user, and of the one who runs pkm for the empty name; RuntimeError without one *)
Definition expand_user (user_home : str -> option (list str)) (absolute : bool) (l : list str) : res (bool * list str) :=
  match l with
  | (c :: name) :: r =>
      if negb absolute && Ascii.eqb c "~" then match user_home name with Some h => Ok (true, h ++ r) | None => Err RuntimeErr end
      else Ok (absolute, l)
  | _ => Ok (absolute, l)
  end.
(** [resolve]: without [..] and from the root; [p] is what is above, innermost first *)
Fixpoint resolve_from (p : path) (l : list str) : path :=
  match l with [] => p | c :: r => if str_eqb c (lit "..") then resolve_from (tl p) r else resolve_from (c :: p) r end.
Inductive platform := Windows (folder : str) | Mac | Other.
Record process := Process { p_vars : list (str * str); p_platform : platform; p_cwd : path; p_user_home : str -> option (list str) }.
(** 146-155 [_default_home_directory] *)
Definition data_text (pr : process) : str :=
  match p_platform pr with
  | Windows folder => folder
  | Mac => lit "~/Library/Application Support/"
  | Other => match dict_get (lit "XDG_DATA_HOME") (p_vars pr) with Some s => s | None => lit "~/.local/share" end
  end.
Definition default_home (pr : process) : res path :=
  let s := data_text pr in
  do al <- expand_user (p_user_home pr) (is_absolute s) (path_parts s ++ [lit "pkm"]);
  Ok (resolve_from (if fst al then [] else p_cwd pr) (snd al)).
(** 158: a text if the variable is given, and a path otherwise *)
Inductive home := HText (s : str) | HPath (p : path).
Definition pkm_home (pr : process) : res home :=
  match dict_get (lit "PKM_HOME") (p_vars pr) with
  | Some (c :: s) => Ok (HText (c :: s))
  | _ => do p <- default_home pr; Ok (HPath p)
  end.

(** files.py 34-41 [mkdir]: [mkdir(parents=True, exist_ok=True)] *)
Fixpoint mkdirs (f : fs) (p : path) : res fs :=
  match lookup f p with
  | Some Dir => Ok f
  | Some (File _) => Err IOErr
  | None => match p with
            | [] => Ok (write f [] Dir)
            | _ :: q => do f1 <- mkdirs f q; Ok (write f1 p Dir)
            end
  end.
(** 80-82 [Pkm.home]: a text has no [mkdir] *)
Definition use_home (f : fs) (h : home) : res (path * fs) :=
  match h with HText _ => Err AttributeError | HPath p => do f1 <- mkdirs f p; Ok (p, f1) end.

(** ** the cache *)
Definition config_dir (h : path) : path := lit "pkm" :: lit "etc" :: h.
Definition repos_config (h : path) : path := lit "repositories.toml" :: config_dir h.
Definition repos_dir (h : path) : path := lit "repos" :: h.
Definition builds_dir (h : path) : path := lit "build-cache" :: h.
Definition http_dir (h : path) : path := lit "http" :: lit "resources" :: h.
(** 98-110 [repository_loader]: the configuration is made if it is not there; [initial]: its text.
    Simplification: reading it succeeds; the repositories are made without touching files *)
Definition open_loader (initial : str) (h : path) (f : fs) : res fs :=
  if exists_at f (repos_config h) then Ok f
  else do f1 <- mkdirs f (config_dir h); Ok (write f1 (repos_config h) (File initial)).
(** 119-124 [clean_cache]; source_build_cache.py 24-26 and http_client.py 294-296 make their directories first;
    [rmtree] removes what is there and ignores errors *)
Definition clean_cache (initial : str) (h : home) (f : fs) : res fs :=
  do pf <- use_home f h;
  let p := fst pf in
  do f1 <- open_loader initial p (snd pf);
  do f2 <- mkdirs (remove_tree f1 (repos_dir p)) (builds_dir p);
  do f3 <- mkdirs (remove_tree f2 (builds_dir p)) (http_dir p);
  Ok (remove_tree f3 (http_dir p)).

(** ** buildsys.py *)
(** the objects that the name [pkm] of the package [pkm.api] may hold: the module [pkm.api.pkm] or a [Pkm] *)
Inductive obj := OModule | OPkm (h : home).
(** [w_attr]: the attribute [pkm] of the package [pkm.api]; [w_home]: the home of the object that the module [pkm.api.pkm]
    holds and that all modules import by [from pkm.api.pkm import pkm] (which finds the module in [sys.modules]) *)
Record world := World { w_attr : obj; w_home : home; w_fs : fs }.
(** what a build does to the files with the home it is given, and its outcome *)
Definition build := home -> fs -> fs * res str.
Definition run_build (b : build) (w : world) : world * res str :=
  let '(f, r) := b (w_home w) (w_fs w) in (World (w_attr w) (w_home w) f, r).
(** 18-30 [buildsys_pkm] around a build; [tmp]: the new directory; files.py 72-83 [temp_dir] *)
Definition with_buildsys (tmp : path) (b : build) (w : world) : world * res str :=
  match w_home w with
  | HText _ => (w, Err AttributeError)
  | HPath p =>
      if exists_at (w_fs w) p then run_build b w
      else
        let w1 := World (OPkm (HPath tmp)) (w_home w) (write (w_fs w) tmp Dir) in
        let '(w2, r) := run_build b w1 in
        (World (OPkm (w_home w)) (w_home w2) (remove_tree (w_fs w2) tmp), r)
  end.
(** 33-74: the hooks; [build_editable] has no [buildsys_pkm] *)
Inductive hook := BuildWheel | BuildSdist | PrepareMetadata | BuildEditable | PrepareEditableMetadata.
Definition run_hook (k : hook) (tmp : path) (b : build) (w : world) : world * res str :=
  match k with BuildEditable => run_build b w | _ => with_buildsys tmp b w end.
(** what [import pkm.api.pkm as m] binds *)
Definition imported (w : world) : obj := w_attr w.
