(** Packages from git: pkm/src/pkm/repositories/git_repository.py *)
From Coq Require Import String Ascii List Bool NArith Arith.
From Verif Require Import Base ParserModel UrlModel FsModel.
Import ListNotations.
Open Scope string_scope.
Open Scope nat_scope.
Open Scope list_scope.
Open Scope bool_scope.

(** ** Urls *)
(** version.py:10, 76-79 [UrlVersion.parse]: the name of the repository and the url, in small letters.
    Simplification: ASCII letters and digits only; no line ends. *)
Definition is_word (c : ascii) : bool := is_alnum c || Ascii.eqb c "_".
Definition url_version (txt : str) : option str * str :=
  let t := lower txt in
  match span is_word t with
  | (c :: repo, "+"%char :: url) => (Some (c :: repo), url)
  | _ => (None, t)
  end.
(** version.py:51-53 *)
Definition protocol (v : option str * str) : res str :=
  match fst v with Some r => Ok r | None => do u <- url_parse (snd v); Ok (u_scheme u) end.
(** git_repository.py:83-90 *)
Definition git_request (text : str) : res (url * option str) :=
  match split_on "@" text with
  | [] => Err IndexError
  | u :: rest =>
      do u <- url_parse u;
      match rest with
      | [] => Ok (u, None)
      | [b] => Ok (u, Some b)
      | _ => Err ValueError
      end
  end.

(** ** Paths *)
(** the components of a path; pathlib drops empty ones and dots *)
Definition components (t : str) : list str := filter (fun c => negb (str_eqb c "") && negb (str_eqb c ".")) (split_on "/" t).
(** how the system follows a component.  Simplification: no symbolic links, so ".." is the directory above. *)
Definition descend (p : path) (c : str) : path := if str_eqb c ".." then tl p else c :: p.
(** [p / t]; an absolute [t] replaces [p] *)
Definition join_path (p : path) (t : str) : path := fold_left descend (components t) (if starts_with (lit "/") t then [] else p).
Definition lstrip_slash (t : str) : str := snd (span (Ascii.eqb "/") t).
(** 92-94.  Simplification: the name of the package is one component. *)
Definition target_dir (workspace : path) (name : str) (u : url) (branch : option str) : path :=
  let d := join_path (join_path (name :: workspace) (u_host u)) (lstrip_slash (u_path u)) in
  match branch with
  | Some (c :: b) => join_path d (c :: b)
  | _ => d
  end.

(** ** Checkouts *)
Section Git.
  (** what is checked out from a url: of the default branch, or of a branch or commit; [None]: git fails *)
  Variable remote : str -> option str -> option fs.
  (** [git pull] *)
  Variable pull : fs -> path -> res fs.

  (** 34-40.  Simplification: the text of HEAD has no NUL character. *)
  Definition is_detached (f : fs) (d : path) : res bool :=
    match lookup f (lit "HEAD" :: lit ".git" :: d) with
    | Some (File head) => Ok (negb (exists_at f (join_path (lit "heads" :: lit ".git" :: d) head)))
    | _ => Err IOErr
    end.
  (** 42-47 *)
  Definition update (f : fs) (d : path) : fs * res unit :=
    match is_detached f d with
    | Err e => (f, Err e)
    | Ok true => (f, Ok tt)
    | Ok false => match pull f d with Ok f' => (f', Ok tt) | Err e => (f, Err e) end
    end.
  (** the directories above, made by git *)
  Fixpoint make_dirs (f : fs) (p : path) : fs :=
    match p with
    | [] => f
    | c :: q => let f := make_dirs f q in if exists_at f p then f else write f p Dir
    end.
  Fixpoint file_above (f : fs) (p : path) : bool :=
    match p with [] => false | c :: q => is_file f p || file_above f q end.
  (** 49-62: the clone has the default branch, then the branch is checked out; what git left behind is removed.  The target does
      not exist (96-99). *)
  Definition clone (f : fs) (url : str) (branch : option str) (d : path) : fs * res unit :=
    if file_above f (tl d) then (f, Err IOErr)
    else
      let g := make_dirs f (tl d) in
      match remote url None with
      | None => (remove_tree g d, Err IOErr)
      | Some t =>
          match branch with
          | Some (c :: b) =>
              match remote url (Some (c :: b)) with
              | Some t' => (graft g d t', Ok tt)
              | None => (remove_tree (graft g d t) d, Err IOErr)
              end
          | _ => (graft g d t, Ok tt)
          end
      end.
  (** 83-99: where the checkout is *)
  Definition fetch (workspace : path) (f : fs) (name url : str) : fs * res path :=
    match git_request url with
    | Err e => (f, Err e)
    | Ok (u, branch) =>
        let d := target_dir workspace name u branch in
        let r := if exists_at f d then update f d else clone f (show_url u) branch d in
        (fst r, do _ <- snd r; Ok d)
    end.
  (** a project: its name.  101-110: [projects] gives the projects of a group, [load] the project of a directory.  106: the version
      of the descriptor is the url version of the dependency, which has no name. *)
  Variable projects : fs -> path -> res (list str).
  Variable load : fs -> path -> res str.
  Definition do_match (workspace : path) (f : fs) (name url : str) : fs * res (list str) :=
    let r := fetch workspace f name url in
    (fst r,
     do d <- snd r;
     if exists_at (fst r) (lit "pyproject-group.toml" :: d) then
       do l <- projects (fst r) d;
       match filter (str_eqb name) l with
       | [_] => Err AttributeError
       | _ => Err ValueError
       end
     else do p <- load (fst r) d; Ok [p]).
  (** requests one after the other *)
  Fixpoint fetches (workspace : path) (f : fs) (l : list (str * str)) : fs :=
    match l with [] => f | (name, url) :: r => fetches workspace (fst (fetch workspace f name url)) r end.
End Git.
