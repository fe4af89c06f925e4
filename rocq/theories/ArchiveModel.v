(** Model of the extraction of archives: pkm/src/pkm/utils/archives.py (extract_archive, 9-22), with what it runs of the
    python library: [ZipFile.extractall], [TarFile.extractall], [os.makedirs] and [Path.mkdir].

    The file system has regular files, directories and symbolic links. A place in it is the list of its names, innermost
    first; a path as the code gives it is a list of components, outermost first, of which ".", ".." and links are followed
    as the kernel does. Simplifications: POSIX; no permissions, owners and times; a write succeeds as a whole or not at
    all; hard links, devices and fifos in tar files are left out; the file names have no NUL; tar files are extracted
    without a filter, which is the default of the python versions 3.8 to 3.13 (pyproject.toml asks for 3.8 or later). *)
From Coq Require Import String Ascii List Bool NArith Arith.
From Verif Require Import Base.
Import ListNotations.
Open Scope string_scope.
Open Scope nat_scope.
Open Scope list_scope.
Open Scope bool_scope.

Definition place := list str.
(** [Link absolute target] *)
Inductive node := File (content : str) | Dir | Link (absolute : bool) (target : list str).
Definition disk := list (place * node).
Definition place_eqb : place -> place -> bool := list_eqb str_eqb.
Fixpoint at_ (d : disk) (p : place) : option node :=
  match d with [] => None | (q, n) :: r => if place_eqb p q then Some n else at_ r p end.
Definition put (d : disk) (p : place) (n : node) : disk := (p, n) :: filter (fun e => negb (place_eqb (fst e) p)) d.
Definition drop (d : disk) (p : place) : disk := filter (fun e => negb (place_eqb (fst e) p)) d.
Definition is_dir (d : disk) (p : place) : bool :=
  match p with [] => true | _ => match at_ d p with Some Dir => true | _ => false end end.

Inductive oserr := Exists_ | NotFound | NotADirectory | IsADirectory | TooManyLinks | BadArchive | UnsupportedArchive.
Inductive got (A : Type) := Got (a : A) | Raised (e : oserr).
Arguments Got {A}. Arguments Raised {A}.
(** the file system an operation leaves, and the exception it raised *)
Definition out := (disk * option oserr)%type.
Definition and_then (o : out) (k : disk -> out) : out := match o with (d, None) => k d | (d, Some e) => (d, Some e) end.

Definition here (c : str) : bool := str_eqb c [] || str_eqb c (lit ".").
Definition up (c : str) : bool := str_eqb c (lit "..").
(** the place that a path names when its last link is followed, too: every component but the last has to exist. The kernel
    follows at most [links] links *)
Fixpoint walk (links : nat) (d : disk) {struct links} : place -> list str -> got place :=
  fix go (cur : place) (comps : list str) {struct comps} : got place :=
    match comps with
    | [] => Got cur
    | c :: r =>
        if negb (is_dir d cur) then Raised NotADirectory
        else if here c then go cur r
        else if up c then go (tl cur) r
        else match at_ d (c :: cur) with
             | None => match r with [] => Got (c :: cur) | _ => Raised NotFound end
             | Some (Link absolute t) =>
                 match links with
                 | 0 => Raised TooManyLinks
                 | S links => walk links d (if absolute then [] else cur) (t ++ r)
                 end
             | Some _ => go (c :: cur) r
             end
    end.
Definition max_links := 40.
Definition locate (d : disk) (comps : list str) : got place := walk max_links d [] comps.
(** os.path.exists, os.path.isdir *)
Definition exists_at (d : disk) (comps : list str) : bool :=
  match locate d comps with Got p => is_dir d p || is_some (at_ d p) | Raised _ => false end.
Definition isdir_at (d : disk) (comps : list str) : bool := match locate d comps with Got p => is_dir d p | Raised _ => false end.
(** where the last component is made, without following it *)
Definition entry_of (d : disk) (comps : list str) : got place :=
  match rev comps with
  | [] => Raised Exists_
  | c :: r =>
      match locate d (rev r) with
      | Raised e => Raised e
      | Got p => if negb (is_dir d p) then Raised (if is_some (at_ d p) then NotADirectory else NotFound)
                 else if here c || up c then Raised Exists_ else Got (c :: p)
      end
  end.
(** os.mkdir *)
Definition mkdir (d : disk) (comps : list str) : out :=
  match entry_of d comps with
  | Raised e => (d, Some e)
  | Got p => match at_ d p with Some _ => (d, Some Exists_) | None => (put d p Dir, None) end
  end.
(** open(path, "wb"), and writing the content *)
Definition write_file (d : disk) (comps : list str) (content : str) : out :=
  match locate d comps with
  | Raised e => (d, Some e)
  | Got p => if is_dir d p then (d, Some IsADirectory) else (put d p (File content), None)
  end.
(** os.makedirs with [exist_ok=False], for the path with the components [rc], innermost first *)
Fixpoint makedirs (d : disk) (rc : list str) : out :=
  match rc with
  | [] => (d, Some Exists_)
  | tail :: head =>
      let ready :=
        match head with
        | [] => (d, None)
        | _ => if exists_at d (rev head) then (d, None)
               else match makedirs d head with
                    | (d, Some Exists_) => (d, None)
                    | o => o
                    end
        end in
      and_then ready (fun d => if str_eqb tail (lit ".") then (d, None) else mkdir d (rev rc))
  end.
(** the directories above a member: zipfile and tarfile make them in the same way *)
Definition upper_dirs (d : disk) (comps : list str) : out :=
  if exists_at d (removelast comps) then (d, None) else makedirs d (rev (removelast comps)).

(** zipfile: the members, each with its name and its content *)
Definition zip := list (str * str).
Definition components (name : str) : list str := split_on "/" name.
(** the components that are dropped from the names *)
Definition valid_part (c : str) : bool := negb (here c || up c).
Definition names_dir (name : str) : bool := match rev name with "/"%char :: _ => true | _ => false end.
(** [NameToInfo]: a later member with the same name replaces the earlier one *)
Fixpoint info (z : zip) (name : str) : option str :=
  match z with
  | [] => None
  | (n, c) :: r => match info r name with Some c => Some c | None => if str_eqb n name then Some c else None end
  end.
Definition zip_member (d : disk) (target : place) (name content : str) : out :=
  let comps := rev target ++ filter valid_part (components name) in
  and_then (upper_dirs d comps) (fun d =>
    if names_dir name
    then if isdir_at d comps then (d, None) else mkdir d comps
    else write_file d comps content).
(** [extractall]: for every name in [namelist], the member that the name stands for *)
Fixpoint zip_all (z : zip) (names : list str) (d : disk) (target : place) : out :=
  match names with
  | [] => (d, None)
  | n :: r => and_then (zip_member d target n (opt_or (info z n) [])) (fun d => zip_all z r d target)
  end.
Definition zip_extract (z : zip) (d : disk) (target : place) : out := zip_all z (map fst z) d target.

(** tarfile *)
Inductive kind := Regular (content : str) | Directory | Symlink (linkname : str).
Definition tar := list (str * kind).
Definition absolute (name : str) : bool := starts_with (lit "/") name.
Definition nonempty (c : str) : bool := negb (str_eqb c []).
(** os.path.join of the target with the name: an absolute name stays as it is *)
Definition joined (target : place) (name : str) : list str :=
  (if absolute name then [] else rev target) ++ filter nonempty (components name).
(** the slashes at the end of the name of a directory are removed when the archive is read; here only where it matters *)
Definition stored_name (name : str) (k : kind) : str :=
  match k with Directory => if forallb (ascii_eqb "/") name then [] else name | _ => name end.
Definition link_to (name : str) : node := Link (absolute name) (components name).
(** makelink: what has the name is removed before. Simplification: a link that cannot be made is an error (tarfile extracts the
    member that it stands for in its place, if there is one) *)
Definition make_link (d : disk) (comps : list str) (linkname : str) : out :=
  match entry_of d comps with
  | Raised Exists_ => (d, Some IsADirectory)
  | Raised e => (d, Some e)
  | Got p =>
      match at_ d p with
      | Some Dir => (d, Some IsADirectory)
      | _ => match linkname with [] => (drop d p, Some NotFound) | _ => (put d p (link_to linkname), None) end
      end
  end.
Definition tar_member (d : disk) (target : place) (name : str) (k : kind) : out :=
  let comps := joined target (stored_name name k) in
  match comps with [] => (d, Some NotFound) | _ =>        (* "/", which the removal of slashes at the end makes "" *)
  and_then (upper_dirs d comps) (fun d =>
    match k with
    | Regular content => write_file d comps content
    | Directory => match mkdir d comps with
                   | (d', Some Exists_) => if isdir_at d' comps then (d', None) else (d', Some Exists_)
                   | o => o
                   end
    | Symlink linkname => make_link d comps linkname
    end)
  end.
Fixpoint tar_extract (t : tar) (d : disk) (target : place) : out :=
  match t with
  | [] => (d, None)
  | (n, k) :: r => and_then (tar_member d target n k) (fun d => tar_extract r d target)
  end.

(** what the file of an archive holds *)
Inductive compression := Plain | Gzip | Bzip2 | Xz.
Inductive archive := ZipArchive (z : zip) | TarArchive (c : compression) (t : tar) | Garbage.
(** strings.py 28-34 *)
Definition ends_with (s suffix : str) : bool := starts_with (rev suffix) (rev s).
Definition endswith_any (s : str) (suffixes : list str) : option str := find (ends_with s) suffixes.
(** [Path.mkdir(exist_ok=True, parents=True)], innermost component first; the exception of [os.mkdir] for a missing parent
    makes the parents, any other one is raised unless the path is a directory *)
Fixpoint mkdir_parents (d : disk) (rc : list str) : out :=
  let when_there (o : out) := match o with
    | (d, Some e) => if isdir_at d (rev rc) then (d, None) else (d, Some e)
    | o => o end in
  match rc with
  | [] => (d, None)
  | c :: r =>
      match mkdir d (rev rc) with
      | (d, Some NotFound) => and_then (mkdir_parents d r) (fun d => when_there (mkdir d (rev rc)))
      | o => when_there o
      end
  end.
(** archives.py 9-22 *)
Definition extract_archive (name : str) (a : archive) (d : disk) (target : place) : out :=
  and_then (mkdir_parents d target) (fun d =>
    match endswith_any name [lit ".zip"; lit ".whl"] with
    | Some _ => match a with ZipArchive z => zip_extract z d target | _ => (d, Some BadArchive) end
    | None =>
        if ends_with name (lit ".tar.gz")
        then match a with TarArchive _ t => tar_extract t d target | _ => (d, Some BadArchive) end
        else if ends_with name (lit ".tar.bz2")
        then match a with TarArchive Bzip2 t => tar_extract t d target | _ => (d, Some BadArchive) end
        else (d, Some UnsupportedArchive)
    end).
