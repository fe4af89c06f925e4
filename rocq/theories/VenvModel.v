(** Model of the creation of an environment, pkm/src/pkm/api/environments/environment_builder.py 39-112, of what pkm remembers about an
    interpreter, pkm/src/pkm/api/environments/environment_introspection.py 112-142 and 386-421, and of the parts of
    pkm/src/pkm/api/environments/environment.py that use it: 82-88, 112-116 and 198-229.

    Simplifications: the components of a path are plain names (there is no [".."] and none is a link); on windows the file init.tcl of a
    python that was built in place is left out; what an interpreter prints about itself is a value of any type. *)
From Coq Require Import String Ascii List Bool NArith ZArith Arith.
From Verif Require Import Base VersionModel ActivateModel.
Import ListNotations.
Open Scope string_scope. Open Scope nat_scope. Open Scope list_scope. Open Scope bool_scope.

(** ** the creation of an environment *)
Record path := Path { absolute : bool; parts : list str }.
(** the place that a path names, in a process that runs in [cwd] *)
Definition place (cwd : list str) (p : path) : list str := if absolute p then parts p else cwd ++ parts p.
(** [p / name] *)
Definition sub (p : path) (l : list str) : path := Path (absolute p) (parts p ++ l).
Definition same_place (a b : list str) : bool := if list_eq_dec (list_eq_dec ascii_dec) a b then true else false.
(** what is put somewhere: a directory, a link with its text, the configuration, a copy of a file *)
Inductive thing := Directory | Link (target : path) | Settings (home : path) (version : str) | Copy (source : path).
Definition world := list (list str * thing).
Definition present (w : world) (l : list str) : bool := existsb (fun e => same_place (fst e) l) w.
(** where the link at a place leads *)
Definition leads (l : list str) (target : path) : list str := if absolute target then parts target else removelast l ++ parts target.

(** what is read from the introspection of the interpreter *)
Record python := Python { windows : bool; darwin : bool; posix : bool; bits32 : bool; info : N * N * N }.
Definition version_of (v : N * N * N) : list N := match v with (a, b, c) => [a; b; c] end.
(** 97-98: the name of the i-th executable *)
Definition executable (v : N * N * N) (i : nat) : str := lit "python" ++ join (lit ".") (map show_N (firstn i (version_of v))).
(** 97-101 *)
Definition add_executable (cwd : list str) (bin interpreter : path) (v : N * N * N) (w : world) (i : nat) : world :=
  let p := place cwd (sub bin [executable v i]) in
  if present w p then w else w ++ [(p, Link interpreter)].
(** 84 *)
Definition windows_files : list str := [lit "python.exe"; lit "python_d.exe"; lit "pythonw.exe"; lit "pythonw_d.exe"].
(** 47-103.  [there]: which places exist before; [parent]: the directory of a path.  The result: what is put where, in order *)
Definition parent (p : path) : path := Path (absolute p) (removelast (parts p)).
Definition create (cwd : list str) (there : list str -> bool) (py : python) (env interpreter : path) : res world :=
  let interpreter := Path true (place cwd interpreter) in
  if there (place cwd env) then Err IOErr else
  let at_ (l : list str) := place cwd (sub env l) in
  let w := [(place cwd env, Directory); (at_ [lit "pyvenv.cfg"], Settings (parent interpreter) (join (lit ".") (map show_N (version_of (info py)))))] in
  let '(bin, include, site) :=
    if windows py then ([lit "Scripts"], [lit "Include"], [lit "Lib"; lit "site-packages"])
    else ([lit "bin"], [lit "include"],
          [lit "lib"; lit "python" ++ join (lit ".") (map show_N (firstn 2 (version_of (info py)))); lit "site-packages"]) in
  let w := w ++ [(at_ bin, Directory); (at_ include, Directory)]
             ++ map (fun n => (at_ (firstn n site), Directory)) (seq 1 (length site)) in
  let w := if negb (bits32 py) && posix py && negb (darwin py) then w ++ [(at_ [lit "lib64"], Link (sub env [lit "lib"]))] else w in
  Ok (if windows py
      then w ++ flat_map (fun f => if there (place cwd (sub (parent interpreter) [f])) then [(at_ (bin ++ [f]), Copy (sub (parent interpreter) [f]))] else [])
                         windows_files
      else fold_left (add_executable cwd (sub env bin) interpreter (info py)) (seq 0 3) w).

(** ** environment_introspection.py 386-421: what is known about the interpreter of an environment *)
Section Introspection.
Context {D : Type}.
(** the file etc/pkm/env_introspection.json *)
Inductive file := Missing | Garbage | NotADictionary | Saved (sentinel : option Z) (d : D).
(** 387-396 [run]: what the interpreter at this path prints about itself;  409 [hash]: python's hash of the texts, which depends on the
    process.  The result: what is known, the file, and whether the interpreter was run *)
Definition load_or_compute (hash : str -> Z) (run : str -> res D) (f : file) (interpreter : str) : res (D * file * bool) :=
  let recompute := do d <- run interpreter; Ok (d, Saved (Some (hash interpreter)) d, true) in
  match f with
  | NotADictionary => Err AttributeError
  | Saved (Some s) d => if negb (Z.eqb s 0) && Z.eqb s (hash interpreter) then Ok (d, f, false) else recompute
  | _ => recompute
  end.
(** environment.py 82-88 *)
Definition introspection (is_venv : bool) (hash : str -> Z) (run : str -> res D) (f : file) (interpreter : str) : res (D * file * bool) :=
  if is_venv then load_or_compute hash run f interpreter
  else do d <- run interpreter; Ok (d, f, true).
(** several uses of the environment, each in a process with its own hash *)
Fixpoint uses (run : str -> res D) (f : file) (l : list ((str -> Z) * str)) : res (list (D * bool) * file) :=
  match l with
  | [] => Ok ([], f)
  | (hash, interpreter) :: l =>
      do x <- load_or_compute hash run f interpreter;
      let '(d, f, ran) := x in
      do y <- uses run f l;
      Ok ((d, ran) :: fst y, snd y)
  end.
End Introspection.
Arguments file : clear implicits.

(** ** the versions of an interpreter *)
(** sys.version_info and sys.implementation.version: three numbers, the level and the serial *)
Record version_info := Info { numbers : N * N * N; level : str; serial : N }.
(** environment_introspection.py 117-126; no version is "0" *)
Definition implementation_version (v : option version_info) : str :=
  match v with
  | None => lit "0"
  | Some v => join (lit ".") (map show_N (version_of (numbers v)))
              ++ (if str_eqb (level v) (lit "final") then [] else firstn 1 (level v) ++ show_N (serial v))
  end.
(** environment.py 112-116 *)
Definition interpreter_version (v : version_info) : version := VStd (SV (version_of (numbers v)) None None None None None).

(** ** environment.py 198-229: processes.  [own]: os.environ, [given]: the argument [env], [started]: how a process that gets this
    environment ends.  The result: os.environ and the given dictionary afterwards, and how it ended.  221-227: an empty dictionary counts as
    none; the process gets a copy *)
Definition run_proc (scripts home : str) (started : env -> option exn) (own : env) (given : option env) : env * option env * option exn :=
  let copy := match given with Some (x :: l) => x :: l | _ => own end in
  let '(_, x) := activate scripts home (fun e => (e, started e)) copy in (own, given, x).
(** 198-210: there is no copy, and none is an error; [replaced]: whether the program could be started, after which nothing of pkm is left *)
Definition exec_proc (scripts home : str) (replaced : env -> option exn) (own : env) (given : option env) : env * option env * option exn :=
  match given with
  | None => (own, given, Some AttributeError)
  | Some e => let '(e, x) := activate scripts home (fun e => (e, replaced e)) e in (own, Some e, x)
  end.
