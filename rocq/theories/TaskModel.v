(** The list of tasks and the task of a name: pkm-cli/src/pkm_cli/api/tasks/tasks_executor.py 69-136 (the same text is in
    pkm-cli/src/pkm_cli/api/tasks/execute_task_cli.py 17-84).

    Simplifications: the tasks of the project are the only modules with their names, apart from the installed ones, which are the
    tree of the package pkm_tasks; of a script it only matters whether it has a function run at its top level; every script can be
    parsed. *)
From Coq Require Import String Ascii List Bool NArith Arith.
From Verif Require Import Base.
Import ListNotations.
Open Scope string_scope.
Open Scope nat_scope.
Open Scope list_scope.
Open Scope bool_scope.

(** a file, with the answer to whether it has a function run, or a directory *)
Inductive node := Script (has_run : bool) | Folder (l : list (str * node)).
Definition dot_py : str := lit ".py".
Fixpoint ends_with (e s : str) : bool := str_eqb e s || match s with [] => false | _ :: r => ends_with e r end.
Definition without_py (name : str) : str := firstn (length name - 3) name.
(** [Path.suffix] is ".py": a name that begins with its only point has no suffix *)
Definition py_stem (name : str) : option str := if ends_with dot_py name && (3 <? length name) then Some (without_py name) else None.

(** ** 124-134 [find_in_directory]: the names, and the files they were made of.  [pre] is the path from the directory of the tasks;
    a directory with the suffix is read like a file, which raises IsADirectoryError *)
Fixpoint find_in_directory (n : node) (pre : list str) : res (list (str * list str)) :=
  match n with
  | Script _ => Ok []
  | Folder l =>
    (fix go (l : list (str * node)) : res (list (str * list str)) :=
       match l with
       | [] => Ok []
       | (name, x) :: r =>
         do here <- match py_stem name with
                    | Some s => match x with
                                | Script true => Ok [(join (lit ".") (pre ++ [s]), pre ++ [name])]
                                | Script false => Ok []
                                | Folder _ => Err IOErr
                                end
                    | None => match x with Folder _ => find_in_directory x (pre ++ [name]) | Script _ => Ok [] end
                    end;
         do rest <- go r; Ok (here ++ rest)
       end) l
  end.
(** ** 110-120 [find_in_namespace]: [pre] is the part of the namespace after "pkm_tasks".  A directory whose name has a point
    cannot be imported.  The name begins with the namespace without its first ten characters. *)
Definition listed_name (pre : list str) (s : str) : str := join (lit ".") pre ++ lit "." ++ s.
Fixpoint find_in_namespace (n : node) (pre : list str) : res (list (str * list str)) :=
  match n with
  | Script _ => Ok []
  | Folder l =>
    (fix go (l : list (str * node)) : res (list (str * list str)) :=
       match l with
       | [] => Ok []
       | (name, x) :: r =>
         do here <- (if ends_with dot_py name
                     then match x with
                          | Script true => Ok [(listed_name pre (without_py name), pre ++ [name])]
                          | Script false => Ok []
                          | Folder _ => Err IOErr
                          end
                     else match x with
                          | Folder _ => if existsb (Ascii.eqb ".") name then Err IOErr else find_in_namespace x (pre ++ [name])
                          | Script _ => Ok []
                          end);
         do rest <- go r; Ok (here ++ rest)
       end) l
  end.
(** 109-136 [_load_all_tasks]: the names.  Without the package pkm_tasks its contents cannot be asked for. *)
Definition load_all_tasks (project : node) (installed : option node) : res (list (str * list str)) :=
  match installed with
  | None => Err IOErr
  | Some i => do a <- find_in_namespace i []; do b <- find_in_directory project []; Ok (a ++ b)
  end.

(** ** 69-89 [_load_task] *)
Definition underscored (s : str) : str := map (fun c => if Ascii.eqb c "-" then "_"%char else c) s.
(** [importlib.util.find_spec]: a file with its path, a directory without an __init__.py, nothing, or an exception because
    something before the last point is not a package *)
Inductive found := FoundFile (p : list str) (has_run : bool) | FoundNamespace | NotFound | NoParent.
(** at each point a directory with an __init__.py comes before a file, and this before another directory *)
Inductive module := Package (l : list (str * node)) (has_run : bool) | Plain (has_run : bool) | Namespace (l : list (str * node)) | Nothing.
Definition init_py : str := lit "__init__.py".
Definition module_of (c : str) (l : list (str * node)) : module :=
  let file := match dict_get (c ++ dot_py) l with Some (Script b) => Some b | _ => None end in
  match dict_get c l with
  | Some (Folder k) => match dict_get init_py k with
                       | Some (Script b) => Package k b
                       | _ => match file with Some b => Plain b | None => Namespace k end
                       end
  | _ => match file with Some b => Plain b | None => Nothing end
  end.
Fixpoint find_module (comps : list str) (l : list (str * node)) (pre : list str) : found :=
  match comps with
  | [] => NotFound
  | [c] => match module_of c l with
           | Package _ b => FoundFile (pre ++ [c; init_py]) b
           | Plain b => FoundFile (pre ++ [c ++ dot_py]) b
           | Namespace _ => FoundNamespace
           | Nothing => NotFound
           end
  | c :: rest => match module_of c l with
                 | Package k _ => find_module rest k (pre ++ [c])
                 | Namespace k => find_module rest k (pre ++ [c])
                 | Plain _ | Nothing => NoParent
                 end
  end.
Definition entries (n : node) : list (str * node) := match n with Folder l => l | Script _ => [] end.
(** a file that is no task, and what cannot be executed *)
Definition as_task (f : found) : res (list str) :=
  match f with FoundFile p true => Ok p | FoundFile _ false | FoundNamespace => Err ValueError | NotFound | NoParent => Err IOErr end.
(** a name that begins with a point is relative to no package: ImportError, which is not handled.  The second look is for
    "pkm_tasks." and the name. *)
Definition load_task (project : node) (installed : option node) (name : str) : res (list str) :=
  let name := underscored name in
  if starts_with (lit ".") name then Err OtherErr
  else match find_module (split_on "." name) (entries project) [] with
       | NotFound => match installed with
                     | None => Err IOErr
                     | Some i => do p <- as_task (find_module (split_on "." name) (entries i) []); Ok (lit "pkm_tasks" :: p)
                     end
       | f => as_task f
       end.
