(** The templates that can be used and the commands of "pkm new": pkm-cli/src/pkm_cli/api/templates/template_runner.py 25-63, 69-95,
    170-182, 188-196 and pkm-cli/src/pkm_cli/main.py 111-124, and the start of pkm-cli/src/pkm_templates/project_from_env/render.py.

    Simplifications: the directories are the trees of TaskModel.v, where of a script it only matters whether it has a function setup;
    reading a script raises nothing; the package pkm_templates is one directory, which need not have an __init__.py (as
    importlib.resources reads it since Python 3.10); the name of a template has no slash. *)
From Coq Require Import String Ascii List Bool NArith Arith.
From Verif Require Import Base TaskModel.
Import ListNotations.
Open Scope string_scope.
Open Scope nat_scope.
Open Scope list_scope.
Open Scope bool_scope.

Definition render_py : str := lit "render.py".
(** ** 33-41 [find]: [pre] is the namespace after "pkm_templates".  The first entry with the name ends the loop, and what was found
    before is dropped.  A directory with a point in its name cannot be imported.  Lines 43-44 take "pkm_templates." off the front *)
Fixpoint find (n : node) (pre : list str) : res (list str) :=
  match n with
  | Script _ => Ok []
  | Folder l =>
    (fix go (l : list (str * node)) (result : list str) : res (list str) :=
       match l with
       | [] => Ok result
       | (name, x) :: r =>
         if str_eqb name render_py then Ok [join (lit ".") pre]
         else match x with
              | Script _ => go r result
              | Folder _ => if existsb (Ascii.eqb ".") name then Err IOErr
                            else do sub <- find x (pre ++ [name]); go r (result ++ sub)
              end
       end) l []
  end.
(** 31-44 [templates_in_namespace] *)
Definition templates_in_namespace (installed : node) : res (list str) := find installed [].

(** [Path.exists] *)
Fixpoint exists_below (n : node) (p : list str) : bool :=
  match p with
  | [] => true
  | c :: r => match n with
              | Folder l => match dict_get c l with Some x => exists_below x r | None => false end
              | Script _ => false
              end
  end.
(** ** 47-63 [load_template] and 69-73: the file that is read, and whether it has a function setup.  [spec_from_file_location] is
    given a name and no location, which yields None (53), whose origin is asked for next (73).  A directory named render has a spec
    without an origin.  [Path] drops empty parts. *)
Definition load_template (cwd installed : node) (name : str) : res (list str * bool) :=
  let name := underscored name in
  if exists_below cwd (filter (fun c => negb (str_eqb c [])) (split_on "." name) ++ [render_py]) then Err AttributeError
  else match find_module (split_on "." name ++ [lit "render"]) (entries installed) [] with
       | FoundFile p has_setup => Ok (p, has_setup)
       | FoundNamespace => Err TypeError
       | NotFound | NoParent => Err IOErr
       end.
(** 79-95 [as_command], 170-182 [_module]: the name of the command and the file it was made of *)
Definition as_command (cwd installed : node) (name : str) : res (str * list str) :=
  do t <- load_template cwd installed name;
  if snd t then Ok (name, fst t) else Err UnsupportedOperation.
Fixpoint as_commands (cwd installed : node) (names : list str) : res (list (str * list str)) :=
  match names with
  | [] => Ok []
  | n :: r => do c <- as_command cwd installed n; do rest <- as_commands cwd installed r; Ok (c :: rest)
  end.
(** ** main.py 111-124 [pkm_new]: the commands that are offered after "pkm new"; [next]: the argument that follows *)
Definition offered (cwd installed : node) (next : option str) : res (list (str * list str)) :=
  do names <- templates_in_namespace installed;
  as_commands cwd installed
    (match next with
     | Some (c :: n) => match filter (starts_with (c :: n)) names with [] => names | filtered => filtered end
     | _ => names
     end).
Definition pkm_new (cwd installed : node) (next : option str) : res (list (str * list str)) :=
  match next with
  | Some (c :: n) => match as_command cwd installed (c :: n) with
                     | Ok x => Ok [x]
                     | Err _ => offered cwd installed next
                     end
  | _ => offered cwd installed next
  end.

(** ** Templates that use others *)
(** 25-63: what a runner has; simplification: without what every object has *)
Definition runner_attributes : list str := [lit "jinja_context"; lit "templates_in_namespace"; lit "load_template"].
(** 193-196 [render_template], which a setup may call: the file of the other template, which is then executed.  It asks the runner
    for [_load_template] *)
Definition render_template (cwd installed : node) (name : str) : res (list str) :=
  if str_mem (lit "_load_template") runner_attributes then do t <- load_template cwd installed name; Ok (fst t)
  else Err AttributeError.
(** project_from_env/render.py 11-19: the part of its setup before the project is there *)
Definition project_from_env_starts (is_venv_path : bool) (cwd installed : node) : res (list str) :=
  if negb is_venv_path then Err ValueError else render_template cwd installed (lit "project").
