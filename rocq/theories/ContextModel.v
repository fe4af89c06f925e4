(** Model of the context a command is run in: pkm-cli/src/pkm_cli/utils/context.py, and of pkm-cli/src/pkm_cli/main.py.

    Simplifications: what is printed is left out; the directories on the way to the root are real ones (no links); loading a
    project, a group or an environment that is there does not fail. *)
From Coq Require Import String Ascii List Bool NArith Arith.
From Verif Require Import Base FsModel CliModel.
Import ListNotations.
Open Scope string_scope.
Open Scope nat_scope.
Open Scope list_scope.
Open Scope bool_scope.

(** ** context.py *)
(** what a command is run on *)
Inductive target := OnProject (p : path) | OnGroup (p : path) | OnEnv (p : path) | OnAttachedEnv (project : path) | OnZoo (p : path)
  | OnGlobal (site : str) | OnNothing | OnMissing.
(** 105-113: the callbacks that are given *)
Record handlers := Handlers { h_project : bool; h_group : bool; h_env : bool; h_zoo : bool; h_free : bool; h_missing : bool }.
(** 22-41 and environments_zoo.py 126-128: the file that makes a directory one of these *)
Definition lookup_group (f : fs) (p : path) : bool := exists_at f (lit "pyproject-group.toml" :: p).
Definition lookup_project (f : fs) (p : path) : bool := exists_at f (lit "pyproject.toml" :: p).
Definition lookup_env (f : fs) (p : path) : option target :=
  if exists_at f (lit "pyvenv.cfg" :: p) then Some (OnEnv p) else if lookup_project f p then Some (OnAttachedEnv p) else None.
Definition lookup_zoo (f : fs) (p : path) : bool := exists_at f (lit "env-zoo.toml" :: p).
(** 52-69 [execute] *)
Definition execute_at (f : fs) (h : handlers) (p : path) : option target :=
  if h_project h && lookup_project f p then Some (OnProject p)
  else if h_group h && lookup_group f p then Some (OnGroup p)
  else match (if h_env h then lookup_env f p else None) with
       | Some t => Some t
       | None => if h_zoo h && lookup_zoo f p then Some (OnZoo p) else None
       end.
(** 142-144: [path.parents], nearest first *)
Fixpoint execute_parents (f : fs) (h : handlers) (p : path) : option target :=
  match p with
  | [] => None
  | _ :: q => match execute_at f h q with Some t => Some t | None => execute_parents f h q end
  end.
(** 83-87 *)
Record context := Context { x_path : path; x_lookup : bool; x_global : bool; x_site : option str }.
(** 105-151 [run]: the callback that is called *)
Definition run (f : fs) (h : handlers) (x : context) : res target :=
  if x_global x then
    let site := match x_site x with Some (c :: s) => c :: s | _ => lit "user" end in
    if h_env h then Ok (OnGlobal site) else if h_missing h then Ok OnMissing else Err UnsupportedOperation
  else
    match (match execute_at f h (x_path x) with
           | Some t => Some t
           | None => if x_lookup x then execute_parents f h (x_path x) else None
           end) with
    | Some t => Ok t
    | None => if h_free h then Ok OnNothing else if h_missing h then Ok OnMissing else Err UnsupportedOperation
    end.

(** ** Commands (command_parser.py): what was parsed, the innermost command first and the root last *)
(** 39-47 [__getattr__]: an argument of the command or of one above it *)
Fixpoint getattr (cmd : result) (name : str) : option val :=
  match cmd with
  | [] => None
  | (_, args) :: parents => match dict_get name args with Some v => Some v | None => getattr parents name end
  end.
(** 49-52 [parents] and 54-63 [parent_by_path]: the command at that path, with the ones above it *)
Fixpoint suffixes {A} (l : list A) : list (list A) := match l with [] => [] | _ :: r => l :: suffixes r end.
Definition parents (cmd : result) : list result := rev (suffixes (tl cmd)).
Definition last_word (c : result) : option str := match c with (p, _) :: _ => hd_error (rev p) | [] => None end.
Fixpoint path_matches (path : list str) (ps : list result) : bool :=
  match path, ps with
  | w :: path, p :: ps => match last_word p with Some v => str_eqb w v && path_matches path ps | None => false end
  | _, _ => true
  end.
Definition parent_by_path (path : list str) (cmd : result) : res result :=
  let ps := parents cmd in
  if length ps <? length path then Err NoSuchElement
  else if negb (path_matches path (tl ps)) then Err NoSuchElement
  else match nth_error ps (length path) with Some p => Ok p | None => Err IndexError end.
(** context.py 153-168 [of]; [to_path]: the path a text stands for; the context is then remembered at the command *)
Definition truthy (v : val) : bool :=
  match v with VS [] | VB false | VNone | VL [] | VD [] => false | _ => true end.
Definition text_of (v : val) : option str := match v with VS s | VO s => Some s | _ => None end.
Definition of (to_path : str -> path) (cwd : path) (cmd : result) : res context :=
  do c <- parent_by_path [lit "pkm"] cmd;
  match getattr c (lit "context") with
  | None => Err AttributeError
  | Some v =>
      if truthy v then match text_of v with Some s => Ok (Context (to_path s) false false None) | None => Err TypeError end
      else match getattr c (lit "global_context") with
           | None => Err AttributeError
           | Some g => if truthy g then Ok (Context cwd false true match getattr c (lit "site") with Some v => text_of v | None => None end)
                       else Ok (Context cwd true false None)
           end
  end.

(** ** main.py *)
(** 208-225 [main] of a command that was parsed: whether the tasks of a project are run around it *)
Inductive run_mode := WithTasks (project : path) | Plain.
Definition main_mode (to_path : str -> path) (cwd : path) (f : fs) (cmd : result) : res run_mode :=
  do x <- of to_path cwd cmd;
  do t <- run f (Handlers true false false false false true) x;
  Ok (match t with OnProject p => WithTasks p | _ => Plain end).
(** 142-199 [pkm_install]: what it does, in order; the packages are named.  [bound]: the repository they are bound to *)
Record install_args := Install { i_packages : list str; i_optional : option str; i_force : bool; i_app : bool; i_update : bool;
  i_repo : option str; i_unnamed : bool }.
Inductive action := ABind (names : list str) (repo : str) | ARemove (name : str) | AContainer (name : str) (update : bool)
  | AInstallDependencies (names : list str) (group : option str) (update : bool) | AInstallProject (group : option str)
  | AInstall (names : list str) (updates : option (list str)).
Definition is_given (o : option str) : bool := match o with Some (_ :: _) => true | _ => false end.
(** 151-160 [register_repo_bindings]: the actions, whether it sets [force], and what it raises; [args] (158) is not defined.
    Simplification: a repository is its name *)
Definition register_repo_bindings (bound : str -> option str) (a : install_args) : list action * bool * option exn :=
  if is_given (i_repo a) then
    let repo := match i_repo a with Some r => r | None => [] end in
    if existsb (fun d => negb (opt_eqb str_eqb (bound d) (Some repo))) (i_packages a) then ([ABind (i_packages a) repo], true, None) else ([], false, None)
  else if i_unnamed a then ([], false, Some OtherErr) else ([], false, None).
(** 162-165 [force] *)
Definition force_actions (force : bool) (names : list str) : list action := if force then map ARemove names else [].
(** 167-179 [on_project] *)
Definition install_on_project (bound : str -> option str) (a : install_args) : list action * option exn :=
  match register_repo_bindings bound a with
  | (acts, _, Some e) => (acts, Some e)
  | (acts, forced, None) =>
      if i_app a then (acts, Some UnsupportedOperation)
      else (acts ++ force_actions (i_force a || forced) (i_packages a)
             ++ match i_packages a with [] => [AInstallProject (i_optional a)] | l => [AInstallDependencies l (i_optional a) (i_update a)] end, None)
  end.
(** 181-199 [on_environment]: [args] (195) is not defined: NameError, here [OtherErr] *)
Definition install_on_environment (bound : str -> option str) (a : install_args) : list action * option exn :=
  match register_repo_bindings bound a with
  | (acts, _, Some e) => (acts, Some e)
  | (acts, forced, None) =>
      if is_given (i_optional a) then (acts, Some UnsupportedOperation)
      else match i_packages a with
           | [] => (acts, None)
           | d :: rest =>
               let '(acts, names) := if i_app a then (acts ++ [AContainer d (i_update a && (length (i_packages a) =? 1))], rest) else (acts, d :: rest) in
               match names with
               | [] => (acts, None)
               | _ => (acts ++ force_actions (i_force a || forced) names, Some OtherErr)
               end
           end
  end.
