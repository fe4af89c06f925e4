(** Model of the commands that change a project: the dependencies it lists (pkm-cli/src/pkm_cli/controllers/prj_controller.py),
    its publication (prj_controller.py, pkm/src/pkm/api/projects/project.py), the store of credentials
    (pkm-cli/src/pkm_cli/auth/publish_auth_store.py) and the tasks that are attached to commands
    (pkm-cli/src/pkm_cli/api/tasks).

    Simplifications: messages to the user are left out; the names of dependencies are valid (C105). *)
From Coq Require Import String Ascii List Bool NArith Arith.
From Verif Require Import Base FsModel NamesModel VersionModel SpecifierModel DependencyModel ProjectModel PlanModel.
Import ListNotations.
Open Scope string_scope.
Open Scope nat_scope.
Open Scope list_scope.
Open Scope bool_scope.

(** ** Dependencies of a project *)
(** pyproject_configuration.py 140-144: the two lists; a missing one is empty *)
Record config := Config { c_deps : list dep; c_groups : list (str * list dep) }.
(** dependency.py [package_name_key] *)
Definition dep_key (d : dep) : str := match package_name_key (d_name d) with Ok k => k | Err _ => d_name d end.
(** prj_controller.py 57-59: the list that is changed; an empty name of a group stands for none *)
Definition the_group (g : option str) : option str := match g with Some [] => None | g => g end.
Definition get_list (g : option str) (c : config) : list dep :=
  match the_group g with
  | None => c_deps c
  | Some n => match dict_get n (c_groups c) with Some l => l | None => [] end
  end.
Definition put_list (g : option str) (l : list dep) (c : config) : config :=
  match the_group g with
  | None => Config l (c_groups c)
  | Some n => Config (c_deps c) (dict_set n l (c_groups c))
  end.
(** 50-53 [combined_deps] *)
Definition combined (new old : list dep) : list dep :=
  filter (fun d => negb (str_mem (dep_key d) (map dep_key new))) old ++ new.
Fixpoint index_of (f : dep -> bool) (l : list dep) : option nat :=
  match l with [] => None | x :: r => if f x then Some 0 else option_map S (index_of f r) end.
Fixpoint replace_at (i : nat) (x : dep) (l : list dep) : list dep :=
  match l, i with [] , _ => [] | _ :: r, 0 => x :: r | y :: r, S i => y :: replace_at i x r end.

Section Controller.
  (** the environment, the file of locked packages and the modes of storage *)
  Variables Env Lock Mode : Type.
  (** project.py 180-202 [install_project]: of the project with the given dependencies; what it leaves and whether it raises.
      The names to update and the modes of storage come with it *)
  Variable install_project : list dep -> option str -> list str -> list (str * Mode) -> Env -> Env * option exn.
  (** package.py 184-199 [update_at] of the project with the given dependencies *)
  Variable update_at : list dep -> Env -> Env * option exn.
  (** environment.py 266-292 [uninstall] *)
  Variable uninstall : list str -> bool -> Env -> Env * option exn.
  (** the descriptor of the installed package with a name *)
  Variable installed : Env -> str -> option (str * version).
  (** whether writing pyproject.toml raises; it then leaves the file as it was (a simplification: the file is not replaced at once) *)
  Variable save : config -> option exn.
  (** packages_lock.py [update_lock] and [save] *)
  Variable update_lock : Env -> Lock -> Lock * option exn.

  (** [w_seen] is what [all_dependencies] (pyproject_configuration.py 190-205, a cached property) keeps after its first use *)
  Record world := World { w_memory : config; w_seen : option (list dep); w_file : config; w_env : Env; w_lock : Lock }.
  Definition set_memory (c : config) (w : world) : world := World c (w_seen w) (w_file w) (w_env w) (w_lock w).
  Definition set_env (e : Env) (w : world) : world := World (w_memory w) (w_seen w) (w_file w) e (w_lock w).
  Definition set_file (c : config) (w : world) : world := World (w_memory w) (w_seen w) c (w_env w) (w_lock w).
  Definition set_lock (l : Lock) (w : world) : world := World (w_memory w) (w_seen w) (w_file w) (w_env w) l.
  (** properties.py: a cached property is computed once *)
  Definition see (w : world) : world * res (list dep) :=
    match w_seen w with
    | Some l => (w, Ok l)
    | None => match all_dependencies (c_deps (w_memory w)) (c_groups (w_memory w)) with
              | Ok l => (World (w_memory w) (Some l) (w_file w) (w_env w) (w_lock w), Ok l)
              | Err e => (w, Err e)
              end
    end.
  (** a step may raise; the next one is then left out *)
  Definition outcome := (world * option exn)%type.
  Definition next (o : outcome) (k : world -> outcome) : outcome := match o with (w, None) => k w | (w, Some e) => (w, Some e) end.
  Definition run_install (group : option str) (updates : list str) (modes : list (str * Mode)) (w : world) : outcome :=
    match see w with
    | (w, Ok l) => let (e, r) := install_project l group updates modes (w_env w) in (set_env e w, r)
    | (w, Err e) => (w, Some e)
    end.
  Definition run_save (w : world) : outcome := match save (w_memory w) with None => (set_file (w_memory w) w, None) | Some e => (w, Some e) end.
  Definition run_lock (w : world) : outcome := let (l, r) := update_lock (w_env w) (w_lock w) in (set_lock l w, r).
  (** 73-79: a requirement without a version is replaced by one for what was installed *)
  Definition refine (env : Env) (l : list dep) (d : dep) : res (list dep) :=
    match d_spec d with
    | AllowAll =>
        match installed env (d_name d) with
        | None => Err AssertionError
        | Some (n, v) =>
            match index_of (fun x => str_eqb (dep_key x) (dep_key d)) l with
            | None => Err NoSuchElement
            | Some i => do g <- generalized n v; Ok (replace_at i g l)
            end
        end
    | _ => Ok l
    end.
  Fixpoint refine_all (env : Env) (l : list dep) (ds : list dep) : res (list dep) :=
    match ds with [] => Ok l | d :: r => do l <- refine env l d; refine_all env l r end.
  (** 65-83: what is tried *)
  Definition try_install (deps : list dep) (group : option str) (update : bool) (mode : Mode) (w : world) : outcome :=
    next (run_install group (if update then map d_name deps else []) (map (fun d => (d_name d, mode)) deps) w) (fun w =>
    match refine_all (w_env w) (get_list group (w_memory w)) deps with
    | Err e => (w, Some e)
    | Ok l => next (run_save (set_memory (put_list group l (w_memory w)) w)) run_lock
    end).
  (** 46-87 [install_dependencies] *)
  Definition install_dependencies (deps : list dep) (group : option str) (update : bool) (mode : Mode) (w : world) : outcome :=
    let old := get_list group (w_memory w) in
    match try_install deps group update mode (set_memory (put_list group (combined deps old) (w_memory w)) w) with
    | (w, None) => (w, None)
    | (w, Some e) => (set_memory (put_list group old (w_memory w)) w, Some e)
    end.

  (** 30-31 *)
  Definition without (keys : list str) (l : list dep) : list dep := filter (fun d => negb (str_mem (dep_key d) keys)) l.
  Fixpoint keys_of (names : list str) : res (list str) :=
    match names with [] => Ok [] | n :: r => do k <- package_name_key n; do ks <- keys_of r; Ok (k :: ks) end.
  (** 24-44 [uninstall_dependencies] *)
  Definition uninstall_dependencies (names : list str) (force : bool) (w : world) : outcome :=
    match keys_of names with
    | Err e => (w, Some e)
    | Ok keys =>
        let w := set_memory (Config (without keys (c_deps (w_memory w))) (map (fun g => (fst g, without keys (snd g))) (c_groups (w_memory w)))) w in
        match see w with
        | (w, Err e) => (w, Some e)
        | (w, Ok l) =>
            let (e, r) := update_at l (w_env w) in
            next (set_env e w, r) (fun w =>
            let (e, r) := uninstall names force (w_env w) in
            next (set_env e w, r) (fun w =>
            next (run_save w) run_lock))
        end
    end.
End Controller.
Arguments World {Env Lock}.
Arguments w_memory {Env Lock}.
Arguments w_seen {Env Lock}.
Arguments w_file {Env Lock}.
Arguments w_env {Env Lock}.
Arguments w_lock {Env Lock}.
Arguments install_dependencies {Env Lock Mode}.
Arguments uninstall_dependencies {Env Lock}.
Arguments run_install {Env Lock Mode}.

(** ** Publication *)
(** the credentials a repository asks for, repository.py [AuthParam]: their names (how they are asked for is left out) *)
Section Publish.
  (** project.py 282-300 [build]: the files it leaves *)
  Variable build : fs -> fs * option exn.
  (** the order in which a directory is listed *)
  Variable listing : fs -> path -> list str.
  (** what a repository has received so far, and what it says to one more file *)
  Definition upload_log := list (str * str).
  Variable accepts : upload_log -> str * str -> option exn.
  (** project.py 344-346 *)
  Fixpoint upload (f : fs) (dir : path) (names : list str) (log : upload_log) : upload_log * option exn :=
    match names with
    | [] => (log, None)
    | n :: r =>
        match lookup f (n :: dir) with
        | Some (File c) => match accepts log (n, c) with None => upload f dir r (log ++ [(n, c)]) | Some e => (log, Some e) end
        | _ => upload f dir r log
        end
    end.
  (** project.py 323-346 *)
  Definition project_publish (dist : path) (version : str) (f : fs) (log : upload_log) : upload_log * option exn :=
    if exists_at f (version :: dist) then upload f (version :: dist) (listing f (version :: dist)) log else (log, Some IOErr).
  (** prj_controller.py 89-109 [publish]; [publishable]: there is a publisher for the repository; [ask]: the answer of the user
      for a parameter; what was used is returned *)
  Definition publish (dist : path) (version : str) (publishable : bool) (params : list str) (given : list (str * str)) (ask : str -> str)
    (f : fs) (log : upload_log) : fs * upload_log * res (list (str * str)) :=
    let '(f, r) := if exists_at f (version :: dist) then (f, None) else build f in
    match r with
    | Some e => (f, log, Err e)
    | None =>
        if negb publishable then (f, log, Err UnsupportedOperation) else
        let args := map (fun p => (p, match dict_get p given with Some (c :: v) => c :: v | _ => ask p end)) params in
        match project_publish dist version f log with
        | (log, None) => (f, log, Ok args)
        | (log, Some e) => (f, log, Err e)
        end
    end.
End Publish.

(** ** The store of credentials, publish_auth_store.py *)
Section Store.
  (** 20-24 [_make_cipher], and what [Fernet] does *)
  Variable Key : Type.
  Variable make_cipher : str -> Key.
  Variable encrypt : Key -> str -> str.
  Variable decrypt : Key -> str -> option str.
  (** [toml.dumps] and [toml.loads] of the table of credentials *)
  Definition table := list (str * list (str * str)).
  Variable dumps : table -> str.
  Variable loads : str -> res table.
  (** 17 *)
  Definition magic : str := lit "REPOSITORIES_PUBLISH_AUTH".
  (** 29-32; the two fields are set together *)
  Definition store := option (Key * table).
  (** 34-60 [unlock] with a password that is not empty; [file] is the content of the configuration file *)
  Definition unlock (password : str) (file : option str) : res (Key * table) :=
    let k := make_cipher password in
    match file with
    | None => Ok (k, [])
    | Some bytes =>
        let text := match decrypt k bytes with Some t => t | None => [] end in
        if starts_with magic text then do t <- loads (skipn (length magic) text); Ok (k, t) else Err IOErr
    end.
  (** 65-67 [_ensure_unlocked]; [password] is what the user is asked for *)
  Definition ensure_unlocked (password : str) (file : option str) (s : store) : res (Key * table) :=
    match s with Some u => Ok u | None => unlock password file end.
  (** 72-74 *)
  Definition auth_args_for (password : str) (file : option str) (s : store) (name : str) : res (option (list (str * str))) :=
    do u <- ensure_unlocked password file s; Ok (dict_get name (snd u)).
  (** 76-80 [_save] *)
  Definition saved (u : Key * table) : option str := Some (encrypt (fst u) (magic ++ dumps (snd u))).
  (** 82-85 *)
  Definition add_auth_args (password : str) (file : option str) (s : store) (name : str) (args : list (str * str)) : res (store * option str) :=
    do u <- ensure_unlocked password file s; let u := (fst u, dict_set name args (snd u)) in Ok (Some u, saved u).
  (** 87-90 *)
  Definition rm_auth_args (password : str) (file : option str) (s : store) (name : str) : res (store * option str) :=
    do u <- ensure_unlocked password file s;
    if dict_has name (snd u) then let u := (fst u, dict_del name (snd u)) in Ok (Some u, saved u) else Err KeyError.
  (** main2.py 326-341 [pkm publish]: the credentials come from the command line and from the user; [publish] is the publication with
      given credentials, which returns the ones that were used *)
  Definition publish_command (publish : list (str * str) -> res (list (str * str))) (save : bool) (password : str) (file : option str)
    (repo : str) (given : list (str * str)) : option str * res (list (str * str)) :=
    match publish given with
    | Err e => (file, Err e)
    | Ok used =>
        if save then match add_auth_args password file None repo used with Ok (_, file) => (file, Ok used) | Err e => (file, Err e) end
        else (file, Ok used)
    end.
End Store.

(** ** Tasks *)
(** tasks_runner.py 155-160 [_get_attached_name]: the task that is attached to a command *)
Definition underscored (s : str) : str := map (fun c => if Ascii.eqb c "-" then "_"%char else c) s.
Definition attached_name (f : fs) (project : path) (phase : str) (command : list str) : option str :=
  let cmd := skipn 1 (map underscored command) in
  if exists_at f ((phase ++ lit ".py") :: rev cmd ++ lit "commands" :: lit "tasks" :: project)
  then Some (lit "commands." ++ join (lit ".") cmd ++ lit "." ++ phase) else None.
(** 109-113: the command line that is run first; a comma is missing between two of the texts *)
Definition runner_line (interpreter project_path : str) : list str :=
  [interpreter; lit "-m"; lit "pkm_cli.tasks.execute_task_cli" ++ lit "-p"; project_path].
(** [python -m module ...] ends with 0 only if there is such a module *)
Definition python_exit (modules : list str) (line : list str) : N :=
  match line with
  | _ :: dash_m :: m :: _ => if str_eqb dash_m "-m" && str_mem m modules then 0%N else 1%N
  | _ => 1%N
  end.
(** the things that happen *)
Inductive event := RanTask (name : str) | RanCommand.
(** 96-152 [_execute]; [check_returncode] raises (113); after that the task itself is run *)
Definition run_task (modules : list str) (interpreter project_path : str) (name : str) (log : list event) : list event * option exn :=
  if N.eqb (python_exit modules (runner_line interpreter project_path)) 0 then (log ++ [RanTask name], None) else (log, Some RuntimeErr).
Definition run_phase (modules : list str) (interpreter project_path : str) (f : fs) (project : path) (phase : str) (command : list str)
  (log : list event) : list event * option exn :=
  match attached_name f project phase command with Some t => run_task modules interpreter project_path t log | None => (log, None) end.
(** 68-76 [run_attached] around main.py 222-223; [fails]: what the command raises *)
Definition run_attached (modules : list str) (interpreter project_path : str) (f : fs) (project : path) (command : list str) (fails : option exn)
  : list event * option exn :=
  match run_phase modules interpreter project_path f project (lit "before") command [] with
  | (log, Some e) => (log, Some e)
  | (log, None) =>
      match fails with
      | Some e => (log ++ [RanCommand], Some e)
      | None => run_phase modules interpreter project_path f project (lit "after") command (log ++ [RanCommand])
      end
  end.
(** tasks_executor.py 28-35 and 38, 52-56: [_execute] is called without its third argument *)
Definition executor_line (interpreter project_path : str) (attachment : option str) (args : list str) : list str :=
  [interpreter; lit "-m"; lit "pkm_cli.api.tasks.tasks_executor"; lit "pkm"; lit "-p"; project_path]
  ++ match attachment with Some a => [lit "run-attached"; a] | None => [lit "run"] end ++ args.
Definition execute_attached (interpreter project_path phase : str) (args : list str) : list str :=
  executor_line interpreter project_path None (lit "-a" :: phase :: args).
(** [importlib.util.find_spec]: looking for [a.b] imports [a] first, which raises ModuleNotFoundError *)
Definition parent_module (name : str) : option str :=
  match rev (split_on "." name) with
  | _ :: (_ :: _) as p => Some (join (lit ".") (rev p))
  | _ => None
  end.
Inductive spec_found := Found | NotFound | NoParent.
Definition find_spec (modules : list str) (name : str) : spec_found :=
  match parent_module name with
  | Some p => if str_mem p modules then if str_mem name modules then Found else NotFound else NoParent
  | None => if str_mem name modules then Found else NotFound
  end.
(** tasks_executor.py 69-79 (and tasks_runner.py 23-33) [_load_task]: the module of a task; the exception of one look hides the other *)
Definition find_task (modules : list str) (name : str) : res str :=
  let name := underscored name in
  match find_spec modules name with
  | Found => Ok name
  | NoParent => Err IOErr
  | NotFound => match find_spec modules (lit "pkm_tasks." ++ name) with Found => Ok (lit "pkm_tasks." ++ name) | _ => Err IOErr end
  end.
(** 145-151: the first argument after [run] names the task *)
Definition run_argument (a : str) : str := lstrip "@" a.
