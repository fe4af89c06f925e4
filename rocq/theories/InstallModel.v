(** Installation plans, uninstallation and orphans:
    pkm/src/pkm/api/packages/package_installation.py and pkm/src/pkm/api/packages/site_packages.py. *)
From Coq Require Import String Ascii List Bool NArith Arith.
From Verif Require Import Base FsModel FilesModel.
Import ListNotations.
Open Scope string_scope.
Open Scope nat_scope.
Open Scope list_scope.
Open Scope bool_scope.

(** ** [InstallationPlan] *)
(** package_installation_info.py:10-15 [StoreMode] *)
Inductive mode := Editable | Copy | Auto.
Definition mode_eqb (a b : mode) : bool :=
  match a, b with Editable, Editable | Copy, Copy | Auto, Auto => true | _, _ => false end.
(** an installed package: its name key, version, store mode and user request (a dependency, as text).
    Simplification: versions are numbers, only compared for equality. *)
Record ipkg := IP { i_key : str; i_version : N; i_mode : mode; i_request : option str }.
(** a package of the resolution; [r_request]: it is a [_UserRequestPackage]; [r_installed]: it is an
    [InstalledPackage], whose [update_at] differs *)
Record rpkg := RP { r_key : str; r_version : N; r_request : bool; r_installed : bool }.
Inductive op := OSkip (r : rpkg) | OInstall (r : rpkg) | OUpdate (r : rpkg) | OMark (i : ipkg) | ORemove (i : ipkg).
(** package_installation.py:232-255, the body of the loop for one package that is not installed or installed as [pre] *)
Definition plan_one (user_requests : list (str * str)) (store_modes : list (str * mode)) (pre : option ipkg) (r : rpkg) : op :=
  match pre with
  | Some i =>
      let store_mode := opt_or (dict_get (r_key r) store_modes) Auto in
      let store_mode_matching := mode_eqb store_mode Auto || mode_eqb store_mode (i_mode i) in
      let new_user_request := dict_get (i_key i) user_requests in
      let user_request_matching := is_none new_user_request || opt_eqb str_eqb (i_request i) new_user_request in
      if (i_version i =? r_version r)%N then
        if store_mode_matching && user_request_matching then OSkip r
        else if store_mode_matching then OMark i
        else OUpdate r
      else OUpdate r
  | None => OInstall r
  end.
(** 232-258: the loops; [dict_del] is [preinstalled.pop] *)
Fixpoint plan_loop (user_requests : list (str * str)) (store_modes : list (str * mode)) (pre : list (str * ipkg)) (todo : list (str * rpkg)) : list op :=
  match todo with
  | [] => map (fun e => ORemove (snd e)) pre
  | (k, r) :: rest => plan_one user_requests store_modes (dict_get k pre) r :: plan_loop user_requests store_modes (dict_del k pre) rest
  end.
Definition dict_by {V} (key : V -> str) (l : list V) : list (str * V) := fold_left (fun d v => dict_set (key v) v d) l [].
(** 217-260 [compute_operations_for_target] *)
Definition compute_operations (installed : list ipkg) (packages : list rpkg) (user_requests : list (str * str)) (store_modes : list (str * mode)) : list op :=
  plan_loop user_requests store_modes (dict_by i_key installed) (dict_by r_key (filter (fun r => negb (r_request r)) packages)).

Definition op_key (o : op) : str :=
  match o with OSkip r | OInstall r | OUpdate r => r_key r | OMark i | ORemove i => i_key i end.
(** what one task (302-343) does to the package with its key:
    - [install_to], standard_package.py:99-111: AUTO becomes COPY;
    - [Package.update_at], package.py:185-200: an update keeps the previous request when there is no new one;
    - [InstalledPackage.update_at], site_packages.py:198-205: only marks or unmarks the request;
    - [InstalledPackage.uninstall].
    Simplification: every task succeeds. *)
Definition install_mode (m : mode) : mode := match m with Auto => Copy | _ => m end.
Definition effect (user_requests : list (str * str)) (store_modes : list (str * mode)) (o : op) (before : option ipkg) : option ipkg :=
  let m := opt_or (dict_get (op_key o) store_modes) Auto in
  let request := dict_get (op_key o) user_requests in
  match o with
  | OSkip _ => before
  | OInstall r => Some (IP (r_key r) (r_version r) (install_mode m) request)
  | OUpdate r =>
      if r_installed r then option_map (fun i => IP (i_key i) (i_version i) (i_mode i) request) before
      else Some (IP (r_key r) (r_version r) (install_mode m)
                    (match request with Some d => Some d | None => match before with Some i => i_request i | None => None end end))
  | OMark _ => option_map (fun i => IP (i_key i) (i_version i) (i_mode i) request) before
  | ORemove _ => None
  end.
Definition execute_op (user_requests : list (str * str)) (store_modes : list (str * mode)) (st : list (str * ipkg)) (o : op) : list (str * ipkg) :=
  match effect user_requests store_modes o (dict_get (op_key o) st) with
  | Some i => dict_set (op_key o) i st
  | None => dict_del (op_key o) st
  end.
(** the tasks run concurrently: [order] is the order in which they take effect *)
Definition execute (user_requests : list (str * str)) (store_modes : list (str * mode)) (installed : list ipkg) (order : list op) : list (str * ipkg) :=
  fold_left (execute_op user_requests store_modes) order (dict_by i_key installed).

(** ** Orphans *)
(** an installed package with all its published dependencies (name keys); the flag tells whether the dependency is
    applicable in the environment *)
Record gpkg := GP { g_name : str; g_key : str; g_requested : bool; g_deps : list (str * bool) }.
Definition find_pkg (installed : list gpkg) (k : str) : option gpkg := find (fun p => str_eqb (g_key p) k) installed.
(** site_packages.py:101-118 [find_orphan_packages]; [pop_or_none] takes the last element. Result: the keys that are
    not orphans; [None]: still running.
    Simplification: the key of the metadata and the key of the directory name of a package are the same. *)
Fixpoint orphan_loop (fuel : nat) (installed : list gpkg) (requested : list gpkg) (done : list str) : option (list str) :=
  match rev requested with
  | [] => Some done
  | next :: before =>
      match fuel with
      | 0 => None
      | S k =>
          if str_mem (g_key next) done then orphan_loop k installed (rev before) done
          else orphan_loop k installed
                 (rev before ++ flat_map (fun d => match find_pkg installed (fst d) with Some i => [i] | None => [] end) (g_deps next))
                 (g_key next :: done)
      end
  end.
Definition find_orphan_packages (fuel : nat) (installed : list gpkg) : option (list gpkg) :=
  match orphan_loop fuel installed (filter g_requested installed) [] with
  | Some done => Some (filter (fun p => negb (str_mem (g_key p) done)) installed)
  | None => None
  end.

(** ** [PackageInstallationTarget.uninstall], package_installation.py:60-93 *)
(** 75-78: the packages that remain requested; the names given are compared with the names of the packages as they are *)
Definition remaining_requests (installed : list gpkg) (to_remove : list str) : list gpkg :=
  filter (fun p => g_requested p && negb (str_mem (g_name p) to_remove)) installed.
(** 80-93, [solution]: what the resolver answers; [key]: [package_name_key]. Result: the installed packages afterwards
    and the returned set. All operations for packages of the solution are SKIP, the others are removed. *)
Definition uninstall (key : str -> str) (installed : list gpkg) (to_remove : list str) (solution : list gpkg) : list gpkg * list str :=
  let kept := map g_name solution in
  let after_plan := filter (fun p => str_mem (g_key p) (map g_key solution)) installed in
  let unmarked := map key (filter (fun n => str_mem n kept) to_remove) in
  (map (fun p => if str_mem (g_key p) unmarked then GP (g_name p) (g_key p) false (g_deps p) else p) after_plan,
   filter (fun n => negb (str_mem n kept)) to_remove).

(** 60-93 as a whole: the resolver is asked for the remaining requests *)
Definition uninstall_with (key : str -> str) (resolve : list gpkg -> list gpkg) (installed : list gpkg) (to_remove : list str) : list gpkg * list str :=
  uninstall key installed to_remove (resolve (remaining_requests installed to_remove)).

(** ** [InstalledPackage.uninstall], site_packages.py:208-236 *)
(** [Path(root, file).resolve()], distinfo.py:222-224. Simplification: no symbolic links. *)
Definition resolve_component (acc : path) (c : str) : path :=
  if str_eqb c "" || str_eqb c "." then acc else if str_eqb c ".." then tl acc else c :: acc.
Definition resolve_record (root : path) (file : str) : path :=
  match file with
  | "/"%char :: _ => fold_left resolve_component (split_on "/" file) []
  | _ => fold_left resolve_component (split_on "/" file) root
  end.
(** distinfo.py:216-227 [installed_files] *)
Definition installed_files (dist_info : path) (records : list str) : list path :=
  map (resolve_record (parent dist_info)) records ++ [lit "RECORD" :: dist_info].
(** [Path.unlink(missing_ok=True)]; directories cannot be unlinked *)
Definition unlink (f : fs) (p : path) : res fs :=
  match lookup f p with
  | Some (File _) => Ok (remove_path f p)
  | Some Dir => Err IOErr
  | None => Ok f
  end.
Fixpoint unlink_all (f : fs) (ps : list path) : res fs :=
  match ps with
  | [] => Ok f
  | p :: r => do f <- unlink f p; unlink_all f r
  end.
(** 218-231: the set of parents is emptied in any order *)
Definition eligible (site p : path) : bool := negb (path_eqb p site) && is_relative_to p site.
Definition pycache (p : path) : path := lit "__pycache__" :: p.
(** lines 224-225; [rmtree] with [ignore_errors] does nothing to a regular file *)
Definition drop_pycache (f : fs) (p : path) : fs := if is_dir f (pycache p) then remove_tree f (pycache p) else f.
Definition without (p : path) (s : list path) : list path := filter (fun q => negb (path_eqb q p)) s.
Inductive clean (site : path) : fs -> list path -> fs -> Prop :=
| clean_done : forall f, clean site f [] f
| clean_skip : forall f s p f', In p s -> eligible site p = false -> clean site f (without p s) f' -> clean site f s f'
| clean_keep : forall f s p f', In p s -> eligible site p = true -> is_empty_directory (drop_pycache f p) p = false ->
    clean site (drop_pycache f p) (without p s) f' -> clean site f s f'
| clean_rmdir : forall f s p f', In p s -> eligible site p = true -> is_empty_directory (drop_pycache f p) p = true ->
    clean site (remove_path (drop_pycache f p) p) (parent p :: without (parent p) (without p s)) f' -> clean site f s f'.
(** the whole removal: the relation between the file system before and after *)
Definition removal (dist_info : path) (records : list str) (f f' : fs) : Prop :=
  exists f1 f2, unlink_all f (installed_files dist_info records) = Ok f1 /\
    clean (parent dist_info) f1 (map parent (installed_files dist_info records)) f2 /\
    f' = remove_tree f2 dist_info.
