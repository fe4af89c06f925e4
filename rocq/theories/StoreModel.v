(** How the mode that is given on the command line reaches the packages: pkm-cli/src/pkm_cli/main.py,
    pkm-cli/src/pkm_cli/controllers/, and the [install_to] of the kinds of packages.

    Simplifications: packages in containers and shared packages are left out; every installation succeeds. *)
From Coq Require Import String Ascii List Bool NArith Arith.
From Verif Require Import Base NamesModel VersionModel SpecifierModel DependencyModel ResolveModel PlanModel InstallModel.
Import ListNotations.
Open Scope string_scope.
Open Scope nat_scope.
Open Scope list_scope.
Open Scope bool_scope.

(** main.py 133-134 and 148: the choices are tested by the reader of the option; enums.py 10-14 *)
Definition upper (s : str) : str := map (fun c => let n := N_of_ascii c in if (97 <=? n)%N && (n <=? 122)%N then ascii_of_N (n - 32) else c) s.
Definition mode_choices : list str := [lit "editable"; lit "copy"; lit "auto"].
Definition mode_by_name (s : str) : res mode :=
  if str_eqb s (lit "EDITABLE") then Ok Editable else if str_eqb s (lit "COPY") then Ok Copy else if str_eqb s (lit "AUTO") then Ok Auto else Err KeyError.
Definition read_mode (given : option str) : res mode :=
  let s := opt_or given (lit "auto") in
  if str_mem s mode_choices then mode_by_name (upper s) else Err ValueError.
(** main.py 196, prj_controller.py 67, self_controller.py 28, package_containers.py 166: by the name as it was given;
    a package that is given twice has one entry *)
Definition modes_of (deps : list dep) (m : mode) : list (str * mode) := dict_of (map (fun d => (d_name d, m)) deps).

(** the kinds of packages: a published one (a wheel or an archive of sources), a directory with a project (of the local
    repository or from git), and one of conda *)
Inductive kind := KPublished | KProject | KConda.
(** what is installed, and whether the files are copied or linked *)
Record stored := Stored { t_info : ipkg; t_files : mode }.
(** the mode that is recorded, and what happens to the files:
    - standard_package.py 101-113; an archive of sources is built with [editable=False], source_build_cache.py 68;
    - project.py 116-130;
    - conda_channel_subdir.py 230-240 *)
Definition recorded (k : kind) (m : mode) : mode :=
  match k with
  | KPublished => match m with Auto => Copy | _ => m end
  | KProject => match m with Copy => Copy | _ => Editable end
  | KConda => Copy
  end.
Definition files (k : kind) (m : mode) : mode :=
  match k with
  | KPublished => Copy
  | KProject => match m with Copy => Copy | _ => Editable end
  | KConda => Copy
  end.
(** the operation that the plan has for one package of the resolution, done; the requests as in [InstallModel.effect] *)
Definition store_one (requests : list (str * str)) (modes : list (str * mode)) (pre : option stored) (k : kind) (r : rpkg) : option stored :=
  let m := opt_or (dict_get (r_key r) modes) Auto in
  let request := dict_get (r_key r) requests in
  let marked := option_map (fun t => let i := t_info t in Stored (IP (i_key i) (i_version i) (i_mode i) request) (t_files t)) pre in
  match plan_one requests modes (option_map t_info pre) r with
  | OSkip _ => pre
  | OInstall _ => Some (Stored (IP (r_key r) (r_version r) (recorded k m) request) (files k m))
  | OUpdate _ =>
      if r_installed r then marked
      else Some (Stored (IP (r_key r) (r_version r) (recorded k m) (match request with Some d => Some d | None => match pre with Some t => i_request (t_info t) | None => None end end)) (files k m))
  | OMark _ => marked
  | ORemove _ => None
  end.
