(** Which packages an installation or a removal leads to: pkm/src/pkm/api/packages/package_installation.py. What is then done
    with them is in InstallModel. *)
From Coq Require Import String Ascii List Bool NArith Arith.
From Verif Require Import Base NamesModel VersionModel SpecifierModel DependencyModel ResolveModel.
Import ListNotations.
Open Scope string_scope.
Open Scope nat_scope.
Open Scope list_scope.
Open Scope bool_scope.

(** package.py:26-27, 71-73 and dependency.py [package_name_key]. Simplification: names that are empty after normalising do not
    get this far. *)
Definition key (name : str) : str := match package_name_key name with Ok k => k | Err _ => [] end.
Definition pkey (p : package) : str := key (k_name p).
(** an installed package and its user request. Simplification: the name in its metadata and the name of its directory have the
    same key (site_packages.py:80-85). *)
Record installed := Installed { s_package : package; s_request : option dep }.
Definition skey (i : installed) : str := pkey (s_package i).
(** a dictionary that is filled in this order *)
Definition dict_update {V} (d l : list (str * V)) : list (str * V) := fold_left (fun d e => dict_set (fst e) (snd e) d) l d.
Definition dict_of {V} (l : list (str * V)) : list (str * V) := dict_update [] l.

(** 345-361 [_UserRequestPackage]; the name is normalised (package.py:41-44) *)
Definition request_name : str := "installation-request".
Definition request_version : version := VStd (SV [0%N] None None None None None).
Definition request_package (request : list dep) : package := Package request_name request_version true (Some request).
Definition request_dependency : dep := Dep request_name (Match request_version true) None None.

(** ** [_InstallationRepository], 414-462 *)
(** [max(packages, key=lambda it: it.version)]: the first one that no later one is above *)
Definition max_version (first : package) (rest : list package) : package :=
  fold_left (fun m p => if version_ltb (k_version m) (k_version p) then p else m) rest first.
(** 454-459 *)
Definition unspecified_limit (v : version) : res spec :=
  match v with
  | VStd s => create_range (Some (sv_without_patch s)) None true false
  | _ => Ok (Match v true)
  end.
(** 431-462; the sort of 449 is stable *)
Definition install_match (repo_match : dep -> list package) (site : list installed) (request : package) (unspecified : list str) (fast : bool) (d : dep) : res (list package) :=
  if str_eqb (key (d_name d)) (pkey request) then Ok [request]
  else
    match dict_get (key (d_name d)) (dict_of (map (fun i => (skey i, i)) site)) with
    | Some i =>
        if fast then Ok [s_package i]
        else
          let same p := version_eqb (k_version (s_package i)) (k_version p) in
          let packages := repo_match d in
          Ok (filter same packages ++ filter (fun p => negb (same p)) packages)
    | None =>
        if fast && str_mem (key (d_name d)) unspecified then
          match repo_match d with
          | [] => Err ValueError
          | p :: r => do limit <- unspecified_limit (k_version (max_version p r)); Ok (filter (fun p => allows limit (k_version p)) (p :: r))
          end
        else Ok (repo_match d)
    end.
(** what the resolver gets. Simplification: an error ends the planning; here it counts as no answer, so that there may be a plan
    where the code has none *)
Definition answered (m : dep -> res (list package)) (d : dep) : list package := match m d with Ok l => l | Err _ => [] end.

(** ** [plan_installation], 125-195 *)
Record plan := Plan { l_packages : list package; l_requests : list (str * dep) }.
(** 155-156; [updates] are compared with keys as they are *)
Definition preinstalled (site : list installed) (updates : list str) : list installed := filter (fun i => negb (str_mem (skey i) updates)) site.
Definition requested_deps (site : list installed) : list (str * dep) :=
  dict_of (flat_map (fun i => match s_request i with Some d => [(skey i, d)] | None => [] end) site).
(** 157-160 with no list given *)
Definition unspecified_of (deps : list dep) : list str :=
  flat_map (fun d => match d_spec d with AllowAll => [key (d_name d)] | _ => [] end) deps.
Definition new_deps (deps : list dep) : list (str * dep) := dict_of (map (fun d => (key (d_name d), d)) deps).

Section Plan.
  (** dependency_resolver.py:22-48: the repository, the overrides and the root *)
  Variable resolve : (dep -> list package) -> list (str * dep) -> dep -> res (list package).
  Variable repo_match : dep -> list package.

  (** 170-185 *)
  Definition fast_repository (pre : list installed) (deps : list dep) : dep -> list package :=
    answered (install_match repo_match pre (request_package (map snd (new_deps deps))) (unspecified_of deps) true).
  Definition fast_plan (pre : list installed) (deps : list dep) (overrides : list (str * dep)) : res (list package) :=
    do l <- resolve (fast_repository pre deps) overrides request_dependency;
    let names := map pkey l in
    Ok (l ++ filter (fun p => negb (str_mem (pkey p) names)) (map s_package pre)).
  (** 191-197: the overrides are not given to the resolver *)
  Definition all_deps (pre : list installed) (deps : list dep) : list dep := map snd (dict_update (requested_deps pre) (new_deps deps)).
  Definition slow_repository (pre : list installed) (deps : list dep) : dep -> list package :=
    answered (install_match repo_match pre (request_package (all_deps pre deps)) (unspecified_of deps) false).
  Definition slow_plan (pre : list installed) (deps : list dep) : res (list package) :=
    resolve (slow_repository pre deps) [] request_dependency.
  Definition plan_installation (site : list installed) (deps : list dep) (user_requested : bool) (overrides : list (str * dep)) (updates : list str) : res plan :=
    let pre := preinstalled site updates in
    do l <- match fast_plan pre deps overrides with
            | Err UnsatError => slow_plan pre deps
            | r => r
            end;
    Ok (Plan l (if user_requested then dict_update (requested_deps pre) (new_deps deps) else requested_deps pre)).

  (** ** [uninstall], 60-93, and [_RemovalRepository], 364-411 *)
  (** 394-397: only what is installed counts *)
  Definition removal_package (site : list installed) (i : installed) : package :=
    let p := s_package i in
    Package (k_name p) (k_version p) (k_fits p)
      (option_map (filter (fun d => dict_has (key (d_name d)) (dict_of (map (fun i => (skey i, i)) site)))) (k_requires p)).
  (** 374-380 and repository.py:73-90 for at most one package *)
  Definition removal_match (site : list installed) (request : package) (d : dep) : list package :=
    if str_eqb (d_name d) (k_name request) then [request]
    else
      match dict_get (key (d_name d)) (dict_of (map (fun i => (skey i, i)) site)) with
      | Some i => filter k_fits [removal_package site i]
      | None => []
      end.
  (** 74-77: the names are compared as they are *)
  Definition remaining (site : list installed) (names : list str) : list dep :=
    map snd (dict_of (flat_map (fun i => match s_request i with Some d => if str_mem (k_name (s_package i)) names then [] else [(k_name (s_package i), d)] | None => [] end) site)).
  (** 79-82: the packages that stay *)
  Definition plan_removal (site : list installed) (names : list str) : res (list package) :=
    resolve (removal_match site (request_package (remaining site names))) [] request_dependency.
End Plan.

(** 226-229: the packages that are there when the plan is executed (C32) *)
Definition is_request (p : package) : bool := str_eqb (pkey p) (key request_name).
Definition after (l : list package) : list package := filter (fun p => negb (is_request p)) l.

(** ** [to_dependency] with [generalize], package.py:46-58; the release of a version has at least one number *)
Definition generalized (name : str) (v : version) : res dep :=
  do s <- match v with
          | VStd s =>
              let next := SV [(hd 0%N (release s) + 1)%N] (epoch s) (pre_release s) (post_release s) (dev_release s) (local_label s) in
              mk_range (Some s) (Some next) true false
          | _ => Ok (Match v true)
          end;
  Ok (Dep name s None None).
