(** Model of repositories, their loading and their management:
    pkm/src/pkm/api/repositories/repository.py (63-103), repository_loader.py (88-182) and repository_management.py (57-76,
    99-153, 156-251, 260-285).

    A repository is what its users see of it: its name, what it accepts and its answers. Simplifications: a version is a
    string and a specifier is a predicate on packages; the arguments of repositories are strings. Asking a composite
    repository for an unknown protocol adds an empty entry to its handlers (a defaultdict), which only changes
    [accepted_url_protocols] of it and is left out. *)
From Coq Require Import String Ascii List Bool NArith Arith.
From Verif Require Import Base NamesModel.
Import ListNotations.
Open Scope string_scope.
Open Scope nat_scope.
Open Scope list_scope.
Open Scope bool_scope.

Record package := Pkg { p_name : str; p_version : str; p_fits_env : bool; p_pre : bool }.
(** [d_url]: the protocol of [required_url()]; [d_allows]: version_spec.allows_version; [d_pre]: allows_pre_or_dev_releases *)
Record dep := Dep { d_name : str; d_url : option str; d_allows : package -> bool; d_pre : bool }.
Record repo := Repo { r_name : str; r_plain : bool; r_protocols : list str; r_match : dep -> res (list package) }.

(** repository.py 86-90 *)
Definition filter_prereleases (d : dep) (l : list package) : list package :=
  if d_pre d then l else match filter (fun p => negb (p_pre p)) l with [] => l | rest => rest end.
(** repository.py 73-78; [_do_match] is [f] *)
Definition abstract_match (f : dep -> res (list package)) (d : dep) : res (list package) :=
  do l <- f d; Ok (filter_prereleases d (filter p_fits_env l)).

(** repository_loader.py 166-169, 177-179: the first answer that is not empty *)
Fixpoint first_answer (d : dep) (l : list repo) : res (option (list package)) :=
  match l with
  | [] => Ok None
  | r :: rest => do m <- r_match r d; match m with [] => first_answer d rest | _ => Ok (Some m) end
  end.
(** 164-182 *)
Definition composite_do_match (search : list repo) (bind_only : list str) (bindings : list (str * str)) (d : dep) : res (list package) :=
  let plain := filter r_plain search in
  match d_url d with
  | Some protocol =>
      do m <- first_answer d (filter (fun r => str_mem protocol (r_protocols r)) search);
      match m with Some l => Ok l | None => Err TypeError end     (* 169: raise [] *)
  | None =>
      let unbound := do m <- first_answer d (filter (fun r => negb (str_mem (r_name r) bind_only)) plain); Ok (opt_or m []) in
      match dict_get (d_name d) bindings with
      | Some ((_ :: _) as n) => match find (fun r => str_eqb (r_name r) n) plain with Some r => r_match r d | None => Err NoSuchElement end
      | _ => unbound
      end
  end.
(** 145-162, 181-182: a missing repository in the list fails when the composite is built *)
Fixpoint present (l : list (option repo)) : res (list repo) :=
  match l with [] => Ok [] | Some r :: rest => do x <- present rest; Ok (r :: x) | None :: _ => Err AttributeError end.
Definition composite (name : str) (search : list repo) (bind_only : list str) (bindings : list (str * str)) : repo :=
  Repo name true (nodup (list_eq_dec ascii_dec) (flat_map r_protocols search)) (abstract_match (composite_do_match search bind_only bindings)).

(** ** Configurations, repositories_configuration.py 15-37 *)
Inductive mode := InheritContext | InheritGlobal | NoInheritance.
Record instance := Instance { i_type : str; i_bind_only : bool; i_args : list (str * str) }.
Inductive binding := ToRepo (name : str) | Inline (definition : list (str * str)).
Record config := Config { c_repos : list (str * instance); c_mode : mode; c_bindings : list (str * binding) }.

(** ** The loader *)
(** 132-141: equality of keys; dicts are equal when they hold the same entries *)
Definition args_eqb (a b : list (str * str)) : bool :=
  (length a =? length b) && forallb (fun e => opt_eqb str_eqb (dict_get (fst e) b) (Some (snd e))) a.
Definition cache := list ((str * list (str * str)) * repo).
Fixpoint cached (ty : str) (args : list (str * str)) (c : cache) : option repo :=
  match c with
  | [] => None
  | ((t, a), r) :: rest => if str_eqb t ty && args_eqb a args then Some r else cached ty args rest
  end.
Definition builders := list (str * (str -> list (str * str) -> res repo)).
(** 126: "-" becomes "_" in the names of the arguments *)
Definition underscores (s : str) : str := map (fun c => if Ascii.eqb c "-" then "_"%char else c) s.
Definition keyword_args (a : list (str * str)) : list (str * str) := map (fun e => (underscores (fst e), snd e)) a.
(** 121-129 *)
Definition build (bs : builders) (name ty : str) (args : list (str * str)) (c : cache) : res repo * cache :=
  match cached ty args c with
  | Some r => (Ok r, c)
  | None =>
      match dict_get ty bs with
      | None => (Err KeyError, c)
      | Some b => match b name (keyword_args args) with
                  | Ok r => (Ok r, c ++ [((ty, args), r)])
                  | Err e => (Err e, c)
                  end
      end
  end.
(** 92-96 *)
Fixpoint build_defined (bs : builders) (l : list (str * instance)) (c : cache) : res (list repo) * cache :=
  match l with
  | [] => (Ok [], c)
  | (n, i) :: rest =>
      match build bs n (i_type i) (i_args i) c with
      | (Err e, c) => (Err e, c)
      | (Ok r, c) => let (rs, c) := build_defined bs rest c in (do rs <- rs; Ok (r :: rs), c)
      end
  end.
Definition defined_bind_only (l : list (str * instance)) : list str := map fst (filter (fun e => i_bind_only (snd e)) l).
Definition type_key : str := lit "type".
(** 103-112: the instances of inline bindings, the bindings by name and the bindings that are left in the configuration *)
Fixpoint build_bindings (bs : builders) (name : str) (l : list (str * binding)) (c : cache)
  : res (list repo * list (str * str)) * list (str * binding) * cache :=
  match l with
  | [] => (Ok ([], []), [], c)
  | (p, ToRepo n) :: rest =>
      match build_bindings bs name rest c with
      | (r, kept, c) => (do x <- r; Ok (fst x, (p, n) :: snd x), (p, ToRepo n) :: kept, c)
      end
  | (p, Inline def) :: rest =>
      match dict_get type_key def with
      | None => (Err KeyError, (p, Inline def) :: rest, c)
      | Some ty =>
          let def' := dict_del type_key def in          (* the dictionary of the configuration loses its type *)
          match build bs name ty def' c with
          | (Err e, c) => (Err e, (p, Inline def') :: rest, c)
          | (Ok b, c) =>
              match build_bindings bs name rest c with
              | (r, kept, c) => (do x <- r; Ok (b :: fst x, (p, r_name b) :: snd x), (p, Inline def') :: kept, c)
              end
          end
      end
  end.
(** 88-119; [global]: the global repository, once there is one *)
Definition load (bs : builders) (global : option repo) (name : str) (cfg : config) (next : option repo) (c : cache)
  : res (option repo) * config * cache :=
  match build_defined bs (c_repos cfg) c with
  | (Err e, c) => (Err e, cfg, c)
  | (Ok defined, c) =>
      let inherited := match c_mode cfg with InheritContext => [next] | InheritGlobal => [global] | NoInheritance => [] end in
      match build_bindings bs name (c_bindings cfg) c with
      | (r, kept, c) =>
          let cfg' := Config (c_repos cfg) (c_mode cfg) kept in
          (do x <- r;
           match defined, inherited, fst x with
           | [], [], [] => Ok (match c_mode cfg with InheritGlobal => global | _ => next end)
           | _, _, _ =>
               do search <- present (map Some defined ++ inherited ++ map Some (fst x));
               Ok (Some (composite name search (defined_bind_only (c_repos cfg) ++ map r_name (fst x)) (snd x)))
           end, cfg', c)
      end
  end.

(** ** Management of a configuration, repository_management.py 99-153 *)
(** what a user hands over to [register_bindings]: nothing, a name or an instance configuration *)
Inductive target := Nothing | Name (n : str) | InstanceTarget (i : instance).
Record manager := Manager { m_config : config; m_disk : config; m_cache : cache }.
Definition with_bindings (m : manager) (b : list (str * binding)) : manager :=
  let c := Config (c_repos (m_config m)) (c_mode (m_config m)) b in Manager c c (m_cache m).
Definition dict_update {V} (a b : list (str * V)) : list (str * V) := fold_left (fun d e => dict_set (fst e) (snd e) d) b a.
(** 99-114; an instance configuration has no [to_config], 102 *)
Definition register_bindings (packages : list str) (t : target) (m : manager) : res unit * manager :=
  match t with
  | Name ((_ :: _) as n) => (Ok tt, with_bindings m (dict_update (c_bindings (m_config m)) (map (fun p => (p, ToRepo n)) packages)))
  | InstanceTarget _ => (Err AttributeError, m)
  | _ => (Ok tt, with_bindings m (filter (fun e => negb (str_mem (fst e) packages)) (c_bindings (m_config m))))
  end.
(** 130-139 *)
Definition add_repository (bs : builders) (name ty : str) (args : list (str * str)) (bind_only : bool) (m : manager) : res unit * manager :=
  match build bs name ty args (m_cache m) with
  | (Err e, c) => (Err e, Manager (m_config m) (m_disk m) c)
  | (Ok _, c) =>
      let cfg := Config (dict_set name (Instance ty bind_only args) (c_repos (m_config m))) (c_mode (m_config m)) (c_bindings (m_config m)) in
      (Ok tt, Manager cfg cfg c)
  end.
Definition binding_to (n : str) (b : binding) : bool := match b with ToRepo x => str_eqb x n | Inline _ => false end.
(** 149-153 *)
Definition remove_repository (name : str) (m : manager) : manager :=
  let cfg := Config (dict_del name (c_repos (m_config m))) (c_mode (m_config m))
                    (filter (fun e => negb (binding_to name (snd e))) (c_bindings (m_config m))) in
  Manager cfg cfg (m_cache m).
(** 116-124 for one context: loading changes the configuration in memory *)
Definition load_attached (bs : builders) (global next : option repo) (name : str) (m : manager) : res (option repo) * manager :=
  match load bs global name (m_config m) next (m_cache m) with (r, cfg, c) => (r, Manager cfg (m_disk m) c) end.

(** ** The lookup chain, 57-76 *)
(** each context has the path of its configuration, a mode and its parents *)
Record contexts (X : Type) := Contexts { x_path : X -> str; x_mode : X -> mode; x_parents : X -> list (X * bool) }.
Arguments x_path {X}.
Arguments x_mode {X}.
Arguments x_parents {X}.
(** 63-75: the stack grows and shrinks at its end, kept first here *)
Fixpoint chain_loop {X} (fuel : nat) (g : contexts X) (pending : list (X * bool)) (closed : list str) (chain : list X) : option (list X) :=
  match fuel with
  | 0 => None
  | S fuel =>
      match pending with
      | [] => Some (rev chain)
      | (n, inherit) :: rest =>
          if str_mem (x_path g n) closed then chain_loop fuel g rest closed chain
          else chain_loop fuel g (if inherit then rev (x_parents g n) ++ rest else rest) (x_path g n :: closed) (n :: chain)
      end
  end.
(** 58-61 *)
Definition lookup_chain {X} (fuel : nat) (g : contexts X) (global n : X) : option (list X) :=
  match x_mode g n with
  | InheritGlobal => Some [global]
  | NoInheritance => Some [n]
  | InheritContext => chain_loop fuel g [(n, true)] [] []
  end.

(** the contexts there are, 156-251: pkm, zoos, environments (in a zoo or not), groups and projects (in a group or not) *)
Inductive context := CPkm | CZoo (path : str) | CEnv (path : str) (zoo : option str) | CGroup (path : str)
  | CProject (path : str) (env : str) (env_zoo : option str) (group : option str).
Definition parents (c : context) : list (context * bool) :=
  match c with
  | CPkm => []
  | CZoo _ => [(CPkm, true)]
  | CEnv _ (Some z) => [(CZoo z, true)]
  | CEnv _ None => [(CPkm, true)]
  | CGroup _ => [(CPkm, true)]
  | CProject _ e z g => (CEnv e z, true) :: match g with Some g => [(CGroup g, false)] | None => [] end
  end.

Definition context_path (pkm_path : str) (c : context) : str :=
  match c with CPkm => pkm_path | CZoo p | CEnv p _ | CGroup p | CProject p _ _ _ => p end.
Definition all_contexts (pkm_path : str) (modes : context -> mode) : contexts context := Contexts _ (context_path pkm_path) modes parents.

(** ** 260-285 (the order of the projects, by version, is left out) *)
Definition projects_do_match (projects : list package) (base : option repo) (d : dep) : res (list package) :=
  let inherited := match base with Some b => r_match b d | None => Ok [] end in
  match d_url d with
  | Some _ => inherited
  | None => do k <- package_name_key (d_name d);
            match filter (fun p => match package_name_key (p_name p) with Ok k2 => str_eqb k k2 | Err _ => false end) projects with
            | [] => inherited
            | l => Ok l
            end
  end.
