(** Model of the template for a project that is made from an environment: pkm-cli/src/pkm_templates/project_from_env/render.py 12-29.

    Simplifications: the project's file is the two texts that depend on the environment; the rest is in ScaffoldModel.  Line 18 is taken to
    work, though it never does as the code stands (C313, CatalogModel). *)
From Coq Require Import String Ascii List Bool NArith Arith.
From Verif Require Import Base VersionModel SpecifierModel DependencyModel PlanModel.
Import ListNotations.
Open Scope string_scope. Open Scope nat_scope. Open Scope list_scope. Open Scope bool_scope.

(** site_packages.py 143-175: an installed package, its descriptor and what the user asked for *)
Record installed := Installed { i_name : str; i_version : version; i_request : option dep }.
(** site_packages.py 98-99 [find_requested_packages] *)
Definition find_requested (site : list installed) : list installed := filter (fun p => match i_request p with Some _ => true | None => false end) site.
(** 24: the dependencies, as Dependency objects *)
Fixpoint all_generalized (l : list installed) : res (list dep) :=
  match l with
  | [] => Ok []
  | p :: r => do d <- generalized (i_name p) (i_version p); do ds <- all_generalized r; Ok (d :: ds)
  end.
(** 24-25: and as the texts that save writes (pyproject_configuration.py: str of each) *)
Definition dependencies_of (site : list installed) : res (list str) := do ds <- all_generalized (find_requested site); Ok (map dep_str ds).
(** 20-21, and requires-python of the project's template: the text for the interpreter's version *)
Definition requires_python_of (interpreter : sv) : str := lit "~=" ++ version_str (VStd (sv_without_patch interpreter)).
