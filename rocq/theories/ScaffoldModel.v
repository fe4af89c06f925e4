(** Model of the template for new projects: pkm-cli/src/pkm_templates/project/render.py 22-42, its pyproject.toml.tmpl, and the template for
    a project of an existing environment, pkm-cli/src/pkm_templates/project_from_env.

    Simplifications: a template of jinja is the list of its texts and of its variables; the questions have been answered. *)
From Coq Require Import String Ascii List Bool NArith ZArith Arith.
From Verif Require Import Base NamesModel TomlModel.
Import ListNotations.
Open Scope string_scope. Open Scope nat_scope. Open Scope list_scope. Open Scope bool_scope.

(** jinja: a variable that is not defined is empty (the runner, template_runner.py 28, keeps this default) *)
Inductive piece := Text (s : str) | Var (name : str).
Definition render (context : list (str * str)) (l : list piece) : str :=
  concat (map (fun p => match p with Text s => s | Var n => match dict_get n context with Some s => s | None => [] end end) l).

(** the answers: 30-41 *)
Record answers := Answers {
  project_name : str; version : str; description : str; markdown : bool; required_python : str; author : str; license : str }.
(** 30-42: [locals()], the values that are texts; 31: a name that cannot be normalized fails *)
Definition setup (a : answers) : res (list (str * str)) :=
  do package_name <- normalize_src_package_name (project_name a);
  Ok [ (lit "project_name", project_name a); (lit "required_python", required_python a); (lit "package_name", package_name);
       (lit "version", version a); (lit "description", description a);
       (lit "readme_type", if markdown a then lit "Markdown" else lit "reStructuredText");
       (lit "readme_file_ext", if markdown a then lit "md" else lit "rst");
       (lit "author", author a); (lit "license_text", license a) ].
(** pyproject.toml.tmpl; jinja drops the line end at the end *)
Definition pyproject_template : list piece := [
  Text (lit "[project]" ++ [nl] ++ lit "name = """); Var (lit "project_name");
  Text (lit """" ++ [nl] ++ lit "version = """); Var (lit "version");
  Text (lit """" ++ [nl] ++ lit "description = """); Var (lit "description");
  Text (lit """" ++ [nl] ++ lit "readme = ""README."); Var (lit "readme_file_ext");
  Text (lit """" ++ [nl] ++ lit "requires-python= ""~="); Var (lit "required_python");
  Text (lit """" ++ [nl] ++ lit "authors = [{name="""); Var (lit "author");
  Text (lit """}]" ++ [nl] ++ lit "license.text = """); Var (lit "license");
  Text (lit """" ++ [nl] ++ lit "dependencies = []" ++ [nl] ++ [nl] ++ lit "[build-system]" ++ [nl] ++ lit "requires=[""pkm""]" ++ [nl]
        ++ lit "build-backend = ""pkm.api.buildsys""") ].
Definition pyproject (a : answers) : res str := do c <- setup a; Ok (render c pyproject_template).

(** project_from_env: the file with the attached environment *)
Definition environments_template : list piece := [Text (lit "[attached-env]" ++ [nl] ++ lit "path = """); Var (lit "env_path"); Text (lit """")].
Definition environments (env_path : str) : str := render [(lit "env_path", env_path)] environments_template.
