(** Model of the environments and scripts of a zoo: pkm/src/pkm/api/environments/environments_zoo.py 38-56 and 86-124, and the
    template for new zoos pkm-cli/src/pkm_templates/envzoo.

    Simplifications: the file system has no links; the scripts of an environment are in its directory bin; the name of an executable of
    Windows is tried, as in the code. *)
From Coq Require Import String Ascii List Bool NArith Arith.
From Verif Require Import Base FsModel TemplateModel ProjectModel.
Import ListNotations.
Open Scope string_scope. Open Scope nat_scope. Open Scope list_scope. Open Scope bool_scope.

Definition zoo_file (zoo : path) : path := lit "env-zoo.toml" :: zoo.
(** 38-40 [_bin_path] *)
Definition bin_path (zoo : path) : path := lit "bin" :: lit ".zoo" :: zoo.
(** the template: its only file is rendered to the configuration *)
Definition new_zoo (f : fs) (zoo : path) (sharing : bool) : res fs :=
  do f <- mkdirs f zoo;
  TemplateModel.put f (zoo_file zoo) (lit "[package-sharing]" ++ ["010"%char] ++ lit "enabled=" ++ lit (if sharing then "true" else "false")).
(** 114-124 [load]; [text]: what save writes for a configuration that is not there (configfiles.py makes the directory) *)
Definition load_zoo (f : fs) (zoo : path) (text : str) : res fs :=
  if exists_at f (zoo_file zoo) then Ok f
  else
    do f <- mkdirs f zoo;
    do f <- TemplateModel.put f (zoo_file zoo) text;
    do f <- mkdirs f (bin_path zoo);
    mkdirs f (lit "shared" :: lit ".zoo" :: zoo).
(** 47-52; [create]: EnvironmentBuilder.create_matching *)
Definition create_environment (create : fs -> path -> res fs) (f : fs) (zoo : path) (name : str) : res fs :=
  if exists_at f (resolve zoo name) then Err IOErr else create f (resolve zoo name).
(** 54-56: shutil.rmtree raises for what is no directory *)
Definition delete_environment (f : fs) (zoo : path) (name : str) : res fs :=
  if is_dir f (resolve zoo name) then Ok (remove_tree f (resolve zoo name)) else Err IOErr.
(** 86-93 *)
Definition load_environment (f : fs) (zoo : path) (name : str) : res path :=
  let p := resolve zoo name in
  if negb (exists_at f p) then Err NoSuchElement
  else if negb (is_venv_path f p) then Err ValueError
  else Ok p.
(** shutil.copy of a file to a place; a directory, or nothing, in the place of the file raises *)
Definition copy_file (f : fs) (source : path) (dst : path) : res fs :=
  match source, lookup f source with
  | n :: _, Some (File c) => copy_to f n c dst
  | _, _ => Err IOErr
  end.
(** 95-102; the name of a script has no slash in it *)
Definition export_script (f : fs) (zoo : path) (env_name script_name : str) : res fs :=
  do e <- load_environment f zoo env_name;
  let scripts := lit "bin" :: e in
  let exe := script_name ++ lit ".exe" in
  if exists_at f (script_name :: scripts) then copy_file f (script_name :: scripts) (script_name :: bin_path zoo)
  else if exists_at f (exe :: scripts) then copy_file f (exe :: scripts) (exe :: bin_path zoo)
  else Err NoSuchElement.
(** 104-111: the files that the record of the package names; None: the package is not installed *)
Fixpoint export_files (f : fs) (zoo scripts : path) (files : list path) : res fs :=
  match files with
  | [] => Ok f
  | file :: r =>
      if under scripts file then do f <- copy_file f file (hd [] file :: bin_path zoo); export_files f zoo scripts r
      else export_files f zoo scripts r
  end.
Definition export_all_scripts (f : fs) (zoo : path) (env_name : str) (installed_files : option (list path)) : res fs :=
  do e <- load_environment f zoo env_name;
  match installed_files with
  | None => Err AttributeError
  | Some files => export_files f zoo (lit "bin" :: e) files
  end.
