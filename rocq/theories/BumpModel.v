(** The next version of a project: pkm/src/pkm/api/projects/project.py 154-182, and what is read from the file afterwards
    (pkm/src/pkm/config/configclass.py 214-222: versions are written with [str] and read with [Version.parse]).

    Simplifications: of the project only its version is kept, the one in memory and the text in pyproject.toml; saving works. *)
From Coq Require Import String Ascii List Bool NArith Arith.
From Verif Require Import Base VersionModel VersionParse.
Import ListNotations.
Open Scope string_scope.
Open Scope nat_scope.
Open Scope list_scope.
Open Scope bool_scope.

Record project := Project { in_memory : version; in_file : str }.
(** [PyProjectConfiguration.load], the version *)
Definition load_project (text : str) : res project := do v <- parse_version text; Ok (Project v text).
(** 163-176: the new version *)
Definition new_version (p : project) (particle : str) (new_name : option str) : res version :=
  if str_eqb particle (lit "name") then
    match new_name with
    | Some (c :: n) => Ok (VNamed (c :: n))
    | _ => Err UnsupportedOperation
    end
  else match in_memory p with
       | VStd s => if negb (length (release s) =? 3) then Err UnsupportedOperation
                   else do w <- bump (VStd s) particle; Ok (VStd w)
       | _ => Err UnsupportedOperation
       end.
(** 154-182 [bump_version]: the project afterwards and the result *)
Definition bump_version (p : project) (particle : str) (new_name : option str) (save : bool) : res (project * version) :=
  do v <- new_version p particle new_name;
  Ok (Project v (if save then version_str v else in_file p), v).
