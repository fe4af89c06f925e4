(** The wheel of an application with its own packages, pkm/src/pkm/build/pkm_app_builders.py, as far as the files of its container
    go: pkm/src/pkm/api/environments/package_containers.py 144-245; and the script that installs pkm, get_pkm.py.

    Simplifications: a file is its path from the directory of packages and its content; of the packages in a container the scripts
    are told apart, since their first line depends on the environment; the permissions are left out. *)
From Coq Require Import String Ascii List Bool NArith Arith.
From Verif Require Import Base LauncherModel.
Import ListNotations.
Open Scope string_scope.
Open Scope nat_scope.
Open Scope list_scope.
Open Scope bool_scope.

(** ** An application *)
(** the directory of the application, the scripts of the packages in its container (name and text), and the other files *)
Record application := { a_dir : str; a_scripts : list (str * str); a_files : list (str * str) }.
(** package_containers.py 33-35, 97-103; executables.py 54: the scripts of a container, for the interpreter of the environment it
    is installed in *)
Definition container_script (a : application) (interpreter : str) (s : str * str) : str * str :=
  (a_dir a ++ lit "/__container__/bin/" ++ fst s, posix_script interpreter (snd s)).
(** package_containers.py 144-245: what is under the directory of packages after the installation of the project *)
Definition install_project (a : application) (interpreter : str) : list (str * str) := map (container_script a interpreter) (a_scripts a) ++ a_files a.
(** pkm_app_builders.py 38-51: the project is installed in a new environment, [temporary] is its interpreter, and what is there
    is the wheel *)
Definition build_app_wheel (a : application) (temporary : str) : list (str * str) := install_project a temporary.
(** wheel_distribution.py 104-122: the files of a wheel that are not in its directory of data are copied *)
Definition install_wheel (w : list (str * str)) (interpreter : str) : list (str * str) := w.

(** ** get_pkm.py *)
(** a file of a release: its kind and its address *)
Record release_file := { r_kind : str; r_url : str }.
(** 14-20: the releases in the order of the answer *)
Definition bootstrap (releases : list (str * list release_file)) : res str :=
  match rev releases with
  | [] => Err IndexError
  | (_, files) :: _ => match find (fun f => str_eqb (r_kind f) (lit "sdist")) files with Some f => Ok (r_url f) | None => Err OtherErr end
  end.
