(** Vocabulary for the properties of installations of conda packages. *)
From Coq Require Import String Ascii List Bool NArith Arith.
From Verif Require Import Base FsModel FsFacts RecordFileModel WheelModel WheelSpec.
Import ListNotations.
Open Scope string_scope. Open Scope nat_scope. Open Scope list_scope. Open Scope bool_scope.

(** names like python3.9 *)
Definition python_name (n : str) : Prop :=
  exists major c rest, major <> [] /\ Forall (fun x => is_digit x = true) major /\ is_digit c = true /\ n = lit "python" ++ major ++ lit "." ++ c :: rest.
(** a file of the extracted package, with its path from there, outermost name first *)
Definition packaged (w : fs) (tmp : path) (r : list str) (s : str) : Prop := lookup w (rev r ++ tmp) = Some (File s).
Definition lib_has (w : fs) (tmp : path) (n : str) : Prop := lookup w (n :: lit "lib" :: tmp) <> None.
(** the list of the files to install *)
Definition to_install (w : fs) (tmp : path) (r : list str) : Prop :=
  exists text, lookup w (lit "files" :: lit "info" :: tmp) = Some (File text) /\ In (join "/" r) (split_lines text).
(** a path in the library of some version of Python *)
Definition versioned (w : fs) (tmp : path) (r : list str) (n : str) (rest : list str) : Prop :=
  r = lit "lib" :: n :: rest /\ rest <> [] /\ python_name n /\ lib_has w tmp n.
(** where a file belongs: the library is that of the Python of the environment, whose name is [pylib] *)
Inductive home (w : fs) (tmp data : path) (pylib : str) : list str -> path -> Prop :=
| home_lib : forall r n rest, versioned w tmp r n rest -> pylib <> lit "lib" -> home w tmp data pylib r (rev rest ++ pylib :: lit "lib" :: data)
| home_data : forall r, (forall n rest, versioned w tmp r n rest -> pylib = lit "lib") -> home w tmp data pylib r (rev r ++ data).
(** packages as they should be: paths without [.] or [..], at most one version of Python, and no directory in the way *)
Record tidy_package (w : fs) (tmp : path) (pylib : str) : Prop := TidyPackage {
  tp_wf : wf_fs w;
  tp_tmp : Forall proper tmp;
  tp_pylib : proper pylib;
  tp_one : forall n n', python_name n -> python_name n' -> lib_has w tmp n -> lib_has w tmp n' -> n = n';
  tp_free : forall n, python_name n -> lib_has w tmp n -> n = pylib \/ ~ lib_has w tmp pylib;
  tp_lines : forall text l, lookup w (lit "files" :: lit "info" :: tmp) = Some (File text) -> In l (split_lines text) -> l <> [] ->
    exists r, r <> [] /\ Forall proper r /\ l = join "/" r }.
