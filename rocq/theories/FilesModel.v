(** Path helpers of pkm/src/pkm/utils/files.py.  Paths are absolute; [Path.absolute] is the identity on them. *)
From Coq Require Import String Ascii List Bool NArith Arith.
From Verif Require Import Base FsModel.
Import ListNotations.
Open Scope string_scope.
Open Scope nat_scope.
Open Scope list_scope.
Open Scope bool_scope.

(** [pathlib.Path.parent]: the root is its own parent *)
Definition parent (p : path) : path := tl p.
(** [pathlib.Path.parents]: from the directory of the path up to the root, without the path itself *)
Fixpoint parents (p : path) : list path := match p with [] => [] | _ :: q => q :: parents q end.
(** [pathlib.Path.__str__] of an absolute posix path *)
Definition path_str (p : path) : str := "/"%char :: join "/" (rev p).

(** files.py:44-60 [path_to]; the result is a relative path, outermost component first.
    [None]: the loop of lines 57-59 is still running after [fuel] steps. *)
Fixpoint path_to_loop (fuel : nat) (p : path) (destination_parents : list path) (back : nat) : option (path * nat) :=
  if path_mem p destination_parents then Some (p, back)
  else match fuel with
       | 0 => None
       | S k => path_to_loop k (parent p) destination_parents (S back)
       end.
Definition path_to (fuel : nat) (source destination : path) : option (list str) :=
  match path_to_loop fuel source (parents destination) 0 with
  | Some (p, back) => Some (repeat (lit "..") back ++ rev (rel_to p destination))
  | None => None
  end.

(** files.py:272-279 [is_relative_to] *)
Definition is_relative_to (p root : path) : bool := starts_with (path_str root) (path_str p).

(** files.py:89-102 [extension_of] on the name of the path: from the first dot on *)
Fixpoint extension_of (name : str) : str :=
  match name with
  | [] => []
  | c :: r => if Ascii.eqb c "." then name else extension_of r
  end.
(** files.py:104-117 [name_without_ext] *)
Fixpoint name_without_ext (name : str) : str :=
  match name with
  | [] => []
  | c :: r => if Ascii.eqb c "." then [] else c :: name_without_ext r
  end.
(** files.py:65-70 [is_root_path] *)
Definition is_root_path (p : path) : bool := path_eqb p (parent p).
