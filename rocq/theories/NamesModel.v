(** Package names, pkm/src/pkm/api/packages/package.py:21-107. *)
From Coq Require Import String Ascii List Bool NArith Arith.
From Verif Require Import Base.
Import ListNotations.
Open Scope string_scope.
Open Scope nat_scope.
Open Scope list_scope.
Open Scope bool_scope.

(** [re.sub("[bad]+", rep, s)]; [inside]: the previous character belonged to a run that was already replaced *)
Fixpoint sub_runs (bad : ascii -> bool) (rep : ascii) (inside : bool) (s : str) : str :=
  match s with
  | [] => []
  | c :: r => if bad c then (if inside then sub_runs bad rep true r else rep :: sub_runs bad rep true r)
              else c :: sub_runs bad rep false r
  end.
(** [str.strip(c)] for one character *)
Fixpoint lstrip (c : ascii) (s : str) : str :=
  match s with
  | [] => []
  | x :: r => if Ascii.eqb x c then lstrip c r else s
  end.
Definition strip (c : ascii) (s : str) : str := rev (lstrip c (rev (lstrip c s))).

(** package.py:95: the complement of the class [A-Z\d._], ignoring case *)
Definition invalid_char (c : ascii) : bool := negb (is_alnum c || Ascii.eqb c "." || Ascii.eqb c "_").
(** package.py:79-97 [normalize_name] *)
Definition normalize_name (name : str) : res str :=
  match strip "-" (sub_runs invalid_char "-" false name) with
  | [] => Err ValueError
  | r => Ok r
  end.
(** package.py:75-77 [normalize_src_package_name] *)
Definition to_underscore (c : ascii) : ascii := if Ascii.eqb c "-" || Ascii.eqb c "." then "_"%char else c.
Definition normalize_src_package_name (name : str) : res str :=
  do n <- normalize_name name; Ok (map to_underscore n).
(** package.py:71-73 [package_name_key] *)
Definition package_name_key (name : str) : res str :=
  do n <- normalize_src_package_name name; Ok (lower n).
(** package.py:41-44 [__post_init__]: the name that a descriptor carries.
    Simplification: the version is taken to be given. *)
Definition descriptor_name (name : str) : res str :=
  match name with
  | [] => Err AssertionError
  | _ => do n <- normalize_name name; Ok (map (fun c => if Ascii.eqb c "_" then "-"%char else c) n)
  end.
(** package.py:99-107 [from_dist_name]: the name part of a distribution file name *)
Definition dist_name_part (file_name : str) : str := hd [] (split_on "-" file_name).
