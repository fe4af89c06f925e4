(** Model of pkm/src/pkm/api/environments/installed_pythons_locator.py and of its uses in environment_builder.py:23-37 and in
    pkm-cli/src/pkm_templates/env/render.py.

    Simplifications: a path is a text; the iteration over a set of paths is over a list in some order; the output of an interpreter is
    given, with blanks of ASCII. *)
From Coq Require Import List Bool NArith Ascii String Arith Lia.
From Verif Require Import Base VersionModel VersionParse SpecifierModel SpecParse IndexModel MonitorModel.
From Verif Require RecordFileModel.
Import ListNotations.
Open Scope string_scope. Open Scope nat_scope. Open Scope list_scope. Open Scope bool_scope.

(** installed_pythons_locator.py:88: the rest of the name after [python-?] *)
Definition digit_or_dot (c : ascii) : bool := is_digit c || Ascii.eqb c ".".
Definition newline : ascii := ascii_of_nat 10.
Definition name_end (r : str) : bool :=
  forallb digit_or_dot r ||
  (let k := List.length r - 4 in
   match skipn k r with
   | c :: e => forallb digit_or_dot (firstn k r) && negb (Ascii.eqb c newline) && str_eqb e (lit "exe")
   | [] => false
   end).
Definition exec_name (name : str) : bool :=
  let n := lower name in
  starts_with (lit "python") n &&
  (let r := skipn 6 n in name_end r || match r with c :: r' => Ascii.eqb c "-" && name_end r' | [] => false end).

(** a file of a directory: its name, [is_dir], [is_executable], and what [resolve] gives ([None]: it raises) *)
Record file := File { f_name : str; f_dir : bool; f_exec : bool; f_resolved : option str }.
(** installed_pythons_locator.py:91-97 [_as_python_executeable] *)
Definition as_python (f : file) : option str := if negb (f_dir f) && exec_name (f_name f) && f_exec f then f_resolved f else None.
Definition found (l : list file) : list str := flat_map (fun f => match as_python f with Some p => [p] | None => [] end) l.
(** an entry of PATH: it does not exist, [iterdir] raises (it is a file, or cannot be read), or the files in it *)
Inductive entry := Missing | Unlistable | Directory (files : list file).
(** installed_pythons_locator.py:108-115 [_lookup_in_env_path] *)
Fixpoint lookup_env (l : list entry) : res (list str) :=
  match l with
  | [] => Ok []
  | Missing :: r => lookup_env r
  | Unlistable :: _ => Err IOErr
  | Directory fs :: r => do x <- lookup_env r; Ok (found fs ++ x)
  end.
(** installed_pythons_locator.py:100-105 [_lookup_in_path]: the files below a path; [rglob("python")] wants this very name *)
Definition lookup_below (files : list file) : list str := found (filter (fun f => str_eqb (f_name f) (lit "python")) files).

(** what happens when an interpreter is run: it cannot be started, it fails, its output *)
Inductive outcome := NotStarted | FailedRun | Printed (out : str).
Record interp := Interp { p_path : str; p_version : version }.
Section Locate.
  Variable run_python : str -> outcome.
  (** [Path(..).resolve()] of what the interpreter says it is *)
  Variable resolve : str -> str.
  (** installed_pythons_locator.py:36-59: the loop, with the executables and interpreters that are known *)
  Fixpoint locate (l : list str) (known : list str) (acc : list interp) : res (list interp) :=
    match l with
    | [] => Ok acc
    | p :: r =>
        match run_python p with
        | NotStarted => Err IOErr
        | FailedRun => locate r known acc
        | Printed out =>
            match RecordFileModel.split_lines (strip_line out) with
            | [v; e] =>
                let x := resolve (strip_line e) in
                if str_mem x known then locate r known acc
                else do ver <- parse_version (strip_line v); locate r (x :: known) (acc ++ [Interp x ver])
            | _ => Err ValueError
            end
        end
    end.
  (** installed_pythons_locator.py:26-61 [all_installed]; [order]: the order in which the set of all paths is iterated *)
  Definition all_installed (order : list str) : res (list interp) := do l <- locate order [] []; Ok (sorted_by_version p_version l).
  (** installed_pythons_locator.py:63-69 [match] *)
  Definition matching (order : list str) (s : spec) : res (list interp) :=
    do l <- all_installed order; Ok (sorted_by_version p_version (filter (fun p => allows s (p_version p)) l)).
  (** environment_builder.py:32-37: the interpreter of a new environment *)
  Definition create_matching (order : list str) (s : spec) : res interp :=
    do l <- matching order s; match l with [] => Err NoSuchElement | p :: _ => Ok p end.
End Locate.

(** env/render.py:18-19: the versions that can be chosen; version.py:26-27, 119-122 *)
Definition without_patch (v : version) : version := match v with VStd s => VStd (sv_without_patch s) | _ => v end.
Definition choices (l : list interp) : list str := map (fun p => version_str (without_patch (p_version p))) l.
(** env/render.py:22 *)
Definition chosen (c : str) : str := lit "~=" ++ c ++ lit ".0".
