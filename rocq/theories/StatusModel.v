(** Model of the report about a project: pkm-cli/src/pkm_cli/reports/project_report.py 36-55 and 58-73, report.py 47-48 and 98-106, and
    the names of contexts in added_repositories_report.py 31-32.

    Simplifications: the packages that are installed are a function from names to versions; the other sections are left out. *)
From Coq Require Import String Ascii List Bool NArith Arith.
From Verif Require Import Base PthModel VersionModel DependencyModel ReportModel.
Import ListNotations.
Open Scope string_scope. Open Scope nat_scope. Open Scope list_scope. Open Scope bool_scope.

(** project_report.py 60-73; a group without a name counts as none *)
Definition status_line (d : dep) (installed : option version) (optional : option str) : str :=
  dep_str d ++ lit " | " ++
  match installed with Some v => lit "Installed Version: " ++ version_str v ++ lit " | " | None => lit "Not Installed | " end ++
  match optional with Some (c :: g) => lit "Optional by " ++ c :: g | _ => lit "Required" end.
(** 40-47: the items *)
Definition status_lines (site : str -> option version) (dependencies : list dep) (optional : list (str * list dep)) : list str :=
  map (fun d => status_line d (site (d_name d)) None) dependencies ++
  flat_map (fun g => map (fun d => status_line d (site (d_name d)) (Some (fst g))) (snd g)) optional.
(** report.py 98-101; [width]: the length of the caption as it is shown *)
Definition header (caption : str) (width : nat) (r : report) : report := writeln (repeat "-"%char width) 0 (writeln caption 0 r).
(** 103-106; the empty line is not written if the body raises *)
Definition section (caption : str) (body : report -> report * bool) (r : report) : report * bool :=
  let '(r, raised) := body (header (lit "[dark_olive_green2]" ++ caption ++ lit "[/]") (length caption) r) in
  if raised then (r, true) else (writeln [] 0 r, false).
(** 36-47 *)
Definition show_dependencies (site : str -> option version) (dependencies : list dep) (optional : list (str * list dep)) (r : report) : report * bool :=
  match dependencies, optional with
  | [], [] => (r, false)
  | _, _ => section (lit "Dependencies") (ulist (lit "-") None (map Item (status_lines site dependencies optional))) r
  end.
(** report.py 47-48 *)
Definition option_help (name help : str) : str := lit "[[orange1]" ++ name ++ lit "[/]]: " ++ help.
(** added_repositories_report.py 31-32 *)
Definition spaced (name : str) : str := flat_map (fun c => if is_upper c then [" "%char; c] else [c]) name.
Definition context_name (name : str) : str := strip_ws (spaced name).
