(** Model of the reports of the command line: pkm-cli/src/pkm_cli/reports/report.py (12-31 lists, 50-97) and the versions in
    package_report.py 42-48.

    Simplifications: a report is its indentation and the lines that it has printed, before the screen reads their markup (MarkupModel). *)
From Coq Require Import String Ascii List Bool NArith Arith.
From Verif Require Import Base.
Import ListNotations.
Open Scope string_scope. Open Scope nat_scope. Open Scope list_scope. Open Scope bool_scope.

(** str.rindex of a space in the first n characters *)
Fixpoint last_space (n : nat) (s : str) : option nat :=
  match n, s with
  | S n, c :: r => match last_space n r with Some i => Some (S i) | None => if Ascii.eqb c " " then Some 0 else None end
  | _, _ => None
  end.
(** report.py 56-69: the lines of a paragraph; [fuel]: how often the loop is run *)
Fixpoint paragraph (fuel : nat) (text : str) : res (list str) :=
  match fuel with
  | 0 => Err RecursionErr
  | S fuel =>
      if 80 <? length text then
        match last_space 80 text with
        | None => Err ValueError
        | Some i =>
            let skip := if i =? 0 then 0 else 1 in
            do lines <- paragraph fuel (skipn (i + skip) text);
            Ok (firstn i text :: lines)
        end
      else Ok (match text with [] => [] | _ => [text] end)
  end.

Record report := Report { indentation : str; printed : list str }.
(** 50-54 *)
Definition writeln (msg : str) (back_indent : nat) (r : report) : report :=
  let indent := if 0 <? back_indent then firstn (length (indentation r) - back_indent) (indentation r) else indentation r in
  Report (indentation r) (printed r ++ [indent ++ msg]).
(** 75-80: the indentation is put back only if the body does not raise; [body] tells whether it raises *)
Definition indent (s : str) (body : report -> report * bool) (r : report) : report * bool :=
  let '(r', raised) := body (Report (indentation r ++ s) (printed r)) in
  if raised then (r', true) else (Report (indentation r) (printed r'), false).
(** what is done in a list: an item, another list or section, or an error *)
Inductive act := Item (text : str) | Also (body : report -> report * bool).
(** 12-20, 82-88: a list with a prefix *)
Fixpoint uitems (prefix : str) (l : list act) (empty : bool) (r : report) : report * bool * bool :=
  match l with
  | [] => (r, empty, false)
  | Item t :: l => uitems prefix l false (writeln (lit " " ++ prefix ++ lit " " ++ t) 3 r)
  | Also f :: l => let '(r', raised) := f r in if raised then (r', empty, true) else uitems prefix l empty r'
  end.
Definition ulist (prefix : str) (empty_text : option str) (l : list act) : report -> report * bool :=
  indent (lit "   ") (fun r =>
    let '(r, empty, raised) := uitems prefix l true r in
    if raised then (r, true)
    else (if empty then match empty_text with Some (c :: t) => writeln (c :: t) 2 r | _ => r end else r, false)).
(** 23-30, 90-96: a list with numbers *)
Fixpoint oitems (l : list act) (index : N) (r : report) : report * N * bool :=
  match l with
  | [] => (r, index, false)
  | Item t :: l => oitems l (index + 1) (writeln (lit " " ++ show_N index ++ lit ". " ++ t) 3 r)
  | Also f :: l => let '(r', raised) := f r in if raised then (r', index, true) else oitems l index r'
  end.
Definition olist (empty_text : option str) (l : list act) : report -> report * bool :=
  indent (lit "   ") (fun r =>
    let '(r, index, raised) := oitems l 1 r in
    if raised then (r, true)
    else (if (index =? 1)%N then match empty_text with Some (c :: t) => writeln (c :: t) 2 r | _ => r end else r, false)).
(** package_report.py 42-48; the list is not empty *)
Definition versions_line (versions : list str) : str :=
  lit "Matched Versions: " ++
  (if 3 <? length versions then join (lit ", ") (firstn 3 versions) ++ lit " and " ++ show_N (N.of_nat (length versions - 3)) ++ lit " more."
   else join (lit ", ") versions).
