(** Model of pkm/src/pkm/api/dependencies/dependency.py: dependencies, printing and parsing them. *)
From Coq Require Import String Ascii List Bool NArith Arith.
From Verif Require Import Base ParserModel VersionModel SpecifierModel SpecParse NamesModel MarkerModel.
Import ListNotations.
Open Scope string_scope.
Open Scope nat_scope.
Open Scope list_scope.
Open Scope bool_scope.

(** 18-30. Simplification: the assertion of [__post_init__] (36-37) holds as no specifier is falsy *)
Record dep := Dep { d_name : str; d_spec : spec; d_extras : option (list str); d_marker : option marker }.
(** 39-40 [is_applicable_for] *)
Definition is_applicable_for (as_uri : str -> str) (d : dep) (env : list (str * str)) (extras : list str) : res bool :=
  match d_marker d with None => Ok true | Some m => evaluate_on as_uri m env extras end.
(** 56-63 [__str__] *)
Definition dep_str (d : dep) : str :=
  let extras := match d_extras d with
                | None | Some [] => []
                | Some l => lit "[" ++ join (lit ",") l ++ lit "]"
                end in
  let version := if is_allow (d_spec d) then [] else lit " " ++ spec_str (d_spec d) in
  let marker := match d_marker d with None => [] | Some m => lit ";" ++ marker_str m end in
  d_name d ++ extras ++ version ++ marker.

(** 93-96 [_read_identifier] *)
Definition ident_start (c : ascii) : bool := is_alpha c || Ascii.eqb c "_".
Definition dep_ident (s : pstate) : res (str * pstate) :=
  match peek s with
  | Some c => if ident_start c then Ok (take_while ident_char s) else Err ValueError
  | None => Err ValueError
  end.
(** 79-84: the loop of [_read_extras]; [fuel] bounds the rounds, each of which reads a character *)
Fixpoint extras_loop (fuel : nat) (extras : list str) (s : pstate) : res (list str * pstate) :=
  if negb (not_empty s) then Ok (extras, s)
  else
    match fuel with
    | 0 => Err RecursionErr
    | S fuel =>
        do (e, s) <- dep_ident (match_ws true s);
        let s := match_ws true s in
        match pmatch "," s with
        | Some s => extras_loop fuel (extras ++ [e]) s
        | None => Ok (extras ++ [e], s)
        end
    end.
(** 75-88 [_read_extras] *)
Definition read_extras (s : pstate) : res (list str * pstate) :=
  match pmatch "[" s with
  | None => Err ValueError
  | Some s =>
      do (l, s) <- extras_loop (length (rest s)) [] s;
      match pmatch "]" s with Some s => Ok (l, s) | None => Err ValueError end
  end.
(** 101-122 [read_dependency]; [as_uri]: see SpecParse *)
Definition read_dependency (as_uri : str -> str) (s : pstate) : res dep :=
  do (id, s) <- dep_ident (match_ws true s);
  do name <- normalize_name id;
  let s := match_ws true s in
  do (extras, s) <- (if opt_is "[" (peek s) then do (l, s) <- read_extras s; Ok (Some l, match_ws true s) else Ok (None, s));
  do (sp, s) <- (if opt_is ";" (peek s) then Ok (AllowAll, s) else do (x, s) <- read_specifier as_uri s; Ok (x, match_ws true s));
  do m <- match pmatch_ws ";" s with
          | Some (_, s) => if not_empty s then do (m, _) <- read_marker (rest s); Ok (Some m) else Ok None
          | None => Ok None
          end;
  Ok (Dep name sp extras m).
(** 68-70 [parse] *)
Definition parse_dependency (as_uri : str -> str) (text : str) : res dep := read_dependency as_uri (pinit text).
