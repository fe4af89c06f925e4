(** Model of pkm/src/pkm/api/dependencies/env_markers.py: parsing and evaluating environment markers.

    The functions work on the text from the current position of the parser on (utils/parsers.py [SimpleParser]); what they
    return is the result and the text from the new position on. The closures that the parser builds are kept as terms. *)
From Coq Require Import String Ascii List Bool NArith Arith.
From Verif Require Import Base ParserModel VersionModel VersionParse SpecifierModel SpecParse.
Import ListNotations.
Open Scope string_scope.
Open Scope nat_scope.
Open Scope list_scope.
Open Scope bool_scope.

(** parsers.py 171-182 [match_ws]; the second one does not cross lines *)
Definition ws (s : str) : str := snd (span is_space s).
Definition line_ws (s : str) : str := snd (span (fun c => if Ascii.eqb c "010"%char then false else is_space c) s).
(** parsers.py 69-81 [match] with one argument, and 88-93 [match_any] *)
Definition smatch (sub s : str) : option str := if starts_with sub s then Some (skipn (length sub) s) else None.
Fixpoint smatch_any (subs : list str) (s : str) : option (str * str) :=
  match subs with
  | [] => None
  | x :: r => match smatch x s with Some s' => Some (x, s') | None => smatch_any r s end
  end.

(** what a marker looks at (54-64): a quoted text, the extras, or a marker of the environment *)
Inductive mvar := VText (s : str) | VExtra | VVar (n : str).
(** 66-95 *)
Inductive mop := OCmp (op : str) | OIn | ONotIn.
(** the closures of 111, 130-131 and 145-146 *)
Inductive mark := MAtom (a : mvar) (o : mop) (b : mvar) | MAnd (a b : mark) | MAny (l : list mark).

(** 35-36: the letter J is missing *)
Definition str_chars : str :=
  lit " " ++ ["009"%char] ++ lit "0123456789abcdefghijklmnopqrstuvwxyzABCDEFGHIZKLMNOPQRSTUVWXYZ().{}-_*#:;,/?[]!`~@$%^&=+|<>".
Definition in_chars (c : ascii) (s : str) : bool := existsb (Ascii.eqb c) s.
Definition dquote : ascii := "034"%char.
Definition squote : ascii := "039"%char.
Definition is_alpha (c : ascii) : bool := is_lower c || is_upper c.
Definition ident_char (c : ascii) : bool := is_alnum c || in_chars c "_-.".
(** 41-44 *)
Definition read_ident (s : str) : res (str * str) :=
  match s with
  | c :: _ => if is_alpha c then Ok (span ident_char s) else Err ValueError
  | [] => Err ValueError
  end.
(** 46-52; without a quote - at the end of the text - [match_or_err(None)] raises a TypeError *)
Definition read_str (s : str) : res (str * str) :=
  match s with
  | q :: r =>
      if Ascii.eqb q squote || Ascii.eqb q dquote
      then
        let other := if Ascii.eqb q dquote then squote else dquote in
        let '(content, r) := span (fun c => Ascii.eqb c other || in_chars c str_chars) r in
        match smatch [q] r with Some r => Ok (content, r) | None => Err ValueError end
      else Err TypeError
  | [] => Err TypeError
  end.
(** 54-64; the empty text is [in] every text *)
Definition read_var (s : str) : res (mvar * str) :=
  let quoted := match s with [] => true | c :: _ => Ascii.eqb c dquote || Ascii.eqb c squote end in
  if quoted then do (t, r) <- read_str s; Ok (VText t, r)
  else do (n, r) <- read_ident s; Ok (if str_eqb n "extra" then VExtra else VVar n, r).
(** 66-95 *)
Definition read_op (s : str) : res (mop * str) :=
  match smatch_any [lit "<="; lit "<"; lit ">="; lit ">"; lit "!="; lit "=="; lit "==="; lit "~="] s with
  | Some (op, r) => Ok (OCmp op, r)
  | None =>
      match smatch "in" s with
      | Some r => Ok (OIn, r)
      | None =>
          match smatch "not" s with
          | None => Err ValueError
          | Some r => match smatch "in" (line_ws r) with Some r => Ok (ONotIn, r) | None => Err ValueError end
          end
      end
  end.
(** 105-111 *)
Definition read_atom (s : str) : res (mark * str) :=
  do (a, s) <- read_var s;
  do (o, s) <- read_op (ws s);
  do (b, s) <- read_var (ws s);
  Ok (MAtom a o b, s).
(** 120: the end of a compound expression *)
Definition at_end (s : str) : bool := match s with [] => true | c :: _ => in_chars c ";)" end.
(** 142-151 *)
Definition finish (expr : option mark) (ors : list mark) : res mark :=
  match expr with
  | None => Err ValueError
  | Some e => Ok (match ors with [] => e | _ => MAny (ors ++ [e]) end)
  end.
(** 97-111 [_read_marker_expr], given [_read_marker_compound_expr] *)
Definition read_expr (compound : str -> res (mark * str)) (s : str) : res (mark * str) :=
  let s := ws s in
  match smatch "(" s with
  | Some s =>
      do (e, s) <- compound s;
      match smatch ")" s with Some s => Ok (e, s) | None => Err ValueError end
  | None => read_atom s
  end.
(** 113-151: the loop; [fuel] bounds the number of nested and repeated rounds, each of which reads a character or fails
    (the recursion limit of python is left out) *)
Fixpoint loop (fuel : nat) (expr : option mark) (ors : list mark) (s : str) : res (mark * str) :=
  if at_end s then do e <- finish expr ors; Ok (e, s)
  else
    match fuel with
    | 0 => Err RecursionErr
    | S fuel =>
        let compound := fun s => loop fuel None [] (ws s) in
        match expr with
        | None => do (e, s) <- read_expr compound s; loop fuel (Some e) ors (ws s)
        | Some e =>
            match smatch_any [lit "and"; lit "or"] s with
            | None => Err ValueError
            | Some (op, s) =>
                do (n, s) <- read_expr compound s;
                if str_eqb op "and" then loop fuel (Some (MAnd e n)) ors (ws s)
                else loop fuel (Some n) (ors ++ [e]) (ws s)
            end
        end
    end.
(** 113-151 *)
Definition read_compound (s : str) : res (mark * str) := loop (S (length s)) None [] (ws s).
(** 153-156: the text of the marker is the text that was read *)
Record marker := Marker { m_text : str; m_exec : mark }.
Definition read_marker (s : str) : res (marker * str) :=
  do (e, r) <- read_compound s;
  Ok (Marker (firstn (length s - length r) s) e, r).
(** 30-32; text that is left over is ignored *)
Definition parse_marker (text : str) : res marker := do (m, _) <- read_marker text; Ok m.
(** 27-28 *)
Definition marker_str (m : marker) : str := m_text m.

(** ** Evaluation *)
(** a value: a text, or the list of the extras *)
Inductive mval := Text (s : str) | Extras (l : list str).
Definition get_val (env : list (str * str)) (extras : list str) (v : mvar) : res mval :=
  match v with
  | VText s => Ok (Text s)
  | VExtra => Ok (Extras extras)
  | VVar n => match dict_get n env with Some s => Ok (Text s) | None => Err KeyError end
  end.
(** [str(value)]; simplification: the extras have no quotes or backslashes *)
Definition val_str (v : mval) : str :=
  match v with
  | Text s => s
  | Extras l => lit "[" ++ join (lit ", ") (map (fun x => [squote] ++ x ++ [squote]) l) ++ lit "]"
  end.
(** 84: python's comparison of texts *)
Definition text_compare (op a b : str) : res bool :=
  if str_eqb op "==" then Ok (str_eqb a b)
  else if str_eqb op "!=" then Ok (negb (str_eqb a b))
  else if str_eqb op "<" then Ok (str_ltb a b)
  else if str_eqb op "<=" then Ok (negb (str_ltb b a))
  else if str_eqb op ">" then Ok (str_ltb b a)
  else if str_eqb op ">=" then Ok (negb (str_ltb a b))
  else Err OtherErr.
(** 77-84; [as_uri]: see SpecParse *)
Definition compare_vals (as_uri : str -> str) (op a b : str) : res bool :=
  match (do v <- parse_version a; do sp <- parse_specifier as_uri (op ++ lit " " ++ b); Ok (allows sp v)) with
  | Err ValueError => if str_eqb op "~=" then Err ValueError else text_compare op a b
  | r => r
  end.
(** 69-84, 92-93 *)
Definition eval_op (as_uri : str -> str) (o : mop) (a b : mval) : res bool :=
  match o with
  | OIn => Ok (contains (val_str a) (val_str b))
  | ONotIn => Ok (negb (contains (val_str a) (val_str b)))
  | OCmp op =>
      if str_eqb op "==" || str_eqb op "==="
      then match a, b with
           | Extras l, Text t => Ok (str_mem t l)
           | Extras _, Extras _ => Ok false
           | Text t, Extras l => Ok (str_mem t l)
           | Text t, Text u => compare_vals as_uri op t u
           end
      else compare_vals as_uri op (val_str a) (val_str b)
  end.
Definition eval_atom (as_uri : str -> str) (env : list (str * str)) (extras : list str) (a : mvar) (o : mop) (b : mvar) : res bool :=
  do x <- get_val env extras a; do y <- get_val env extras b; eval_op as_uri o x y.
(** [any] over the alternatives *)
Fixpoint eval (atom : mvar -> mop -> mvar -> res bool) (m : mark) : res bool :=
  match m with
  | MAtom a o b => atom a o b
  | MAnd a b => match eval atom a with Ok true => eval atom b | r => r end
  | MAny l => (fix any (l : list mark) : res bool :=
                 match l with
                 | [] => Ok false
                 | x :: r => match eval atom x with Ok false => any r | v => v end
                 end) l
  end.
(** 24-25 *)
Definition evaluate_on (as_uri : str -> str) (m : marker) (env : list (str * str)) (extras : list str) : res bool :=
  eval (eval_atom as_uri env extras) (m_exec m).
