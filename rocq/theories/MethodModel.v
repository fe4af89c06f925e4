(** Model of the commands that are made of python functions (tasks and templates):
    pkm-cli/src/pkm_cli/api/dynamic_cli/method_parser.py, pkm-cli/src/pkm_cli/utils/method_clis.py.

    Simplifications: names are ASCII; a class is known by how it reads a text; the function itself is what its parameters are
    bound to when it is called. *)
From Coq Require Import String Ascii List Bool NArith Arith.
From Verif Require Import Base ParserModel MarkerModel ProjectModel CliModel ContextModel.
Import ListNotations.
Open Scope string_scope.
Open Scope nat_scope.
Open Scope list_scope.
Open Scope bool_scope.

(** ** Types of parameters *)
(** [COther]: the constructor of another class *)
Inductive cls := CStr | CBool | CNone | COther (make : str -> res val).
(** [HUnion]: [Optional[..]] and [Union[..]] *)
Inductive hint := HClass (c : cls) | HUnion (l : list cls).
(** method_parser.py 12-19 [_adjust_types]: the first class that is not NoneType *)
Definition is_none_type (c : cls) : bool := match c with CNone => true | _ => false end.
Definition adjust (h : hint) : option cls :=
  match h with HClass c => Some c | HUnion l => hd_error (filter (fun c => negb (is_none_type c)) l) end.
(** command_parser.py 140-150 [DefaultArgumentReader] of a class: [bool("")] only is false; NoneType takes no argument *)
Definition construct (c : cls) (s : str) : res val :=
  match c with
  | CStr => Ok (VS s)
  | CBool => Ok (VB match s with [] => false | _ => true end)
  | CNone => Err TypeError
  | COther make => make s
  end.
(** command_parser.py 271-276 [_coerce_reader]: what is not a class is taken as the reader and has no [read] *)
Definition reader_of (c : option cls) : reader :=
  match c with Some c => RType (construct c) | None => RType (fun _ => Err AttributeError) end.

(** ** Signatures: [inspect.getfullargspec] *)
Record signature := Sig { g_args : list str; g_defaults : list val; g_varargs : option str; g_varkw : bool;
  g_kwonly : list str; g_kwdefaults : option (list (str * val)); g_types : list (str * hint) }.
Definition type_of (g : signature) (a : str) : option cls := match dict_get a (g_types g) with Some h => adjust h | None => Some CStr end.
(** what Python does on [mtd( **kwargs)]: each parameter with its value.  Simplification: **kw is left out of the result *)
Fixpoint bind_params (params : list (str * option val)) (kwargs : list (str * val)) : res (list (str * val)) :=
  match params with
  | [] => Ok []
  | (p, d) :: r =>
      match match dict_get p kwargs with Some v => Some v | None => d end with
      | Some v => do rest <- bind_params r kwargs; Ok ((p, v) :: rest)
      | None => Err TypeError
      end
  end.
(** the default that Python gives the parameter at place i: the defaults belong to the last ones *)
Definition default_at (g : signature) (i : nat) : option val :=
  if i + length (g_defaults g) <? length (g_args g) then None else nth_error (g_defaults g) (i + length (g_defaults g) - length (g_args g)).
Definition kwdefault (g : signature) (k : str) : option val := match g_kwdefaults g with Some d => dict_get k d | None => None end.
Definition params (g : signature) : list (str * option val) :=
  combine (g_args g) (map (default_at g) (seq 0 (length (g_args g)))) ++ map (fun k => (k, kwdefault g k)) (g_kwonly g).
Definition call (g : signature) (kwargs : list (str * val)) : res (list (str * val)) :=
  if g_varkw g || forallb (fun kv => str_mem (fst kv) (map fst (params g))) kwargs then bind_params (params g) kwargs else Err TypeError.

(** ** method_parser.py 109-131 [_generate_option_names] *)
(** [arg.replace('_', '-')] *)
Definition dashes (a : str) : str := map (fun c => if Ascii.eqb c "_" then "-"%char else c) a.
(** 123-128: the letters of the name, the first that is not taken *)
Fixpoint free_letter (taken : list str) (a : str) : option str :=
  match a with
  | [] => None
  | c :: r => if is_alpha c && negb (str_mem ["-"%char; c] taken) then Some ["-"%char; c] else free_letter taken r
  end.
Definition long_name (a : str) : str := lit "--" ++ dashes a.
(** 113-115 [assign]: the names of an argument and the ones that are taken *)
Definition assign (st : list (str * list str) * list str) (a : str) (names : list str) : list (str * list str) * list str :=
  (dict_set a (match dict_get a (fst st) with Some l => l | None => [] end ++ names) (fst st), snd st ++ names).
Definition short_step (st : list (str * list str) * list str) (a : str) : list (str * list str) * list str :=
  if length a =? 1 then assign st a [("-"%char :: a)] else st.
Definition long_step (st : list (str * list str) * list str) (a : str) : list (str * list str) * list str :=
  if length a =? 1 then st
  else match free_letter (snd st) a with
       | Some s => assign st a [long_name a; s]
       | None => assign st a [long_name a]
       end.
(** 131: joined by commas, and split again by [flag] and [option] (command_parser.py 267, 293-308) *)
Definition option_names (args : list str) : list (str * str) :=
  map (fun kv => (fst kv, join (lit ",") (snd kv))) (fst (fold_left long_step args (fold_left short_step args ([], [])))).

(** ** method_parser.py 59-98 [command_definition_from_method] *)
(** 70-75 *)
Definition positional_defaults (g : signature) : list (option val) :=
  repeat None (length (g_args g) - length (g_defaults g)) ++ map Some (g_defaults g).
Definition positional_defs (g : signature) : list argdef :=
  map (fun ad => Arg [dashes (fst ad)] (reader_of (type_of g (fst ad))) (snd ad) None (KPositional (Some 1)))
    (combine (g_args g) (positional_defaults g)).
(** 77-79 *)
Definition varargs_defs (g : signature) : list argdef :=
  match g_varargs g with
  | Some a => [Arg [dashes a] (reader_of (type_of g a)) None None (KPositional None)]
  | None => []
  end.
(** 81-98: [kwonlydefaults] is None if no such argument has a default *)
Definition kwonly_def (g : signature) (d : list (str * val)) (k : str) : argdef :=
  let names := split_on "," (match dict_get k (option_names (g_kwonly g)) with Some s => s | None => [] end) in
  match type_of g k, dict_get k d with
  | Some CBool, Some (VB false) => Arg names RFlag (Some (VB false)) None (KOption false None)
  | t, v => Arg names (reader_of t) v None (KOption false None)
  end.
Definition kwonly_defs (g : signature) : res (list argdef) :=
  match g_kwonly g with
  | [] => Ok []
  | l => match g_kwdefaults g with Some d => Ok (map (kwonly_def g d) l) | None => Err AttributeError end
  end.
Definition definition (g : signature) : res (list argdef) :=
  do k <- kwonly_defs g; Ok (positional_defs g ++ varargs_defs g ++ k).
(** 99-102 [execution]: the arguments of the command that are defined here *)
Definition execution (g : signature) (arguments : list (str * val)) : res (list (str * val)) :=
  do defs <- definition g;
  call g (filter (fun kv => str_mem (fst kv) (map a_field defs)) arguments).
(** the command of a function, given the words after its name; main.py 211-214: if help is asked for it is not run.
    Simplification: it stands alone *)
Inductive outcome := Helped | Called (bound : list (str * val)).
Definition run_method (fuel : nat) (g : signature) (words : list str) : option (res outcome) :=
  match definition g with
  | Err e => Some (Err e)
  | Ok defs =>
      match parse fuel (create [([lit "task"], defs)]) (lit "task" :: words) with
      | None => None
      | Some (Err e) => Some (Err e)
      | Some (Ok r) =>
          Some (match r with
                | (_, args) :: _ =>
                    if match dict_get (lit "help") args with Some v => truthy v | None => false end then Ok Helped
                    else do b <- execution g args; Ok (Called b)
                | [] => Err IOErr
                end)
      end
  end.

(** ** method_parser.py 134-156 [_parse_doc] *)
Definition lf : ascii := "010"%char.
(** [textwrap.dedent]: lines of blanks are emptied, and what all the other lines begin with is removed.
    Simplification: the lines end with "\n" only *)
Definition is_margin (c : ascii) : bool := Ascii.eqb c " " || Ascii.eqb c "009".
Definition blank (l : str) : bool := forallb is_margin l.
Definition indent (l : str) : str := fst (span is_margin l).
Fixpoint common (a b : str) : str :=
  match a, b with
  | x :: a, y :: b => if Ascii.eqb x y then x :: common a b else []
  | _, _ => []
  end.
Definition margin (lines : list str) : str :=
  match map indent (filter (fun l => negb (blank l)) lines) with
  | [] => []
  | i :: r => fold_left common r i
  end.
Definition dedent_lines (lines : list str) : list str :=
  let n := length (margin lines) in map (fun l => if blank l then [] else skipn n l) lines.
Definition dedent (doc : str) : str := join [lf] (dedent_lines (split_on lf doc)).
(** [str.splitlines]: no line after the last end *)
Definition splitlines (s : str) : list str :=
  match s with [] => [] | _ => let l := split_on lf s in match last l [] with [] => removelast l | _ => l end end.
(** [str.partition(":")] *)
Fixpoint partition_colon (s : str) : str * str :=
  match s with
  | [] => ([], [])
  | c :: r => if Ascii.eqb c ":" then ([], r) else let '(a, b) := partition_colon r in (c :: a, b)
  end.
(** 139-156: result, key and text of the section that is read *)
Definition push (result : list (str * str)) (key section : str) : list (str * str) := dict_set (strip key) (strip section) result.
Fixpoint doc_loop (result : list (str * str)) (key section : str) (lines : list str) : list (str * str) :=
  match lines with
  | [] => push result key section
  | l :: r =>
      if starts_with (lit ":param ") l then
        let '(k, s) := partition_colon (skipn 7 l) in doc_loop (push result key section) k s r
      else if starts_with (lit ":return:") l then doc_loop (push result key section) (lit "return") (skipn 8 l) r
      else doc_loop result key (section ++ lf :: l) r
  end.
Definition parse_doc (doc : str) : list (str * str) := doc_loop [] [] [] (splitlines (strip (dedent doc))).

(** ** method_clis.py *)
(** [arg.partition('=')]: with the text after it if there is one *)
Fixpoint split_eq (s : str) : str * option str :=
  match s with
  | [] => ([], None)
  | c :: r => if Ascii.eqb c "=" then ([], Some r) else let '(a, b) := split_eq r in (c :: a, b)
  end.
(** 63-80 [parse] *)
Fixpoint cli_parse (a : list str) (k : list (str * str)) (words : list str) : res (list str * list (str * str)) :=
  match words with
  | [] => Ok (a, k)
  | w :: r =>
      let w := if starts_with (lit "--") w then (if contains (lit "=") w then skipn 2 w else skipn 2 w ++ lit "=True") else w in
      match split_eq w with
      | (name, Some v) => cli_parse a (dict_set name v k) r
      | (_, None) => match k with [] => cli_parse (a ++ [w]) k r | _ => Err UnsupportedOperation end
      end
  end.
(** 44-54 [parser_for]: a hint that is no class and no union of one is called as it is *)
Definition convert (g : signature) (name : str) (s : str) : res val :=
  match dict_get name (g_types g) with
  | None => Ok (VS s)
  | Some h => match adjust h with Some c => construct c s | None => Err TypeError end
  end.
Fixpoint convert_all (g : signature) (l : list (str * str)) : res (list (str * val)) :=
  match l with
  | [] => Ok []
  | (n, s) :: r => do v <- convert g n s; do rest <- convert_all g r; Ok ((n, v) :: rest)
  end.
(** what Python does on [method( *args, **kwargs)], with at most as many positional arguments as there are parameters *)
Definition call_with (g : signature) (args kwargs : list (str * val)) : res (list (str * val)) :=
  if existsb (fun kv => dict_has (fst kv) args) kwargs then Err TypeError else call g (args ++ kwargs).
(** 36-58 [invoke] *)
Definition invoke (g : signature) (args : list str) (kwargs : list (str * str)) : res (list (str * val)) :=
  do a <- convert_all g (combine (g_args g) args);
  do k <- convert_all g kwargs;
  call_with g a k.
Definition cli_call (g : signature) (words : list str) : res (list (str * val)) :=
  do p <- cli_parse [] [] words; invoke g (fst p) (snd p).
