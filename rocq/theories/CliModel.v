(** The command line parser, pkm-cli/src/pkm_cli/api/dynamic_cli/command_parser.py.
    Not modelled: dynamic commands (607-616), dynamic arguments (469-482, 542-545) and providers of fields (486-501). *)
From Coq Require Import String Ascii List Bool NArith Arith Lia.
From Verif Require Import Base ParserModel ProjectModel.
Import ListNotations.
Open Scope string_scope.
Open Scope nat_scope.
Open Scope list_scope.
Open Scope bool_scope.

(** ** Definitions *)
(** what arguments are assigned; [VO]: an object made by a type *)
Inductive val := VS (s : str) | VB (b : bool) | VNone | VO (s : str) | VL (l : list val) | VD (d : list (str * val)).
(** 109-165 the readers; [RType]: [DefaultArgumentReader], whose type may refuse a text *)
Inductive reader := RFlag | RChoices (l : list str) | RType (conv : str -> res val) | RConst (c : str).
Definition is_flag (r : reader) : bool := match r with RFlag => true | _ => false end.
(** a field of an argument: an argument that has no fields itself; [None] as default: [MISSING] *)
Record subdef := Sub { s_names : list str; s_reader : reader; s_default : option val }.
(** 230-250 [OptionDef] and 216-227 [PositionalArgumentDef], whose number of values [None] stands for ["*"] *)
Inductive kind := KOption (repeatable : bool) (mutex : option str) | KPositional (n : option nat).
Record argdef := Arg { a_names : list str; a_reader : reader; a_default : option val; a_fields : option (list subdef); a_kind : kind }.
Definition is_option (a : argdef) : bool := match a_kind a with KOption _ _ => true | _ => false end.
Definition is_positional (a : argdef) : bool := negb (is_option a).

(** ** Names *)
(** [sorted(names, key=len)], 175-184: a positional has one name *)
Fixpoint insert_len (x : str) (l : list str) : list str :=
  match l with
  | [] => [x]
  | y :: r => if length x <? length y then x :: l else y :: insert_len x r
  end.
Definition sort_len (l : list str) : list str := fold_left (fun acc x => insert_len x acc) l [].
(** 657-658 [re.sub(r'\W+|^(?=\d+)', '_', txt)]; simplification: ASCII letters and digits only *)
Definition is_word (c : ascii) : bool := is_alnum c || Ascii.eqb c "_".
Fixpoint collapse (inside : bool) (s : str) : str :=
  match s with
  | [] => []
  | c :: r => if is_word c then c :: collapse false r else if inside then collapse true r else "_"%char :: collapse true r
  end.
Definition identifierify (s : str) : str :=
  match s with c :: _ => (if is_digit c then ["_"%char] else []) ++ collapse false s | [] => [] end.
(** 186-191 [field_name]; simplification: at least one name *)
Definition lstrip_marks (s : str) : str := snd (span (fun c => Ascii.eqb c "-" || Ascii.eqb c "+") s).
Definition field_name (names : list str) : str :=
  let l := sort_len names in
  let base := match find (fun n => starts_with (lit "--") n || negb (starts_with (lit "-") n)) l with
              | Some (c :: n) => c :: n
              | _ => hd [] l
              end in
  identifierify (lstrip_marks base).
Definition a_field (a : argdef) : str := field_name (a_names a).
Definition s_field (s : subdef) : str := field_name (s_names s).

(** ** Commands *)
(** 342-347 [CommandAST]; a command is known by its arguments *)
Inductive ast := Node (def : option (list argdef)) (children : list (str * ast)).
Definition def_of (t : ast) : option (list argdef) := match t with Node d _ => d end.
Definition children_of (t : ast) : list (str * ast) := match t with Node _ c => c end.
Definition args_of (t : ast) : list argdef := match def_of t with Some l => l | None => [] end.
(** 368-389 [create] *)
Fixpoint insert_command (path : list str) (d : list argdef) (t : ast) : ast :=
  match path with
  | [] => Node (Some d) (children_of t)
  | p :: rest =>
      let child := match dict_get p (children_of t) with Some n => n | None => Node None [] end in
      Node (def_of t) (dict_set p (insert_command rest d child) (children_of t))
  end.
Definition create (commands : list (list str * list argdef)) : ast :=
  fold_left (fun t c => insert_command (fst c) (snd c) t) commands (Node None []).
(** 349-357 [options]; a later option takes the names of an earlier one *)
Definition options (t : ast) : list (str * argdef) :=
  fold_left (fun d e => dict_set (fst e) (snd e) d)
    (flat_map (fun o => if is_option o then map (fun n => (n, o)) (a_names o) else []) (args_of t)) [].
(** 359-366 *)
Definition positionals (t : ast) : list argdef := filter is_positional (args_of t).
(** 458-460 *)
Definition help_flag : argdef := Arg [lit "-h"; lit "--help"] RFlag (Some (VB false)) None (KOption false None).
Definition global_options : list (str * argdef) := map (fun n => (n, help_flag)) (a_names help_flag).

(** ** The buffer: the words that remain (399-448).  Simplification: the list of the caller, in which [next_option_key]
    replaces words, is not modelled.  [IOErr] stands for [CommandParsingError]. *)
Definition buffer := list str.
(** [s.partition("=")] *)
Fixpoint partition_eq (s : str) : str * str :=
  match s with
  | [] => ([], [])
  | c :: r => if Ascii.eqb c "=" then ([], r) else let '(k, v) := partition_eq r in (c :: k, v)
  end.
(** 424-434 [next_option_key] *)
Definition next_option_key (b : buffer) : res (str * buffer) :=
  match b with
  | [] => Err IOErr
  | [] :: _ => Err IOErr
  | w :: rest =>
      let '(key, raw) := partition_eq w in
      Ok (strip key, match raw with [] => rest | _ => strip raw :: rest end)
  end.
(** the readers, 109-165 *)
Definition read (r : reader) (b : buffer) : res (val * buffer) :=
  match r with
  | RFlag => Ok (VB true, b)
  | RChoices l => match b with w :: rest => if str_mem w l then Ok (VS w, rest) else Err IOErr | [] => Err IOErr end
  | RType conv => match b with w :: rest => do v <- conv w; Ok (v, rest) | [] => Err IOErr end
  | RConst c => match b with w :: rest => if str_eqb w c then Ok (VS c, rest) else Err IOErr | [] => Err IOErr end
  end.

(** ** Fields (484-519) *)
(** 506: names to fields *)
Definition field_map (fs : list subdef) : list (str * subdef) :=
  fold_left (fun d e => dict_set (fst e) (snd e) d) (flat_map (fun f => map (fun n => (n, f)) (s_names f)) fs) [].
(** 508-513; [fuel]: every round shortens the words, see [fields_fuel] *)
Fixpoint fields_loop (fuel : nat) (fs : list subdef) (b : buffer) (d : list (str * val)) : res (list (str * val) * buffer) :=
  match b with
  | w :: _ =>
      if starts_with (lit "+") w then
        match fuel with
        | 0 => Err RecursionErr
        | S f =>
            do kb <- next_option_key b;
            match dict_get (fst kb) (field_map fs) with
            | None => Err IOErr
            | Some s => do vb <- read (s_reader s) (snd kb); fields_loop f fs (snd vb) (dict_set (s_field s) (fst vb) d)
            end
        end
      else Ok (d, b)
  | [] => Ok (d, b)
  end.
Definition buffer_size (b : buffer) : nat := fold_right (fun w n => S (length w) + n) 0 b.
Definition fields_fuel (b : buffer) : nat := buffer_size b.
(** 515-517 and 462-467 [_generate_defaults_for] *)
Fixpoint fill_fields (fs : list subdef) (d : list (str * val)) : res (list (str * val)) :=
  match fs with
  | [] => Ok d
  | f :: r =>
      if dict_has (s_field f) d then fill_fields r d
      else match s_default f with Some v => fill_fields r (dict_set (s_field f) v d) | None => Err IOErr end
  end.
Definition read_subfields (fields : option (list subdef)) (v : val) (b : buffer) : res (val * buffer) :=
  match fields with
  | None => Ok (v, b)
  | Some fs =>
      do db <- fields_loop (fields_fuel b) fs b [(lit "value", v)];
      do d <- fill_fields fs (fst db);
      Ok (VD d, snd db)
  end.

(** ** Commands being read: node, arguments, index of the next positional, and the finished parents *)
Record state := St { t_node : ast; t_path : list str; t_args : list (str * val); t_index : nat; t_parents : list (list str * list (str * val)) }.
Definition set_args (s : state) (a : list (str * val)) : state := St (t_node s) (t_path s) a (t_index s) (t_parents s).

(** 521-540 [_read_positional]; [fuel]: a positional of any number of values whose reader takes no word never ends *)
Fixpoint values_loop (fuel : nat) (a : argdef) (want : option nat) (b : buffer) : res (list val * buffer) :=
  match b, want with
  | [], _ => Ok ([], b)
  | _, Some 0 => Ok ([], b)
  | _, _ =>
      match fuel with
      | 0 => Err RecursionErr
      | S f =>
          do vb <- read (a_reader a) b;
          do xb <- read_subfields (a_fields a) (fst vb) (snd vb);
          do rb <- values_loop f a (option_map pred want) (snd xb);
          Ok (fst xb :: fst rb, snd rb)
      end
  end.
Definition read_positional (a : argdef) (n : option nat) (s : state) (b : buffer) : res (state * buffer) :=
  do vb <- values_loop (length b + match n with Some k => k | None => 0 end) a n b;
  do v <- match n with
          | None => Ok (VL (fst vb))
          | Some k => if negb (length (fst vb) =? k) then Err IOErr
                      else if k =? 1 then match fst vb with v :: _ => Ok v | [] => Err IndexError end
                      else Ok (VL (fst vb))
          end;
  Ok (St (t_node s) (t_path s) (dict_set (a_field a) v (t_args s)) (S (t_index s)) (t_parents s), snd vb).

(** 547-553 [_read_option_value] *)
Definition store (o : argdef) (v : val) (args : list (str * val)) : res (list (str * val)) :=
  match a_kind o with
  | KOption true _ =>
      match dict_get (a_field o) args with
      | None => Ok (dict_set (a_field o) (VL [v]) args)
      | Some (VL l) => Ok (dict_set (a_field o) (VL (l ++ [v])) args)
      | Some _ => Err AttributeError
      end
  | _ => Ok (dict_set (a_field o) v args)
  end.
Definition read_option_value (o : argdef) (s : state) (b : buffer) : res (state * buffer) :=
  do vb <- read (a_reader o) b;
  do xb <- read_subfields (a_fields o) (fst vb) (snd vb);
  do args <- store o (fst xb) (t_args s);
  Ok (set_args s args, snd xb).
(** 555-560 [_get_option] *)
Definition get_option (t : ast) (key : str) : option argdef :=
  match dict_get key (options t) with Some o => Some o | None => dict_get key global_options end.
(** 570-579: the letters of "-xyz" *)
Fixpoint letters_loop (letters : str) (need : option argdef) (s : state) (b : buffer) : res (option argdef * (state * buffer)) :=
  match letters with
  | [] => Ok (need, (s, b))
  | c :: r =>
      match need with
      | Some _ => Err IOErr
      | None =>
          match get_option (t_node s) ["-"%char; c] with
          | None => Err IOErr
          | Some o =>
              if is_flag (a_reader o) then
                do xb <- read_subfields (a_fields o) (VB true) b;
                letters_loop r None (set_args s (dict_set (a_field o) (fst xb) (t_args s))) (snd xb)
              else letters_loop r (Some o) s b
          end
      end
  end.
(** 562-582 [_read_option_or_flag] *)
Definition read_option_or_flag (s : state) (b : buffer) : res (state * buffer) :=
  do kb <- next_option_key b;
  let '(key, b1) := kb in
  if starts_with (lit "--") key then
    match get_option (t_node s) key with
    | None => Err IOErr
    | Some o => read_option_value o s b1
    end
  else if starts_with (lit "-") key then
    do nb <- letters_loop (tl key) None s b1;
    match fst nb with
    | Some o => read_option_value o (fst (snd nb)) (snd (snd nb))
    | None => Ok (snd nb)
    end
  else Ok (s, b1).

(** 628-647 [finilize_command] *)
Fixpoint fill_options (l : list argdef) (mutex : list str) (args : list (str * val)) : res (list (str * val)) :=
  match l with
  | [] => Ok args
  | a :: r =>
      match a_kind a with
      | KPositional _ => fill_options r mutex args
      | KOption _ m =>
          if dict_has (a_field a) args then
            match m with
            | Some g => match g with
                        | [] => fill_options r mutex args
                        | _ => if str_mem g mutex then Err IOErr else fill_options r (g :: mutex) args
                        end
            | None => fill_options r mutex args
            end
          else match a_default a with Some v => fill_options r mutex (dict_set (a_field a) v args) | None => Err IOErr end
      end
  end.
Fixpoint fill_positionals (l : list argdef) (args : list (str * val)) : res (list (str * val)) :=
  match l with
  | [] => Ok args
  | a :: r => match a_default a with Some v => fill_positionals r (dict_set (a_field a) v args) | None => Err IOErr end
  end.
Definition finalize (s : state) : res (list (str * val)) :=
  do args <- fill_options (help_flag :: args_of (t_node s)) [] (t_args s);
  fill_positionals (skipn (t_index s) (positionals (t_node s))) args.

(** ** 584-626 [parse] *)
(** one round of the loop; the word is the first of the buffer *)
Definition round (w : str) (s : state) (b : buffer) : res (state * buffer) :=
  if starts_with (lit "-") w then read_option_or_flag s b
  else if starts_with (lit "+") w then Err IOErr
  else match dict_get w (children_of (t_node s)) with
       | Some child =>
           do args <- finalize s;
           Ok (St child (t_path s ++ [w]) [] 0 ((t_path s, args) :: t_parents s), tl b)
       | None =>
           match nth_error (positionals (t_node s)) (t_index s) with
           | Some a => match a_kind a with
                       | KPositional n => read_positional a n s b
                       | _ => Err AttributeError
                       end
           | None => Err IOErr
           end
       end.
(** the commands read, innermost first, each with its path and arguments.  [None]: the loop did not end within [fuel]
    rounds.  Simplification: what a command holds after a [CommandParsingError] is not modelled; running it raises
    that error (65-66). *)
Definition result := list (list str * list (str * val)).
Fixpoint parse_loop (fuel : nat) (s : state) (b : buffer) : option (res result) :=
  match b with
  | (c :: w) :: _ =>
      match fuel with
      | 0 => None
      | S f => match round (c :: w) s b with
               | Ok (s', b') => parse_loop f s' b'
               | Err e => Some (Err e)
               end
      end
  | _ =>
      Some (match def_of (t_node s) with
            | None => Err IOErr
            | Some _ => do args <- finalize s; Ok ((t_path s, args) :: t_parents s)
            end)
  end.
Definition start (root : ast) : state := St root [] [] 0 [].
Definition parse (fuel : nat) (root : ast) (args : list str) : option (res result) := parse_loop fuel (start root) args.
