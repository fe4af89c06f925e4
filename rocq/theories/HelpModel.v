(** The help of a command: pkm-cli/src/pkm_cli/api/dynamic_cli/help_generator.py, with [value_hint] of the readers
    (command_parser.py 109-165) and pkm/src/pkm/utils/formatting.py.
    Simplifications: ASCII; as in CliModel, fields are options without fields, and there are no providers of fields and no
    dynamic arguments; an object occurs once among the arguments of a command. *)
From Coq Require Import String Ascii List Bool NArith Arith Lia.
From Verif Require Import Base ParserModel ProjectModel CliModel.
Import ListNotations.
Open Scope string_scope.
Open Scope nat_scope.
Open Scope list_scope.
Open Scope bool_scope.

(** ** formatting.py 6-15 *)
Definition upper_char (c : ascii) : ascii := if is_lower c then ascii_of_N (code c - 32)%N else c.
(** the lookarounds of the pattern between [c] and [d], which [r] follows *)
Definition boundary (c d : ascii) (r : str) : bool :=
  is_lower c && is_upper d || is_upper c && is_upper d && match r with e :: _ => is_lower e | [] => false end.
Fixpoint split_camel_case (s : str) : list str :=
  match s with
  | [] => []
  | c :: r =>
      match r with
      | [] => [[c]]
      | d :: r' => if boundary c d r' then [c] :: split_camel_case r
                   else match split_camel_case r with w :: ws => (c :: w) :: ws | [] => [[c]] end
      end
  end.
Definition upper_snake_case (s : str) : str := join (lit "_") (map (map upper_char) (split_camel_case s)).

(** ** names, command_parser.py 176-203 *)
Definition defined_names (names : list str) : list str := sort_len names.
Definition display_name (names : list str) : str := join (lit ", ") (defined_names names).
Definition is_long (n : str) : bool := starts_with (lit "--") n.
Definition short_name (names : list str) : option str := find (fun n => negb (is_long n)) (defined_names names).
Definition long_name (names : list str) : option str := find is_long (defined_names names).

(** what is not in the model of the parser: the name of the class that a reader makes, the texts of help *)
Record texts := Texts { class_name : (str -> res val) -> str; arg_help : argdef -> str; child_desc : str -> str }.
(** command_parser.py 109-165 *)
Definition value_hint (T : texts) (r : reader) : str :=
  match r with
  | RFlag => []
  | RChoices l => lit "{" ++ join (lit ", ") l ++ lit "}"
  | RType conv => upper_snake_case (class_name T conv)
  | RConst c => c
  end.

(** [seq(node.options.values()).unique_by(id)]; objects are known by their position *)
Definition option_ids (t : ast) : list (str * nat) :=
  fold_left (fun d e => dict_set (fst e) (snd e) d)
    (flat_map (fun io => if is_option (snd io) then map (fun n => (n, fst io)) (a_names (snd io)) else [])
       (combine (seq 0 (length (args_of t))) (args_of t))) [].
Fixpoint uniq (tracked l : list nat) : list nat :=
  match l with
  | [] => []
  | i :: r => if existsb (Nat.eqb i) tracked then uniq tracked r else i :: uniq (i :: tracked) r
  end.
Definition unique_options (t : ast) : list argdef :=
  flat_map (fun i => match nth_error (args_of t) i with Some a => [a] | None => [] end) (uniq [] (map snd (option_ids t))).

(** ** 10-47 [generate_arguments_overview]: the lines *)
Definition lf : ascii := "010"%char.
Definition header (T : texts) (a : argdef) : str :=
  if is_option a && is_flag (a_reader a) then display_name (a_names a)
  else display_name (a_names a) ++ lit " <" ++ value_hint T (a_reader a) ++ lit ">".
Definition arg_lines (T : texts) (a : argdef) : list str :=
  (lit "  " ++ header T a) :: match arg_help T a with [] => [] | h => [lit "      " ++ h] end.
Definition pad (n : nat) (s : str) : str := s ++ repeat " "%char (n - length s).
Definition child_line (T : texts) (padding : nat) (c : str * ast) : str :=
  lit "  " ++ pad padding (fst c) ++ lit " " ++ match def_of (snd c) with Some _ => child_desc T (fst c) | None => [] end.
Definition overview_lines (T : texts) (t : ast) : list str :=
  let opts := unique_options t in
  let part1 := match opts with [] => [] | _ => lit "Options: " :: flat_map (arg_lines T) opts end in
  let sep1 := match opts with [] => [] | _ => [lf] end in
  let pos := positionals t in
  let part2 := match pos with [] => [] | _ => (sep1 ++ lit "Positional Arguments: ") :: flat_map (arg_lines T) pos end in
  let sep2 := match pos with [] => sep1 | _ => [lf] end in
  let kids := children_of t in
  let part3 := match kids with
               | [] => []
               | _ => (sep2 ++ lit "Sub-Commands: ") :: map (child_line T (list_max (map (fun c => length (fst c)) kids) + 2)) kids
               end in
  part1 ++ part2 ++ part3.

(** ** 105-140 [_create_option_usage_tokens] *)
(** an option or a field; [i_fields]: the tokens of its fields, if it has some; [i_sub]: [has_subfields()] *)
Record item := Item { i_names : list str; i_reader : reader; i_required : bool; i_multi : bool; i_sub : bool; i_fields : option (res (list str)) }.
Definition combinable (i : item) : bool := is_flag (i_reader i) && negb (i_sub i).
(** 109: [flag.short_name() or flag.long_name()]; with neither, [len(None)] *)
Definition shortest (i : item) : res str :=
  match short_name (i_names i) with
  | Some (c :: s) => Ok (c :: s)
  | _ => match long_name (i_names i) with Some s => Ok s | None => Err TypeError end
  end.
(** 108-113: the letters and the other tokens *)
Fixpoint flag_tokens (l : list item) : res (str * list str) :=
  match l with
  | [] => Ok ([], [])
  | i :: r =>
      do n <- shortest i;
      do lt <- flag_tokens r;
      Ok (match n with
          | [_; c] => (c :: fst lt, snd lt)
          | _ => (fst lt, (lit "[" ++ n ++ lit "]") :: snd lt)
          end)
  end.
(** 117-140 *)
Definition option_token (T : texts) (i : item) : res str :=
  do base <- match value_hint T (i_reader i), short_name (i_names i) with
             | [], Some s => Ok s
             | [], None => Ok (lit "None")
             | h, Some s => Ok (s ++ (if starts_with (lit "-") s then lit " " else lit "=") ++ h)
             | _, None => Err AttributeError
             end;
  do full <- match i_fields i with
             | Some ts => do ts <- ts; Ok (base ++ lit " " ++ join (lit " ") ts)
             | None => Ok base
             end;
  let wrapped := if negb (i_required i) then lit "[" ++ full ++ lit "]" else if i_multi i then lit "(" ++ full ++ lit ")" else full in
  Ok (if i_multi i then wrapped ++ lit "*" else wrapped).
Fixpoint map_res {A B} (f : A -> res B) (l : list A) : res (list B) :=
  match l with [] => Ok [] | a :: r => do b <- f a; do bs <- map_res f r; Ok (b :: bs) end.
Definition option_tokens (T : texts) (l : list item) : res (list str) :=
  do lt <- flag_tokens (filter combinable l);
  do ts <- map_res (option_token T) (filter (fun i => negb (combinable i)) l);
  Ok (snd lt ++ match fst lt with [] => [] | letters => [lit "[-" ++ letters ++ lit "]"] end ++ ts).

Definition field_item (s : subdef) : item :=
  Item (s_names s) (s_reader s) (negb (is_some (s_default s))) false false None.
Definition field_tokens (T : texts) (a : argdef) : option (res (list str)) :=
  match a_fields a with Some (f :: fs) => Some (option_tokens T (map field_item (f :: fs))) | _ => None end.
Definition option_item (T : texts) (a : argdef) : item :=
  Item (a_names a) (a_reader a) (negb (is_some (a_default a))) (match a_kind a with KOption r _ => r | KPositional _ => false end)
    (is_some (a_fields a)) (field_tokens T a).

(** ** 50-102 [generate_usage] *)
Definition mutex_of (a : argdef) : option str := match a_kind a with KOption _ (Some (c :: g)) => Some (c :: g) | _ => None end.
Fixpoint mutex_groups (l : list argdef) (d : list (str * list argdef)) : list (str * list argdef) :=
  match l with
  | [] => d
  | a :: r => match mutex_of a with
              | Some g => mutex_groups r (dict_set g (match dict_get g d with Some x => x | None => [] end ++ [a]) d)
              | None => mutex_groups r d
              end
  end.
(** [it.strip('[]')] *)
Definition is_bracket (c : ascii) : bool := Ascii.eqb c "[" || Ascii.eqb c "]".
Definition strip_brackets (s : str) : str := rev (snd (span is_bracket (rev (snd (span is_bracket s))))).
Definition group_token (T : texts) (g : list argdef) : res str :=
  do ts <- option_tokens T (map (option_item T) g);
  Ok (lit "[" ++ join (lit " | ") (map strip_brackets ts) ++ lit "]").
(** the decimal digits of the number of values *)
Fixpoint digits (fuel : nat) (n : nat) : str :=
  match fuel with
  | 0 => []
  | S f => (if n <? 10 then [] else digits f (n / 10)) ++ [ascii_of_nat (48 + n mod 10)]
  end.
Definition close_last (close : str) (l : list str) : list str :=
  match rev l with [] => [] | x :: r => rev ((x ++ close) :: r) end.
Definition positional_tokens (T : texts) (a : argdef) : res (list str) :=
  let name := match a_reader a with RConst c => c | _ => hd [] (a_names a) end in
  let '(open, close) := match a_default a with None => (lit "<", lit ">") | Some _ => (lit "[", lit "]") end in
  do ts <- match field_tokens T a with
           | Some ts => do ts <- ts; Ok (close_last close ((open ++ name) :: ts))
           | None => Ok [match a_default a with None => name | Some _ => lit "[" ++ name ++ lit "]" end]
           end;
  Ok (ts ++ match a_kind a with
            | KPositional None => [lit "..."]
            | KPositional (Some n) => if n =? 1 then [] else [lit "x" ++ digits (S n) n]
            | KOption _ _ => []
            end).
Definition usage_tokens (T : texts) (t : ast) : res (list str) :=
  let opts := unique_options t in
  do plain <- option_tokens T (map (option_item T) (filter (fun a => negb (is_some (mutex_of a))) opts));
  do groups <- map_res (fun g => group_token T (snd g)) (mutex_groups opts []);
  do pos <- map_res (positional_tokens T) (positionals t);
  Ok (plain ++ groups ++ concat pos ++
      match children_of t with
      | [] => []
      | _ => [match def_of t with Some _ => lit "[SUB_COMMAND]" | None => lit "SUB_COMMAND" end]
      end).
Definition usage (T : texts) (path : list str) (t : ast) : res str :=
  do ts <- usage_tokens T t;
  Ok (lit "Usage: " ++ join (lit " ") path ++ lit " " ++ join (lit " ") ts).
