(** What a command line means: every word belongs to exactly one use of a declared command, option or positional. *)
From Coq Require Import String Ascii List Bool NArith Arith Lia.
From Verif Require Import Base ParserModel ProjectModel CliModel.
Import ListNotations.
Open Scope string_scope.
Open Scope nat_scope.
Open Scope list_scope.
Open Scope bool_scope.

(** the word names [key], followed by "=" and [raw] if that is not empty *)
Definition spells (t key raw : str) : Prop :=
  exists k, ~ In "="%char k /\ strip k = key /\ ((raw = [] /\ t = k) \/ t = k ++ "="%char :: raw).
(** the value a reader makes of a word *)
Definition value_of (r : reader) (w : str) (v : val) : Prop :=
  match r with
  | RFlag => False
  | RChoices l => In w l /\ v = VS w
  | RType conv => conv w = Ok v
  | RConst c => w = c /\ v = VS c
  end.
(** "--flag", "--key word" or "--key=word" *)
Inductive key_value (r : reader) (key : str) : list str -> val -> Prop :=
| kv_flag : forall t, r = RFlag -> spells t key [] -> key_value r key [t] (VB true)
| kv_apart : forall t w v, spells t key [] -> value_of r w v -> key_value r key [t; w] v
| kv_joined : forall t raw v, spells t key raw -> raw <> [] -> value_of r (strip raw) v -> key_value r key [t] v.

(** the last definition that has the name counts *)
Definition declares {A} (names : A -> list str) (l : list A) (key : str) (x : A) : Prop :=
  exists a b, l = a ++ x :: b /\ In key (names x) /\ forall y, In y b -> ~ In key (names y).
Definition begins (mark : str) (ws : list str) : Prop := match ws with w :: _ => starts_with mark w = true | [] => False end.
Definition no_field (b : list str) : Prop := match b with w :: _ => starts_with (lit "+") w = false | [] => True end.
(** the fields written after a value; [rest]: the words behind them *)
Inductive field_values (fs : list subdef) : list str -> list str -> list (str * val) -> list (str * val) -> Prop :=
| fv_end : forall rest d, no_field rest -> field_values fs [] rest d d
| fv_field : forall key f ws v more rest d d', begins (lit "+") ws -> declares s_names fs key f -> key_value (s_reader f) key ws v ->
    field_values fs more rest (dict_set (s_field f) v d) d' -> field_values fs (ws ++ more) rest d d'.
Definition with_fields (fields : option (list subdef)) (v : val) (ws rest : list str) (v' : val) : Prop :=
  match fields with
  | None => ws = [] /\ v' = v
  | Some fs => exists d d', field_values fs ws rest [(lit "value", v)] d /\ fill_fields fs d = Ok d' /\ v' = VD d'
  end.
(** the values of a positional *)
Inductive values (a : argdef) : list str -> list str -> list val -> Prop :=
| vs_none : forall rest, values a [] rest []
| vs_more : forall w v fws v' ws rest vs, value_of (a_reader a) w v -> with_fields (a_fields a) v fws (ws ++ rest) v' ->
    values a ws rest vs -> values a (w :: fws ++ ws) rest (v' :: vs).

(** options of a command and the global ones *)
Definition option_named (t : ast) (key : str) (o : argdef) : Prop :=
  declares a_names (filter is_option (args_of t)) key o \/
  (o = help_flag /\ In key (a_names help_flag) /\ forall p, In p (args_of t) -> is_option p = true -> ~ In key (a_names p)).
(** "-xyz": all letters but the last are flags *)
Inductive flags_set (t : ast) : str -> list (str * val) -> list (str * val) -> Prop :=
| fl_none : forall args, flags_set t [] args args
| fl_more : forall c l o args args', option_named t ["-"%char; c] o -> a_reader o = RFlag ->
    flags_set t l (dict_set (a_field o) (VB true) args) args' -> flags_set t (c :: l) args args'.

(** [used s ws rest s']: the words [ws], followed by [rest], have one meaning, which takes [s] to [s'] *)
Inductive used (s : state) : list str -> list str -> state -> Prop :=
| used_command : forall name child args rest, starts_with (lit "-") name = false -> starts_with (lit "+") name = false ->
    dict_get name (children_of (t_node s)) = Some child -> finalize s = Ok args ->
    used s [name] rest (St child (t_path s ++ [name]) [] 0 ((t_path s, args) :: t_parents s))
| used_long : forall key o ws v fws v' args rest, starts_with (lit "--") key = true -> begins (lit "-") ws ->
    option_named (t_node s) key o -> key_value (a_reader o) key ws v -> with_fields (a_fields o) v fws rest v' ->
    store o v' (t_args s) = Ok args -> used s (ws ++ fws) rest (set_args s args)
| used_short : forall l c o args ws v fws v' args' rest, begins (lit "-") ws -> starts_with (lit "-") (l ++ [c]) = false ->
    flags_set (t_node s) l (t_args s) args -> option_named (t_node s) ["-"%char; c] o ->
    key_value (a_reader o) ("-"%char :: l ++ [c]) ws v -> with_fields (a_fields o) v fws rest v' ->
    store o v' args = Ok args' -> used s (ws ++ fws) rest (set_args s args')
| used_positional : forall a n w more ws rest vs, nth_error (positionals (t_node s)) (t_index s) = Some a -> a_kind a = KPositional n ->
    ws ++ rest = w :: more -> starts_with (lit "-") w = false -> starts_with (lit "+") w = false ->
    dict_get w (children_of (t_node s)) = None ->
    values a ws rest vs -> match n with None => rest = [] | Some k => length vs = k end ->
    used s ws rest (St (t_node s) (t_path s)
      (dict_set (a_field a) (match n, vs with Some 1, [v] => v | _, _ => VL vs end) (t_args s)) (S (t_index s)) (t_parents s)).
(** a whole command line *)
Inductive explains : state -> list str -> result -> Prop :=
| ex_done : forall s args, def_of (t_node s) <> None -> finalize s = Ok args -> explains s [] ((t_path s, args) :: t_parents s)
| ex_use : forall s ws rest s' r, ws ++ rest <> [] -> used s ws rest s' -> explains s' rest r -> explains s (ws ++ rest) r.

(** ** The definitions and command lines for which that holds *)
Inductive within (root : ast) : ast -> Prop :=
| within_root : within root root
| within_child : forall t n c, within root t -> In (n, c) (children_of t) -> within root c.
(** flags have no fields and are not repeatable, positionals are not flags *)
Definition simple_arg (a : argdef) : Prop :=
  match a_kind a with
  | KOption rep _ => a_reader a = RFlag -> a_fields a = None /\ rep = false
  | KPositional _ => a_reader a <> RFlag
  end.
Definition simple (root : ast) : Prop := forall t, within root t -> forall a, In a (args_of t) -> simple_arg a.
Definition flag_option (root : ast) (name : str) : Prop :=
  exists o, (o = help_flag \/ exists t, within root t /\ In o (args_of t)) /\ a_reader o = RFlag /\ In name (a_names o).
Definition flag_field (root : ast) (name : str) : Prop :=
  exists t a fs f, within root t /\ In a (args_of t) /\ a_fields a = Some fs /\ In f fs /\ s_reader f = RFlag /\ In name (s_names f).
(** no word is empty or a lone "-", and no flag is given a value *)
Definition clean_word (root : ast) (w : str) : Prop :=
  w <> [] /\
  forall key raw, spells w key raw ->
    (starts_with (lit "-") w = true -> key <> lit "-") /\
    (raw <> [] -> ~ flag_option root key /\ ~ flag_field root key /\ forall l c, key = "-"%char :: l ++ [c] -> ~ flag_option root ["-"%char; c]).
Definition clean (root : ast) (args : list str) : Prop := forall w, In w args -> clean_word root w.
