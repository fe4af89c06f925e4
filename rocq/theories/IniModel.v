(** Files of sections, and the entry points of packages that are kept in them:
    pkm/src/pkm/config/configfiles.py (INIConfigIO), pkm/src/pkm/api/distributions/distinfo.py (EntrypointsConfiguration),
    pkm/src/pkm/api/environments/environment.py (entrypoints), pkm/src/pkm/api/repositories/repository_loader.py.
    INIConfigIO leaves the work to Python's configparser, which is modelled here as far as it is used: Lib/configparser.py of
    Python 3.11 with the options that ConfigParser() has, case-sensitive names (configfiles.py:37-38) and the interpolation of '%'.
    All errors of configparser are [Malformed].  Simplification: characters are bytes. *)
From Coq Require Import String Ascii List Bool NArith Arith.
From Verif Require Import Base ParserModel PthModel RecordFileModel ProjectModel.
Import ListNotations.
Open Scope string_scope.
Open Scope nat_scope.
Open Scope list_scope.
Open Scope bool_scope.

(** the dictionary of a file: a name stands for a text or for a section of names and texts *)
Inductive node := Text (s : str) | Section_ (kvs : list (str * str)).
Definition data := list (str * node).
Definition default_section : str := "DEFAULT".
Definition tab : ascii := "009"%char.
Definition not_percent (c : ascii) : bool := negb (Ascii.eqb c "%").
Definition has_percent (s : str) : bool := existsb (Ascii.eqb "%") s.

(** ** Interpolation *)
(** configparser.py [BasicInterpolation._KEYCRE], %\(([^)]+)\)s, at the front of a text: the name and what follows *)
Definition reference (s : str) : option (str * str) :=
  match s with
  | p :: o :: r =>
      if Ascii.eqb p "%" && Ascii.eqb o "(" then
        let '(name, r) := span (fun c => negb (Ascii.eqb c ")")) r in
        match name, r with
        | _ :: _, _ :: c :: rest => if Ascii.eqb c "s" then Some (name, rest) else None
        | _, _ => None
        end
      else None
  | _ => None
  end.
(** [before_set]: [value.replace('%%', '')] *)
Fixpoint drop_escaped (s : str) : str :=
  match s with
  | [] => []
  | c :: r =>
      match r with
      | d :: r' => if Ascii.eqb c "%" && Ascii.eqb d "%" then drop_escaped r' else c :: drop_escaped r
      | [] => [c]
      end
  end.
(** [before_set]: [self._KEYCRE.sub('', tmp_value)]; [fuel] is the length of the text *)
Fixpoint drop_references (fuel : nat) (s : str) : str :=
  match fuel, s with
  | S fuel, c :: r => match reference s with Some (_, rest) => drop_references fuel rest | None => c :: drop_references fuel r end
  | _, _ => s
  end.
Definition settable (v : str) : bool := let v := drop_escaped v in negb (has_percent (drop_references (length v) v)).
(** [_interpolate_some] on the rest of a text; [inner] is the same for the values that are referred to; [fuel] is the length *)
Section Expand.
  Variable look : str -> option str.
  Section Loop.
    Variable inner : str -> res str.
    Fixpoint expand_loop (fuel : nat) (rest : str) : res str :=
      match fuel with
      | 0 => Ok []
      | S fuel =>
          let '(a, rest) := span not_percent rest in
          match rest with
          | [] => Ok a
          | [_] => Err Malformed
          | _ :: d :: r =>
              if Ascii.eqb d "%" then do t <- expand_loop fuel r; Ok (a ++ lit "%" ++ t)
              else match reference rest with
                   | None => Err Malformed
                   | Some (name, r) =>
                       match look name with
                       | None => Err Malformed
                       | Some v => do x <- (if has_percent v then inner v else Ok v); do t <- expand_loop fuel r; Ok (a ++ x ++ t)
                       end
                   end
          end
      end.
  End Loop.
  Fixpoint expand (depth : nat) (s : str) : res str :=
    match depth with 0 => Err Malformed | S depth => expand_loop (expand depth) (S (length s)) s end.
End Expand.
(** [MAX_INTERPOLATION_DEPTH] *)
Definition max_depth : nat := 10.

(** ** Writing: configfiles.py:42-55 *)
(** the parser that is filled: the defaults and the sections *)
Record parser := Parser { p_defaults : list (str * str); p_sections : list (str * list (str * str)) }.
(** [ConfigParser.set]: the empty name of a section stands for the defaults *)
Definition set_option (section key v : str) (p : parser) : res parser :=
  if match v with [] => true | _ => settable v end then
    match section with
    | [] => Ok (Parser (dict_set key v (p_defaults p)) (p_sections p))
    | _ => match dict_get section (p_sections p) with
           | None => Err Malformed
           | Some kvs => Ok (Parser (p_defaults p) (dict_set section (dict_set key v kvs) (p_sections p)))
           end
    end
  else Err ValueError.
(** [RawConfigParser.add_section] *)
Definition add_section (name : str) (p : parser) : res parser :=
  if str_eqb name default_section then Err ValueError
  else if dict_has name (p_sections p) then Err Malformed
  else Ok (Parser (p_defaults p) (dict_set name [] (p_sections p))).
Fixpoint set_all (section : str) (kvs : list (str * str)) (p : parser) : res parser :=
  match kvs with [] => Ok p | (k, v) :: r => do p <- set_option section k v p; set_all section r p end.
(** 45-51 *)
Fixpoint fill (d : data) (p : parser) : res parser :=
  match d with
  | [] => Ok p
  | (k, Section_ kvs) :: r => do p <- add_section k p; do p <- set_all k kvs p; fill r p
  | (k, Text v) :: r => do p <- set_option [] k v p; fill r p
  end.
(** [_write_section]: [str(value).replace('\n', '\n\t')] *)
Definition indent_lines (v : str) : str := flat_map (fun c => if Ascii.eqb c LF then [LF; tab] else [c]) v.
Definition option_text (kv : str * str) : str := fst kv ++ lit " = " ++ indent_lines (snd kv) ++ [LF].
Definition section_text (s : str * list (str * str)) : str :=
  lit "[" ++ fst s ++ lit "]" ++ [LF] ++ concat (map option_text (snd s)) ++ [LF].
(** [write] *)
Definition parser_text (p : parser) : str :=
  match p_defaults p with [] => [] | kvs => section_text (default_section, kvs) end ++ concat (map section_text (p_sections p)).
(** 42-55: nothing is written unless all values were set *)
Definition ini_write (d : data) : res str := do p <- fill d (Parser [] []); Ok (parser_text p).

(** ** Reading: configfiles.py:57-67 *)
(** the lines of a file that is opened as a text ([newlines] of PthModel.v: \r\n and \r are read as \n), without the sign at
    their end; there is no line behind the last sign *)
Definition drop_last_empty (l : list str) : list str :=
  match rev l with [] :: r => rev r | _ => l end.
Definition file_lines (s : str) : list str := drop_last_empty (split_on LF (newlines s)).
(** [SECTCRE.match]: \[(?P<header>.+)\]; the header reaches up to the last bracket *)
Definition header (value : str) : option str :=
  match value with
  | c :: r =>
      if Ascii.eqb c "[" then
        match snd (span (fun c => negb (Ascii.eqb c "]")) (rev r)) with
        | _ :: h => match h with [] => None | _ => Some (rev h) end
        | [] => None
        end
      else None
  | [] => None
  end.
(** [OPTCRE.match]: the first sign = or : separates the name from the value; the blanks around it belong to neither *)
Definition not_delimiter (c : ascii) : bool := negb (Ascii.eqb c "=" || Ascii.eqb c ":").
Definition option_line (value : str) : option (str * str) :=
  let '(k, r) := span not_delimiter value in
  match r with [] => None | _ :: v => Some (rstrip_ws k, strip_ws v) end.
Definition is_comment (value : str) : bool := match value with c :: _ => Ascii.eqb c "#" || Ascii.eqb c ";" | [] => false end.
(** the variables of [_read].  The values are lists of lines.  [s_section] is [sectname], which tells [cursect]; [s_option] is
    [optname], where None is the empty text; [s_added] is [elements_added]; [s_bad] says that [e] holds an error *)
Record state := State {
  s_defaults : list (str * list str);
  s_sections : list (str * list (str * list str));
  s_section : option str;
  s_option : str;
  s_indent : nat;
  s_added : list (str * option str);
  s_bad : bool }.
Definition added (k : str * option str) (s : state) : bool :=
  existsb (fun x => str_eqb (fst x) (fst k) && match snd x, snd k with
                                               | None, None => true
                                               | Some a, Some b => str_eqb a b
                                               | _, _ => false
                                               end) (s_added s).
(** the dictionary [cursect] of the section [name] *)
Definition options_of (name : str) (s : state) : list (str * list str) :=
  if str_eqb name default_section then s_defaults s else opt_or (dict_get name (s_sections s)) [].
Definition with_options (name : str) (o : list (str * list str)) (s : state) : state :=
  if str_eqb name default_section then State o (s_sections s) (s_section s) (s_option s) (s_indent s) (s_added s) (s_bad s)
  else State (s_defaults s) (dict_set name o (s_sections s)) (s_section s) (s_option s) (s_indent s) (s_added s) (s_bad s).
(** [cursect[optname].append(value)] *)
Definition append_line (name value : str) (s : state) : state :=
  with_options name (dict_set (s_option s) (opt_or (dict_get (s_option s) (options_of name s)) [] ++ [value]) (options_of name s)) s.
Definition with_indent (i : nat) (s : state) : state :=
  State (s_defaults s) (s_sections s) (s_section s) (s_option s) i (s_added s) (s_bad s).
Definition with_bad (s : state) : state :=
  State (s_defaults s) (s_sections s) (s_section s) (s_option s) (s_indent s) (s_added s) true.
(** a section header *)
Definition open_section (name : str) (s : state) : res state :=
  if dict_has name (s_sections s) then
    if added (name, None) s then Err Malformed
    else Ok (State (s_defaults s) (s_sections s) (Some name) [] (s_indent s) ((name, None) :: s_added s) (s_bad s))
  else if str_eqb name default_section then
    Ok (State (s_defaults s) (s_sections s) (Some name) [] (s_indent s) (s_added s) (s_bad s))
  else Ok (State (s_defaults s) (dict_set name [] (s_sections s)) (Some name) [] (s_indent s) ((name, None) :: s_added s) (s_bad s)).
(** an option *)
Definition open_option (name k v : str) (s : state) : res state :=
  let s := match k with [] => with_bad s | _ => s end in
  if added (name, Some k) s then Err Malformed
  else
    let s := State (s_defaults s) (s_sections s) (s_section s) k (s_indent s) ((name, Some k) :: s_added s) (s_bad s) in
    Ok (with_options name (dict_set k [v] (options_of name s)) s).
(** one line of [_read] *)
Definition read_one (s : state) (line : str) : res state :=
  let comment := is_comment (strip_ws line) in
  let value := if comment then [] else strip_ws line in
  match value with
  | [] =>
      match comment, s_section s, s_option s with
      | false, Some name, _ :: _ => Ok (append_line name [] s)
      | _, _, _ => Ok s
      end
  | _ =>
      let indent := length (fst (span is_space line)) in
      let continues := match s_section s, s_option s with Some _, _ :: _ => s_indent s <? indent | _, _ => false end in
      match s_section s with
      | Some name =>
          if continues then Ok (append_line name value s)
          else
            let s := with_indent indent s in
            match header value with
            | Some h => open_section h s
            | None =>
                match option_line value with
                | Some (k, v) => open_option name k v s
                | None => Ok (with_bad s)
                end
            end
      | None =>
          match header value with Some h => open_section h (with_indent indent s) | None => Err Malformed end
      end
  end.
Fixpoint read_all (s : state) (lines : list str) : res state :=
  match lines with [] => Ok s | l :: r => do s <- read_one s l; read_all s r end.
Definition start : state := State [] [] None [] 0 [] false.
(** [_join_multiline_values] *)
Definition join_lines (kvs : list (str * list str)) : list (str * str) := map (fun kv => (fst kv, rstrip_ws (join [LF] (snd kv)))) kvs.
(** [_unify_values]: the section before the defaults *)
Definition lookup_in (kvs defaults : list (str * str)) (k : str) : option str :=
  match dict_get k kvs with Some v => Some v | None => dict_get k defaults end.
(** [SectionProxy]: the names of the section and those of the defaults that it has not *)
Definition option_names (kvs defaults : list (str * str)) : list str :=
  map fst kvs ++ filter (fun k => negb (dict_has k kvs)) (map fst defaults).
Fixpoint get_all (look : str -> option str) (names : list str) : res (list (str * str)) :=
  match names with
  | [] => Ok []
  | k :: r =>
      do v <- match look k with Some v => expand look max_depth v | None => Err KeyError end;
      do rest <- get_all look r;
      Ok ((k, v) :: rest)
  end.
Fixpoint get_sections (defaults : list (str * str)) (sections : list (str * list (str * str))) (d : data) : res data :=
  match sections with
  | [] => Ok d
  | (name, kvs) :: r =>
      do values <- get_all (lookup_in kvs defaults) (option_names kvs defaults);
      get_sections defaults r (dict_set name (Section_ values) d)
  end.
(** 57-67.  60 [cp.read]: the section of the defaults is the first one *)
Definition ini_read (text : str) : res data :=
  do s <- read_all start (file_lines text);
  if s_bad s then Err Malformed
  else
    let defaults := join_lines (s_defaults s) in
    let sections := map (fun e => (fst e, join_lines (snd e))) (s_sections s) in
    do top <- get_all (lookup_in [] defaults) (map fst defaults);
    get_sections defaults sections (map (fun kv => (fst kv, Text (snd kv))) top).
(** configclass.py:242-244 [load]: a file that is not there is empty *)
Definition ini_load (file : option str) : res data := match file with Some text => ini_read text | None => Ok [] end.

(** ** The entry points of a package: distinfo.py:210-230 *)
(** 215-223: the value of every name is taken for a section; a text has no [items] *)
Fixpoint entries_in (d : data) : res (list entry) :=
  match d with
  | [] => Ok []
  | (_, Text _) :: _ => Err AttributeError
  | (g, Section_ kvs) :: r => do l <- entries_in r; Ok (entries_of g kvs ++ l)
  end.
(** distinfo.py:75-80 [load_entrypoints_cfg().entrypoints] *)
Definition load_entries (file : option str) : res (list entry) := do d <- ini_load file; entries_in d.
(** 225-230 and [save]; the sections are those of ProjectModel.v *)
Definition save_entries (l : list entry) : res str := ini_write (map (fun e => (fst e, Section_ (snd e))) (entries_data l)).

(** ** The entry points of an environment: environment.py:294-305 *)
(** the packages with their file, in the order of the site directories; [groups] is a defaultdict of lists *)
Definition add_to_group {P} (p : P) (groups : list (str * list (P * entry))) (e : entry) : list (str * list (P * entry)) :=
  dict_set (e_group e) (opt_or (dict_get (e_group e) groups) [] ++ [(p, e)]) groups.
Fixpoint env_entries {P} (packages : list (P * option str)) (groups : list (str * list (P * entry))) : res (list (str * list (P * entry))) :=
  match packages with
  | [] => Ok groups
  | (p, file) :: r => do l <- load_entries file; env_entries r (fold_left (add_to_group p) l groups)
  end.
(** repository_loader.py:53-69: the extensions that are tried, each within a [try]; what the entry points themselves raise is not
    caught, so that no repositories are loaded *)
Definition extensions_group : str := "pkm-repositories".
Definition extensions {P} (packages : list (P * option str)) : res (list (P * entry)) :=
  do groups <- env_entries packages []; Ok (opt_or (dict_get extensions_group groups) []).
