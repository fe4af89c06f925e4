(** The files of a dist-info directory that list what is installed, and files of the form "key: value":
    pkm/src/pkm/config/configfiles.py, pkm/src/pkm/api/distributions/distinfo.py, pkm/src/pkm/utils/hashes.py,
    pkm/src/pkm/api/environments/environment_builder.py. *)
From Coq Require Import String Ascii List Bool NArith Arith.
From Verif Require Import Base ParserModel PthModel ArtifactModel.
Import ListNotations.
Open Scope string_scope.
Open Scope nat_scope.
Open Scope list_scope.
Open Scope bool_scope.

(** ** Python's csv module, dialect excel *)
Definition quote : ascii := """"%char.
Definition cr : ascii := "013"%char.
Definition lf : ascii := "010"%char.
Definition is_end (c : ascii) : bool := Ascii.eqb c lf || Ascii.eqb c cr.
(** _csv.c, [join_append_data]: which characters make a field quoted *)
Definition needs_quotes (c : ascii) : bool := Ascii.eqb c "," || Ascii.eqb c quote || is_end c.
Definition double_quotes (s : str) : str := flat_map (fun c => if Ascii.eqb c quote then [quote; quote] else [c]) s.
Definition csv_field (alone : bool) (s : str) : str :=
  if existsb needs_quotes s || (alone && match s with [] => true | _ => false end) then quote :: double_quotes s ++ [quote] else s.
Definition csv_row (fields : list str) : str :=
  join "," (map (csv_field (match fields with [_] => true | _ => false end)) fields) ++ [cr; lf].

(** _csv.c, [parse_process_char] and [Reader_iternext].  Escape characters, [strict] and [skipinitialspace] are off. *)
Inductive state := StartRecord | StartField | InField | InQuoted | QuoteInQuoted | EatEnd.
(** the state, the fields of this record (last one first), this field (last character first) *)
Record reader := Reader { r_state : state; r_fields : list str; r_field : str }.
Definition fresh : reader := Reader StartRecord [] [].
Definition save_field (m : reader) (s : state) : reader := Reader s (rev (r_field m) :: r_fields m) [].
Definition add_char (m : reader) (c : ascii) (s : state) : reader := Reader s (r_fields m) (c :: r_field m).
Definition goto (m : reader) (s : state) : reader := Reader s (r_fields m) (r_field m).
Definition start_field (c : ascii) (m : reader) : reader :=
  if is_end c then save_field m EatEnd
  else if Ascii.eqb c quote then goto m InQuoted
  else if Ascii.eqb c "," then save_field m StartField
  else add_char m c InField.
Definition step (c : ascii) (m : reader) : res reader :=
  match r_state m with
  | StartRecord => if is_end c then Ok (goto m EatEnd) else Ok (start_field c m)
  | StartField => Ok (start_field c m)
  | InField => Ok (if is_end c then save_field m EatEnd else if Ascii.eqb c "," then save_field m StartField else add_char m c InField)
  | InQuoted => Ok (if Ascii.eqb c quote then goto m QuoteInQuoted else add_char m c InQuoted)
  | QuoteInQuoted =>
      Ok (if Ascii.eqb c quote then add_char m c InQuoted
          else if Ascii.eqb c "," then save_field m StartField
          else if is_end c then save_field m EatEnd
          else add_char m c InField)
  | EatEnd => if is_end c then Ok m else Err OtherErr
  end.
(** at the end of a line of the file *)
Definition step_end (m : reader) : reader :=
  match r_state m with
  | StartRecord => m
  | StartField | InField | QuoteInQuoted => save_field m StartRecord
  | InQuoted => m
  | EatEnd => goto m StartRecord
  end.
(** the lines of a file that was opened with [newline='']: they end behind \n, \r or \r\n *)
Definition ends_line (c : ascii) (rest : str) : bool :=
  Ascii.eqb c lf || (Ascii.eqb c cr && match rest with d :: _ => negb (Ascii.eqb d lf) | [] => true end).
(** a line has been read: the record, if it is complete *)
Definition emit (m : reader) : option (list str) * reader :=
  match r_state m with StartRecord => (Some (rev (r_fields m)), fresh) | _ => (None, m) end.
Definition with_record (o : option (list str)) (l : list (list str)) : list (list str) := match o with Some x => x :: l | None => l end.
(** [list(csv.reader(fd))]; [started]: there are characters of a line that has not ended *)
Fixpoint csv_records (m : reader) (started : bool) (text : str) : res (list (list str)) :=
  match text with
  | [] =>
      let (o, m) := if started then emit (step_end m) else (None, m) in
      let pending := match r_state m with InQuoted => true | _ => match r_field m with [] => false | _ => true end end in
      Ok (with_record o (if pending then [rev (r_fields (save_field m StartRecord))] else []))
  | c :: rest =>
      do m <- step c m;
      if ends_line c rest then
        let (o, m) := emit (step_end m) in
        do l <- csv_records m false rest; Ok (with_record o l)
      else csv_records m true rest
  end.
Definition csv_read (text : str) : res (list (list str)) := csv_records fresh false text.

(** ** RECORD *)
(** hashes.py:95, 157-163 [re.split("\\s*=\\s*", s)] in two parts.  Simplification: the blanks around the sign are the only ones
    that are removed, as in the expression. *)
Definition rstrip_ws (s : str) : str := rev (lstrip_ws (rev s)).
Definition parse_signature (s : str) : res signature :=
  match split_on "=" s with
  | [a; b] => Ok (Sig (rstrip_ws a) (lstrip_ws b))
  | _ => Err ValueError
  end.
(** hashes.py:136-137 *)
Definition show_signature (s : signature) : str := s_type s ++ lit "=" ++ s_value s.
(** distinfo.py:263-273 [Record] as it is read: every field can be None *)
Record record := Rec { rec_file : option str; rec_hash : option signature; rec_length : option N }.
(** configfiles.py:108-112: the dictionary of a row, [self._headers[i]] raises for a fourth field *)
Definition row_dict (row : list str) : res (option str * option str * option str) :=
  match row with
  | [] => Ok (None, None, None)
  | [a] => Ok (Some a, None, None)
  | [a; b] => Ok (Some a, Some b, None)
  | [a; b; c] => Ok (Some a, Some b, Some c)
  | _ => Err IndexError
  end.
(** configclass.py:302-339 with the codecs of configfiles.py:95-97 and distinfo.py:254-260; a codec that raises becomes a
    ValueError.  Simplification: a length is read from digits only; Python also takes signs, blanks and underscores. *)
Definition parse_record (d : option str * option str * option str) : res record :=
  let '(f, h, n) := d in
  do h <- match h with
          | None | Some [] => Ok None
          | Some t => do s <- parse_signature t; Ok (Some s)
          end;
  do n <- match n with
          | None | Some [] => Ok None
          | Some t => if all_digits t then Ok (Some (read_N t)) else Err ValueError
          end;
  Ok (Rec f h n).
Fixpoint map_res {A B} (f : A -> res B) (l : list A) : res (list B) :=
  match l with [] => Ok [] | x :: r => do y <- f x; do ys <- map_res f r; Ok (y :: ys) end.
(** [RecordsFileConfiguration.load] of a file with this text *)
Definition load_records (text : str) : res (list record) :=
  do rows <- csv_read text;
  do dicts <- map_res row_dict rows;
  map_res parse_record dicts.
(** configclass.py:341-365 and configfiles.py:104-106: a field that is None is left out of the dictionary, so [record[c]] raises;
    [open('w+')] has emptied the file before.  The result and the text of the file. *)
Definition record_row (r : record) : res (list str) :=
  match rec_file r, rec_hash r, rec_length r with
  | Some f, Some h, Some n => Ok [f; show_signature h; show_N n]
  | _, _, _ => Err KeyError
  end.
Fixpoint save_records (l : list record) : res unit * str :=
  match l with
  | [] => (Ok tt, [])
  | r :: rest =>
      match record_row r with
      | Err e => (Err e, [])
      | Ok fields => let (x, text) := save_records rest in (x, csv_row fields ++ text)
      end
  end.

(** ** Files of lines "key: value" *)
(** configfiles.py:80-81 [os.linesep.join(f'{k}: {v}' …)] on a system with \n *)
Definition write_lines (data : list (str * str)) : str := join [lf] (map (fun e => fst e ++ lit ": " ++ snd e) data).
(** [str.splitlines].  Simplification: the ends of lines beyond ASCII are not characters here. *)
Definition is_line_end (c : ascii) : bool := in_range 10 13 c || in_range 28 30 c.
Fixpoint split_lines (s : str) : list str :=
  match s with
  | [] => []
  | c :: r =>
      if is_line_end c then
        [] :: (match r with d :: r' => if Ascii.eqb c cr && Ascii.eqb d lf then split_lines r' else split_lines r | [] => [] end)
      else match split_lines r with [] => [[c]] | l :: ls => (c :: l) :: ls end
  end.
(** [re.split("\\s*:\\s*", s)]: no blanks remain around a sign *)
Fixpoint trim_parts (first : bool) (parts : list str) : list str :=
  match parts with
  | [] => []
  | [p] => [if first then p else lstrip_ws p]
  | p :: rest => rstrip_ws (if first then p else lstrip_ws p) :: trim_parts false rest
  end.
Definition split_colon (s : str) : list str := trim_parts true (split_on ":" s).
(** configfiles.py:83-87 *)
Definition read_line (l : str) : res (str * str) := match split_colon l with [k; v] => Ok (k, v) | _ => Err ValueError end.
Definition read_lines (text : str) : res (list (str * str)) :=
  do kvs <- map_res read_line (filter (fun l => match l with [] => false | _ => true end) (map strip_ws (split_lines text)));
  Ok (dict_of kvs).
(** environment_builder.py:55-61, 115-121: what is written to pyvenv.cfg; configfiles.py:65-72 for the bool *)
Definition pyvenv_cfg (home version : str) : str :=
  write_lines [(lit "home", home); (lit "version", version); (lit "include-system-site-packages", lit "false")].
(** how Python reads the file, Lib/site.py [venv]: [key, _, value = line.partition('=')], lines without '=' are skipped; the
    settings with their keys in lower case *)
Definition python_setting (l : str) : option (str * str) :=
  match span (fun c => negb (Ascii.eqb c "=")) l with
  | (k, _ :: v) => Some (lower (strip_ws k), strip_ws v)
  | (_, []) => None
  end.
Definition python_settings (text : str) : list (str * str) :=
  flat_map (fun l => match python_setting l with Some e => [e] | None => [] end) (split_lines text).
(** site.py: [system_site = "true"], then the last setting of this name in lower case *)
Definition sees_system_packages (text : str) : bool :=
  str_eqb (fold_left (fun acc e => if str_eqb (fst e) "include-system-site-packages" then lower (snd e) else acc) (python_settings text) (lit "true")) "true".
