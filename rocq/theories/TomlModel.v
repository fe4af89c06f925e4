(** Writing and reading TOML.
    Source: pkm/src/pkm/config/toml.py, utils/parsers.py [SimpleParser].

    The functions of the reader work on the text from the current position on; what they return is the result and the text from
    the new position on.  The styles that the reader collects (comments, blanks, the text of the values) are left out: they
    only matter when a loaded file is written again, and the model is about [dumps] (737-738), which starts without styles. *)
From Coq Require Import String Ascii List Bool NArith ZArith Arith.
From Verif Require Import Base ParserModel MarkerModel.
Import ListNotations.
Open Scope string_scope.
Open Scope nat_scope.
Open Scope list_scope.
Open Scope bool_scope.

(** the data.  Simplification: no floats and no times. *)
Inductive tv := TStr (s : str) | TInt (z : Z) | TBool (b : bool) | TList (l : list tv) | TTab (t : list (str * tv)).
Definition is_tab (v : tv) : bool := match v with TTab _ => true | _ => false end.
(** a part of a key: a name, or the index of an item of an array of tables *)
Inductive kpart := KName (s : str) | KItem.

(** ** Writing *)
Definition nl : ascii := "010"%char.
Definition backslash : ascii := "092"%char.
(** 232-247 [_write_str] *)
Definition escape (c : ascii) : str :=
  if Ascii.eqb c "008" then [backslash; "b"%char]
  else if Ascii.eqb c "009" then [backslash; "t"%char]
  else if Ascii.eqb c nl then [backslash; "n"%char]
  else if Ascii.eqb c "012" then [backslash; "f"%char]
  else if Ascii.eqb c "013" then [backslash; "r"%char]
  else if Ascii.eqb c dquote then [backslash; dquote]
  else if Ascii.eqb c backslash then [backslash; backslash]
  else [c].
Definition write_str (s : str) : str := dquote :: concat (map escape s) ++ [dquote].
(** 10 [_KEY_RX]: letters, digits, minus and underscore *)
Definition key_char (c : ascii) : bool := is_alnum c || Ascii.eqb c "-" || Ascii.eqb c "_".
Definition is_bare (s : str) : bool := match s with [] => false | _ => forallb key_char s end.
(** 282-286 [_write_key_part]; 262-267: indices are left out of a written key *)
Definition key_part (s : str) : str := if is_bare s then s else write_str s.
Definition names (k : list kpart) : list str := concat (map (fun p => match p with KName s => [s] | KItem => [] end) k).
Definition dotted (k : list kpart) : str := join (lit ".") (map key_part (names k)).
(** 186-191, for integers *)
Definition show_Z (z : Z) : str := match z with Zneg p => "-"%char :: show_N (Npos p) | _ => show_N (Z.to_N z) end.
(** [str.strip(' ')] *)
Definition drop_blanks (s : str) : str := snd (span (fun c => Ascii.eqb c " ") s).
Definition strip_blanks (s : str) : str := rev (drop_blanks (rev (drop_blanks s))).
(** values that are written inline, with the blank in front (152-154): 186-198, 205-215 [_write_inline_list], 353-365
    [_write_inline_table]; 102-106: an assignment has a blank behind the key *)
Fixpoint inline (v : tv) : str :=
  match v with
  | TStr s => lit " " ++ write_str s
  | TInt z => lit " " ++ show_Z z
  | TBool b => lit " " ++ (if b then lit "true" else lit "false")
  | TList l => lit " [" ++ join (lit ", ") (map (fun x => strip_blanks (inline x)) l) ++ lit "]"
  | TTab t => lit " {" ++ join (lit ", ") (map (fun e => key_part (fst e) ++ lit " =" ++ inline (snd e)) t) ++ lit "}"
  end.
(** 110-156 [value_style] without styles: how a value at a key of the given length is displayed *)
Inductive display := Inline | Regular | Hidden | TableArray.
Definition list_display (l : list tv) : display := match l with [] => Inline | _ => if forallb is_tab l then TableArray else Inline end.
Definition is_large (v : tv) : bool := match v with TTab _ | TList _ => true | TStr s => 40 <? length s | _ => false end.
Definition no_assignment (v : tv) : bool :=
  match v with
  | TTab _ => true
  | TList l => match list_display l with TableArray => true | _ => false end
  | _ => false
  end.
Definition display_of (depth : nat) (v : tv) : display :=
  match v with
  | TTab t =>
      if depth =? 0 then Regular
      else if forallb (fun e => no_assignment (snd e)) t then Hidden
      else if (5 <? length t) || existsb (fun e => is_large (snd e)) t || (depth =? 1) then Regular
      else Inline
  | TList l => list_display l
  | _ => Inline
  end.
(** 288-322 [_write_regular_table], 325-351 [_write_hidden_table], 389-396 [_write_table_list], 249-280 [_write_key].
    341-342: an item of a hidden table that would be inline is written as a table. *)
Inductive header := HTable | HItem | HNone.
Definition header_text (h : header) (key : list kpart) : str :=
  match h, key with
  | HNone, _ | _, [] => []
  | HTable, _ => lit "[" ++ dotted key ++ lit "]" ++ [nl]
  | HItem, _ => lit "[[" ++ dotted key ++ lit "]]" ++ [nl]
  end.
Definition assignment (k : str) (v : tv) : str := key_part k ++ lit " =" ++ inline v ++ [nl].
Definition is_inline (depth : nat) (v : tv) : bool := match display_of depth v with Inline => true | _ => false end.
Definition assignments (depth : nat) (t : list (str * tv)) : str :=
  match filter (fun e => is_inline depth (snd e)) t with
  | [] => []
  | l => concat (map (fun e => assignment (fst e) (snd e)) l) ++ [nl]
  end.
Fixpoint wdoc (h : header) (key : list kpart) (v : tv) : str :=
  match v with
  | TTab t =>
      header_text h key
      ++ match h with HNone => [] | _ => assignments (S (length key)) t end
      ++ concat (map (fun e =>
           let item_key := key ++ [KName (fst e)] in
           match display_of (length item_key) (snd e) with
           | Inline => match h with HNone => wdoc HTable item_key (snd e) | _ => [] end
           | Regular => wdoc HTable item_key (snd e)
           | Hidden => wdoc HNone item_key (snd e)
           | TableArray => wdoc HItem item_key (snd e)
           end) t)
  | TList l => concat (map (fun x => wdoc HItem (key ++ [KItem]) x) l)
  | _ => []
  end.
(** [str.rstrip()] *)
Definition rstrip (s : str) : str := rev (snd (span is_space (rev s))).
(** 164-166, 737-738 *)
Definition dumps (t : list (str * tv)) : str := rstrip (wdoc HTable [] (TTab t)).

(** ** Reading *)
(** parsers.py:126-133 [until_match] with one character: the text before it and the text from it on *)
Fixpoint cut (c : ascii) (s : str) : option (str * str) :=
  match s with
  | [] => None
  | x :: r => if Ascii.eqb x c then Some ([], s) else match cut c r with Some (a, b) => Some (x :: a, b) | None => None end
  end.
(** 404-414 [read_non_data].  A comment without a line end: [until_match] does not move, and the loop goes on forever; [fuel]
    bounds the number of rounds. *)
Fixpoint non_data (fuel : nat) (lines : bool) (s : str) : res str :=
  match s with
  | [] => Ok []
  | _ =>
      let s1 := if lines then ws s else line_ws s in
      match s1 with
      | c :: _ =>
          if Ascii.eqb c "#"
          then match fuel with
               | 0 => Err RecursionErr
               | S fuel => non_data fuel lines (match cut nl s1 with Some (_, r) => r | None => s1 end)
               end
          else Ok s1
      | [] => Ok []
      end
  end.
Definition skip (lines : bool) (s : str) : res str := non_data (S (length s)) lines s.

(** 433-442 [read_basic_str]: from behind the opening quote to the quote at which the loop stops; [bs] says if the last character
    of the text so far is a backslash *)
Fixpoint scan (bs : bool) (s : str) : option (str * str) :=
  match s with
  | [] => None
  | c :: r =>
      if Ascii.eqb c dquote
      then if bs then match scan false r with Some (a, b) => Some (c :: a, b) | None => None end
           else Some ([], r)
      else match scan (Ascii.eqb c backslash) r with Some (a, b) => Some (c :: a, b) | None => None end
  end.
(** 442: python's [eval] of the text between two quotes.  A quote that is not escaped ends the literal, so what is evaluated is
    not a string literal any more (OtherErr, as are syntax errors).  Simplification: numeric and named escapes are left out. *)
Definition escaped (c : ascii) : option ascii :=
  if Ascii.eqb c "b" then Some "008"%char
  else if Ascii.eqb c "t" then Some "009"%char
  else if Ascii.eqb c "n" then Some nl
  else if Ascii.eqb c "f" then Some "012"%char
  else if Ascii.eqb c "r" then Some "013"%char
  else if Ascii.eqb c "a" then Some "007"%char
  else if Ascii.eqb c "v" then Some "011"%char
  else if Ascii.eqb c dquote || Ascii.eqb c backslash || Ascii.eqb c squote then Some c
  else None.
Definition bad_in_literal (c : ascii) : bool := Ascii.eqb c dquote || Ascii.eqb c nl || Ascii.eqb c "013" || Ascii.eqb c "000".
Definition numeric_escape (c : ascii) : bool := is_digit c || in_chars c "xuUN".
Fixpoint unescape (s : str) : res str :=
  match s with
  | [] => Ok []
  | c :: r =>
      if Ascii.eqb c backslash
      then match r with
           | [] => Err OtherErr
           | e :: r =>
               if Ascii.eqb e nl then unescape r
               else if numeric_escape e then Err NotImplementedErr
               else do t <- unescape r; Ok (match escaped e with Some x => x :: t | None => c :: e :: t end)
           end
      else if bad_in_literal c then Err OtherErr
      else do t <- unescape r; Ok (c :: t)
  end.
(** 444-465 [read_literal_str], [read_str].  Simplification: strings over several lines are left out. *)
Definition read_string (s : str) : res (str * str) :=
  if starts_with [dquote; dquote; dquote] s || starts_with [squote; squote; squote] s then Err NotImplementedErr
  else match s with
       | [] => Err IndexError
       | c :: r =>
           if Ascii.eqb c dquote
           then match scan false r with None => Err ValueError | Some (raw, r) => do v <- unescape raw; Ok (v, r) end
           else if Ascii.eqb c squote
           then match cut squote r with Some (a, _ :: r) => Ok (a, r) | _ => Err ValueError end
           else Err ValueError
       end.
Definition is_quote (c : ascii) : bool := Ascii.eqb c dquote || Ascii.eqb c squote.
(** 488-502: the parts of a key; 467-476 [read_bare_key] *)
Fixpoint key_parts_loop (fuel : nat) (acc : list str) (s : str) : res (list str * str) :=
  match s with
  | [] => Ok (acc, [])
  | _ =>
      match fuel with
      | 0 => Err RecursionErr
      | S fuel =>
          do (part, r) <- match line_ws s with
                          | [] => Err IndexError
                          | c :: _ => if is_quote c then read_string (line_ws s)
                                      else if key_char c then Ok (span key_char (line_ws s))
                                      else Err ValueError
                          end;
          match smatch "." (line_ws r) with
          | Some r => key_parts_loop fuel (acc ++ [part]) r
          | None => Ok (acc ++ [part], r)
          end
      end
  end.
(** 478-525 [read_key].  512: the index that [lastify] finds is only used for styles. *)
Definition match_or_err (sub s : str) : res str := match smatch sub s with Some r => Ok r | None => Err ValueError end.
Definition read_key (s : str) : res (list kpart * str) :=
  do s <- skip true s;
  let '(table, item, s) :=
    match smatch "[" s with
    | None => (false, false, s)
    | Some s => match smatch "[" (line_ws s) with
                | None => (true, false, line_ws s)
                | Some s => (true, true, s)
                end
    end in
  do (parts, s) <- key_parts_loop (S (length s)) [] s;
  do s <- if table : bool then match_or_err "]" s else Ok s;
  do s <- if item : bool then match_or_err "]" (ws s) else Ok s;
  do s <- skip false s;
  Ok (map KName parts ++ (if item then [KItem] else []), s).
(** 536-550 [read_number_or_date].  The end of the text counts as one of the characters of a date (the empty string is in every
    string), and [read_date] (532-534) takes its arguments in the wrong order.  Simplification: no floats. *)
Definition number_char (c : ascii) : bool := is_digit c || Ascii.eqb c "." || Ascii.eqb c "e".
Definition all_zeros (s : str) : bool := forallb (fun c => Ascii.eqb c "0") s.
Definition eval_int (neg : bool) (digits : str) : res Z :=
  match digits with
  | [] => Err OtherErr
  | c :: r =>
      if negb (forallb is_digit digits) then Err NotImplementedErr
      else if Ascii.eqb c "0" && negb (all_zeros r) then Err OtherErr
      else Ok (let n := Z.of_N (read_N digits) in if neg then Z.opp n else n)
  end.
Definition read_number (s : str) : res (tv * str) :=
  let '(neg, plus, r) := match smatch "-" s with
                         | Some r => (true, false, r)
                         | None => match smatch "+" s with Some r => (false, true, r) | None => (false, false, s) end
                         end in
  let '(digits, r) := span number_char r in
  let date := match r with [] => true | c :: _ => Ascii.eqb c "-" || Ascii.eqb c ":" end in
  if date then match s with [] => Ok (TStr [], []) | _ => Err TypeError end
  else match digits with
       | [] => if (neg || plus) : bool then Err OtherErr else Err ValueError
       | _ => do z <- eval_int neg digits; Ok (TInt z, r)
       end.
(** 552-557 [read_bool] *)
Definition read_bool (s : str) : res (tv * str) :=
  match smatch "true" s with
  | Some r => Ok (TBool true, r)
  | None => match smatch "false" s with Some r => Ok (TBool false, r) | None => Err ValueError end
  end.
(** 634-658 [_enter].  [fuel] bounds the descent. *)
Fixpoint enter (fuel : nat) (data : tv) (key : list kpart) (v : tv) : res tv :=
  match fuel with
  | 0 => Err RecursionErr
  | S fuel =>
      match key with
      | [] => Ok data
      | k :: rest =>
          match data with
          | TList l =>
              match k, rest with
              | KItem, [] => Ok (TList (l ++ [v]))
              | _, _ =>
                  match rev l with
                  | [] => Err IndexError
                  | x :: before => do x <- enter fuel x key v; Ok (TList (rev before ++ [x]))
                  end
              end
          | TTab t =>
              match k with
              | KItem => Err KeyError (* does not happen: an index follows a name *)
              | KName n =>
                  match rest with
                  | [] => Ok (TTab (dict_set n v t))
                  | k2 :: _ =>
                      let sub := match dict_get n t with
                                 | Some w => w
                                 | None => match k2 with KItem => TList [] | KName _ => TTab [] end
                                 end in
                      do sub <- enter fuel sub rest v; Ok (TTab (dict_set n sub t))
                  end
              end
          | _ => Err ValueError
          end
      end
  end.
Fixpoint depth (v : tv) : nat :=
  match v with
  | TList l => S (fold_right (fun x m => max (depth x) m) 0 l)
  | TTab t => S (fold_right (fun e m => max (depth (snd e)) m) 0 t)
  | _ => 0
  end.
Definition enter_data (data : tv) (key : list kpart) (v : tv) : res tv := enter (S (length key + depth data)) data key v.
(** 559-590 [read_inline_list]: the loop, given [read_inline_value] *)
Definition comma (s : str) : option (str * str) := smatch_any [lit ", "; lit ","] s.
Fixpoint list_loop (value : str -> res (tv * str)) (fuel : nat) (acc : list tv) (s : str) : res (list tv * str) :=
  match s with
  | [] => Ok (acc, [])
  | _ =>
      do s <- skip true s;
      match smatch "]" s with
      | Some _ => Ok (acc, s)
      | None =>
          match fuel with
          | 0 => Err RecursionErr
          | S fuel =>
              do (v, s) <- value s;
              do s <- skip true s;
              match comma s with
              | Some (_, s) => list_loop value fuel (acc ++ [v]) s
              | None => Ok (acc ++ [v], s)
              end
          end
      end
  end.
(** 660-683 [read_table_assignments] *)
Fixpoint assign_loop (value : str -> res (tv * str)) (inline : bool) (fuel : nat) (data : tv) (s : str) : res (tv * str) :=
  match s with
  | [] => Ok (data, [])
  | _ =>
      do s1 <- skip true s;
      let stop := match s1 with [] => true | c :: _ => Ascii.eqb c "[" end in
      if stop then Ok (data, s)
      else
        match fuel with
        | 0 => Err RecursionErr
        | S fuel =>
            do (k, s) <- read_key s;
            do s <- match_or_err "=" s;
            do (v, s) <- value s;
            do data <- enter_data data k v;
            match (if inline then comma s else match smatch [nl] s with Some r => Some ([nl], r) | None => None end) with
            | Some (_, s) => assign_loop value inline fuel data s
            | None => Ok (data, s)
            end
        end
  end.
Definition read_assignments (value : str -> res (tv * str)) (inline : bool) (s : str) : res (tv * str) :=
  do (data, s) <- assign_loop value inline (S (length s)) (TTab []) s;
  Ok (data, match smatch [nl] s with Some r => r | None => s end).
(** 601-632 [read_inline_value], with 559-590 and 592-599 *)
Fixpoint read_value (fuel : nat) (s : str) : res (tv * str) :=
  match fuel with
  | 0 => Err RecursionErr
  | S fuel =>
      do s <- skip true s;
      do (v, s) <-
        match s with
        | [] => read_number s
        | c :: r =>
            if Ascii.eqb c "+" || Ascii.eqb c "-" || is_digit c then read_number s
            else if is_quote c then do (t, s) <- read_string s; Ok (TStr t, s)
            else if Ascii.eqb c "t" || Ascii.eqb c "f" then read_bool s
            else if Ascii.eqb c "[" then
              do (l, s) <- list_loop (read_value fuel) (S (length r)) [] r;
              do s <- skip true s;
              do s <- match_or_err "]" s;
              do s <- skip false s;
              Ok (TList l, s)
            else if Ascii.eqb c "{" then
              do (t, s) <- read_assignments (read_value fuel) true r;
              do s <- match_or_err "}" s;
              do s <- skip false s;
              Ok (t, s)
            else Err ValueError
        end;
      do s <- skip false s;
      Ok (v, s)
  end.
(** 685-699 [read_regular_table] *)
Definition read_table (s : str) : res (list kpart * tv * str) :=
  do s <- skip true s;
  do (key, s) <- read_key s;
  match s with
  | [] => Ok (key, TTab [], [])
  | _ => do s <- match_or_err [nl] s;
         do (data, s) <- read_assignments (read_value (S (length s))) false s;
         Ok (key, data, s)
  end.
(** 701-718 [read], 725-729 [loads] *)
Fixpoint tables_loop (fuel : nat) (data : tv) (s : str) : res tv :=
  match s with
  | [] => Ok data
  | _ =>
      do s1 <- skip true s;
      match s1 with
      | [] => Ok data
      | _ =>
          match fuel with
          | 0 => Err RecursionErr
          | S fuel =>
              do (key, v, s) <- read_table s;
              do data <- enter_data data key v;
              tables_loop fuel data s
          end
      end
  end.
Definition loads (s : str) : res tv :=
  do s <- skip true s;
  do (data, s) <- read_assignments (read_value (S (length s))) false s;
  tables_loop (S (length s)) data s.

(** 433-442: the text that is handed to [eval] when a string in double quotes is read, if any *)
Definition evaluated (s : str) : option str :=
  match s with
  | c :: r => if Ascii.eqb c dquote then match scan false r with Some (raw, _) => Some (dquote :: raw ++ [dquote]) | None => None end else None
  | [] => None
  end.
