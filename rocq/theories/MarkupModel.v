(** How a message reaches the screen: pkm-cli/src/pkm_cli/display/display.py 94-96, the messages of cli_monitors.py and of
    display/spinner.py and display/progress.py, and rich/markup.py, through which every message goes.

    Simplifications: codes of emojis (":name:") and the breaking of lines at the width of the terminal are left out; how the name of
    a style is brought into a normal form ([Style.normalize]) is given; tags that begin with "@" are like the others. *)
From Coq Require Import String Ascii List Bool NArith Arith.
From Verif Require Import Base.
Import ListNotations.
Open Scope string_scope.
Open Scope nat_scope.
Open Scope list_scope.
Open Scope bool_scope.

(** ** rich/markup.py *)
(** [[a-z#/@]] of RE_TAGS *)
Definition tag_start (c : ascii) : bool := is_lower c || Ascii.eqb c "#" || Ascii.eqb c "/" || Ascii.eqb c "@".
(** [[^[]*?]] followed by "]" *)
Fixpoint take_tag (s : str) : option (str * str) :=
  match s with
  | [] => None
  | c :: r => if Ascii.eqb c "]" then Some ([], r) else if Ascii.eqb c "[" then None else option_map (fun e => (c :: fst e, snd e)) (take_tag r)
  end.
Definition tag_at (s : str) : option (str * str) :=
  match s with
  | o :: c :: r => if Ascii.eqb o "[" && tag_start c then option_map (fun e => (c :: fst e, snd e)) (take_tag r) else None
  | _ => None
  end.
(** the backslashes in front *)
Fixpoint slashes (s : str) : nat * str :=
  match s with
  | c :: r => if Ascii.eqb c "\" then (Datatypes.S (fst (slashes r)), snd (slashes r)) else (0, s)
  | [] => (0, [])
  end.
Fixpoint before_equals (s : str) : str := match s with [] => [] | c :: r => if Ascii.eqb c "=" then [] else c :: before_equals r end.
Inductive piece := Text (s : str) | Tag (name : str).
Definition text_piece (s : str) : list piece := match s with [] => [] | _ => [Text s] end.
(** [_parse]; [pending]: the text since the last tag *)
Fixpoint parse (fuel : nat) (pending s : str) : list piece :=
  match fuel with
  | 0 => []
  | Datatypes.S fuel =>
      match s with
      | [] => text_piece pending
      | c :: r =>
          let '(k, after) := slashes s in
          match tag_at after with
          | Some (t, rest) =>
              text_piece pending ++ text_piece (repeat "\"%char (Nat.div2 k))
              ++ (if Nat.odd k then [Text ("["%char :: t ++ lit "]")] else [Tag (before_equals t)]) ++ parse fuel [] rest
          | None => match k with 0 => parse fuel (pending ++ [c]) r | _ => parse fuel (pending ++ repeat "\"%char k) after end
          end
      end
  end.
(** [plain_text.replace("\\[", "[")] *)
Fixpoint unescape (s : str) : str :=
  match s with
  | [] => []
  | a :: r => match r with
              | b :: _ => if Ascii.eqb a "\" && Ascii.eqb b "[" then unescape r else a :: unescape r
              | [] => [a]
              end
  end.
(** [str.strip] *)
Fixpoint lstrip_spaces (s : str) : str := match s with c :: r => if is_space c then lstrip_spaces r else s | [] => [] end.
Definition strip (s : str) : str := rev (lstrip_spaces (rev (lstrip_spaces s))).
(** [pop_style]: the latest of the name *)
Fixpoint pop_style (name : str) (stack : list str) : option (list str) :=
  match stack with
  | [] => None
  | x :: r => if str_eqb x name then Some r else option_map (cons x) (pop_style name r)
  end.
(** [render]; [stack]: the tags that are open, the latest first *)
Fixpoint render_pieces (normalize : str -> str) (l : list piece) (stack : list str) : res str :=
  match l with
  | [] => Ok []
  | Text s :: r => do t <- render_pieces normalize r stack; Ok (unescape s ++ t)
  | Tag n :: r =>
      match n with
      | c :: name =>
          if Ascii.eqb c "/" then
            let name := strip name in
            match name with
            | [] => match stack with [] => Err OtherErr | _ :: stack => render_pieces normalize r stack end
            | _ => match pop_style (normalize name) stack with None => Err OtherErr | Some stack => render_pieces normalize r stack end
            end
          else render_pieces normalize r (normalize n :: stack)
      | [] => render_pieces normalize r (normalize n :: stack)
      end
  end.
(** what is shown, or [MarkupError] *)
Definition render (normalize : str -> str) (s : str) : res str :=
  if existsb (fun c => Ascii.eqb c "[") s then render_pieces normalize (parse (Datatypes.S (length s)) [] s) [] else Ok s.

(** ** display.py 94-96 *)
Definition print (normalize : str -> str) (use_markup : bool) (msg : str) : res str := if use_markup then render normalize msg else Ok msg.

(** ** the messages *)
(** dependency_resolver.py 121-128 [_Pkg.__repr__] *)
Definition pkg_repr (p : str * list str) : str :=
  fst p ++ match snd p with [] => [] | l => lit "[" ++ join (lit ", ") l ++ lit "]" end.
(** cli_monitors.py 102-104; a decision is a package and how its version is written *)
Definition resolved_message (decisions : list ((str * list str) * str)) : str :=
  let d := filter (fun e => negb (str_eqb (pkg_repr (fst e)) (lit "installation-request"))) decisions in
  lit "Resolved Requirements: {" ++ join (lit ", ") (map (fun e => pkg_repr (fst e) ++ lit ": " ++ snd e) d) ++ lit "}".
(** cli_monitors.py 63 *)
Definition process_message (name : str) (cmd : list str) : str :=
  lit "Executing process " ++ name ++ lit ": '" ++ join (lit " ") cmd ++ lit "'".
(** cli_monitors.py 57-58 *)
Definition output_message (name line : str) : str := lit "[" ++ name ++ lit "]: " ++ line.
(** spinner.py 30 and progress.py 23 *)
Definition start_message (description : str) : str := lit "[START] " ++ description.
