(** Model of pkm/src/pkm/utils/parsers.py [SimpleParser].
    The parser state (text, position) is a zipper: the consumed text reversed, and the rest. *)
From Coq Require Import String Ascii List Bool NArith Arith.
From Verif Require Import Base.
Import ListNotations.
Open Scope string_scope.
Open Scope nat_scope.
Open Scope list_scope.
Open Scope bool_scope.

Record pstate := PS { prev : str; rest : str }.
(** parsers.py:18-21: a new parser stands at position 0 *)
Definition pinit (text : str) : pstate := PS [] text.

(** moving [n] characters forward (at most to the end), as [position += n] after a successful peek *)
Fixpoint adv (n : nat) (s : pstate) : pstate :=
  match n with
  | 0 => s
  | S n' => match rest s with
            | [] => s
            | c :: r => adv n' (PS (c :: prev s) r)
            end
  end.

(** [position -= 1]; only used when the position is positive *)
Definition back1 (s : pstate) : pstate :=
  match prev s with [] => s | c :: b => PS b (c :: rest s) end.

(** parsers.py:23-25 [peek()] with the default amount: at most one character *)
Definition peek (s : pstate) : option ascii := hd_error (rest s).
(** parsers.py:83-86 [peek_prev()] *)
Definition peek_prev (s : pstate) : option ascii := hd_error (prev s).
(** parsers.py:27-31 *)
Definition not_empty (s : pstate) : bool := match rest s with [] => false | _ => true end.

(** [x.isdigit()] where x is a result of peek: the empty string is not a digit *)
Definition opt_test (f : ascii -> bool) (o : option ascii) : bool :=
  match o with Some c => f c | None => false end.
Definition opt_is (c : ascii) (o : option ascii) : bool := opt_test (Ascii.eqb c) o.

(** longest prefix satisfying [f] *)
Fixpoint span (f : ascii -> bool) (l : str) : str * str :=
  match l with
  | [] => ([], [])
  | c :: r => if f c then let '(a, b) := span f r in (c :: a, b) else ([], l)
  end.
(** parsers.py:129-142 [until], for predicates looking at one character; [f] is the negated predicate *)
Definition take_while (f : ascii -> bool) (s : pstate) : str * pstate :=
  let '(a, b) := span f (rest s) in (a, PS (rev a ++ prev s) b).

(** parsers.py:171-182 [match_ws] *)
Definition match_ws (allow_new_lines : bool) (s : pstate) : pstate :=
  snd (take_while (fun c => if Ascii.eqb c "010"%char && negb allow_new_lines then false else is_space c) s).

(** parsers.py:69-81 [match(substr)] with one argument: [Some] the state after it, [None] otherwise.
    (Only used with non-empty [substr]: python returns the matched text, the empty text being falsy.) *)
Definition pmatch (sub : str) (s : pstate) : option pstate :=
  if starts_with sub (rest s) then Some (adv (length sub) s) else None.

(** parsers.py:69-81 [match(substr, "")]: the substring and the following blanks of the line;
    the matched text is returned as well *)
Definition pmatch_ws (sub : str) (s : pstate) : option (str * pstate) :=
  match pmatch sub s with
  | None => None
  | Some s1 =>
      let s2 := match_ws false s1 in
      Some (firstn (length (rest s) - length (rest s2)) (rest s), s2)
  end.

(** parsers.py:88-93 [match_any] *)
Fixpoint match_any (subs : list str) (s : pstate) : option (str * pstate) :=
  match subs with
  | [] => None
  | x :: r => match pmatch x s with
              | Some s' => Some (x, s')
              | None => match_any r s
              end
  end.

(** a separator matched if present *)
Definition skip_any (subs : list str) (s : pstate) : pstate :=
  match match_any subs s with Some (_, s') => s' | None => s end.
Definition skip (sub : str) (s : pstate) : pstate :=
  match pmatch sub s with Some s' => s' | None => s end.

(** parsers.py:33-38 [read_digits]; [raise_err] (95-118) raises ValueError *)
Definition read_digits (s : pstate) : res (str * pstate) :=
  let '(d, s') := take_while is_digit s in
  match d with [] => Err ValueError | _ => Ok (d, s') end.

(** parsers.py:150-152 [match_or_err] *)
Definition match_or_err (sub : str) (s : pstate) : res pstate :=
  match pmatch sub s with Some s' => Ok s' | None => Err ValueError end.

(** [sub in text] positions: parsers.py:120-127 [until_match]: the text before the first occurrence;
    the empty text, without moving, when there is none *)
Fixpoint find_sub (sub l : str) : option (str * str) :=
  if starts_with sub l then Some ([], l)
  else match l with
       | [] => None
       | c :: r => match find_sub sub r with
                   | Some (a, b) => Some (c :: a, b)
                   | None => None
                   end
       end.
Definition until_match (sub : str) (s : pstate) : str * pstate :=
  match find_sub sub (rest s) with
  | Some (a, b) => (a, PS (rev a ++ prev s) b)
  | None => ([], s)
  end.
