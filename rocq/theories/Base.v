(** Common vocabulary of the model: python strings, results, decimal numbers,
    lexicographic comparison, small dictionary operations.

    Simplification (global): a python [str] is a list of 8-bit characters and the
    character classes below follow python's behaviour on ASCII. *)
From Coq Require Import String Ascii List Bool NArith Arith Lia.
From Coq Require Import DecimalString DecimalN DecimalFacts Decimal.
Import ListNotations.

(** python [str] *)
Definition str := list ascii.
Definition lit (s : string) : str := list_ascii_of_string s.
Coercion lit : string >-> str.

(** Python exceptions that the modelled code can raise. *)
Inductive exn :=
| ValueError | KeyError | IndexError | TypeError | AttributeError | AssertionError
| UnsupportedOperation | NoSuchElement | Malformed | NotImplementedErr | RecursionErr
| RuntimeErr | IOErr | UnsatError | CancelErr | OtherErr.

Inductive res (A : Type) :=
| Ok (a : A)
| Err (e : exn).
Arguments Ok {A} a.
Arguments Err {A} e.

Definition bind {A B} (r : res A) (f : A -> res B) : res B :=
  match r with Ok a => f a | Err e => Err e end.
Notation "'do' x <- r ; k" := (bind r (fun x => k))
  (at level 200, x pattern, r at level 100, k at level 200, right associativity).

Definition is_ok {A} (r : res A) : bool := match r with Ok _ => true | Err _ => false end.

(** ** Characters *)
Definition code (c : ascii) : N := N_of_ascii c.
Definition in_range (lo hi : N) (c : ascii) : bool := (lo <=? code c)%N && (code c <=? hi)%N.
(** [str.isdigit] on one ASCII character. *)
Definition is_digit (c : ascii) : bool := in_range 48 57 c.
Definition is_lower (c : ascii) : bool := in_range 97 122 c.
Definition is_upper (c : ascii) : bool := in_range 65 90 c.
(** [str.isalnum] on one ASCII character. *)
Definition is_alnum (c : ascii) : bool := is_digit c || is_lower c || is_upper c.
(** [str.isspace] on one ASCII character: tab, newline, VT, FF, CR, 0x1c-0x1f, space. *)
Definition is_space (c : ascii) : bool := in_range 9 13 c || in_range 28 32 c.
(** [str.lower] on one ASCII character. *)
Definition lower_char (c : ascii) : ascii :=
  if is_upper c then ascii_of_N (code c + 32)%N else c.
Definition lower (s : str) : str := map lower_char s.

Definition ascii_eqb := Ascii.eqb.
Fixpoint str_eqb (a b : str) : bool :=
  match a, b with
  | [], [] => true
  | x :: a', y :: b' => Ascii.eqb x y && str_eqb a' b'
  | _, _ => false
  end.

(** python [<] on strings: code point lexicographic. *)
Fixpoint str_ltb (a b : str) : bool :=
  match a, b with
  | _, [] => false
  | [], _ :: _ => true
  | x :: a', y :: b' =>
      if Ascii.eqb x y then str_ltb a' b' else (code x <? code y)%N
  end.

Definition str_mem (x : str) (l : list str) : bool := existsb (str_eqb x) l.

(** [s.split(c)] for a one character separator: never returns the empty list. *)
Fixpoint split_on (c : ascii) (s : str) : list str :=
  match s with
  | [] => [[]]
  | x :: r =>
      if Ascii.eqb x c then [] :: split_on c r
      else match split_on c r with
           | [] => [[x]]
           | w :: ws => (x :: w) :: ws
           end
  end.

(** [sep.join(l)] *)
Fixpoint join (sep : str) (l : list str) : str :=
  match l with
  | [] => []
  | [x] => x
  | x :: r => x ++ sep ++ join sep r
  end.

(** [s.startswith(p)] *)
Fixpoint starts_with (p s : str) : bool :=
  match p, s with
  | [], _ => true
  | x :: p', y :: s' => Ascii.eqb x y && starts_with p' s'
  | _ :: _, [] => false
  end.

(** [sub in s] *)
Fixpoint contains (sub s : str) : bool :=
  starts_with sub s || match s with [] => false | _ :: r => contains sub r end.

(** [s.isnumeric()]/[s.isdigit()] on ASCII: non empty and all digits *)
Definition all_digits (s : str) : bool :=
  match s with [] => false | _ => forallb is_digit s end.

(** ** Decimal numbers *)
(** python [str(n)] for a natural number *)
Definition show_N (n : N) : str := list_ascii_of_string (NilZero.string_of_uint (N.to_uint n)).

Definition digit_val (c : ascii) : N := (code c - 48)%N.
(** python [int(s)] for a string of ASCII digits *)
Definition read_N (s : str) : N := fold_left (fun acc c => acc * 10 + digit_val c)%N s 0%N.

(** ** options, lists *)
Definition opt_or {A} (o : option A) (d : A) : A := match o with Some a => a | None => d end.
Definition is_none {A} (o : option A) : bool := match o with None => true | _ => false end.
Definition is_some {A} (o : option A) : bool := negb (is_none o).

Definition opt_eqb {A} (eqb : A -> A -> bool) (a b : option A) : bool :=
  match a, b with
  | None, None => true
  | Some x, Some y => eqb x y
  | _, _ => false
  end.

Fixpoint list_eqb {A} (eqb : A -> A -> bool) (a b : list A) : bool :=
  match a, b with
  | [], [] => true
  | x :: a', y :: b' => eqb x y && list_eqb eqb a' b'
  | _, _ => false
  end.

(** python [dict] as an association list in insertion order *)
Fixpoint dict_get {V} (k : str) (d : list (str * V)) : option V :=
  match d with
  | [] => None
  | (k', v) :: r => if str_eqb k k' then Some v else dict_get k r
  end.
(** [d[k] = v]: keeps the position of an existing key, else appends *)
Fixpoint dict_set {V} (k : str) (v : V) (d : list (str * V)) : list (str * V) :=
  match d with
  | [] => [(k, v)]
  | (k', v') :: r => if str_eqb k k' then (k', v) :: r else (k', v') :: dict_set k v r
  end.
(** [d.pop(k)] / [del d[k]] *)
Fixpoint dict_del {V} (k : str) (d : list (str * V)) : list (str * V) :=
  match d with
  | [] => []
  | (k', v') :: r => if str_eqb k k' then r else (k', v') :: dict_del k r
  end.
Definition dict_has {V} (k : str) (d : list (str * V)) : bool := is_some (dict_get k d).
