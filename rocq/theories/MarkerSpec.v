(** The grammar of environment markers (PEP 508) and what an expression means. Independent of the parser. *)
From Coq Require Import String Ascii List Bool NArith Arith.
From Verif Require Import Base MarkerModel.
Import ListNotations.
Open Scope string_scope.
Open Scope list_scope.
Open Scope bool_scope.

Inductive expr := EAtom (a : mvar) (o : mop) (b : mvar) | EAnd (a b : expr) | EOr (a b : expr).
(** blanks and tabs *)
Definition blank (w : str) : Prop := forall c, In c w -> c = " "%char \/ c = "009"%char.
Definition letter (c : ascii) : Prop := (65 <= code c /\ code c <= 90 \/ 97 <= code c /\ code c <= 122)%N.
Definition digit (c : ascii) : Prop := (48 <= code c /\ code c <= 57)%N.
(** the characters of a quoted text: [python_str_c] of PEP 508 (and the other quote) *)
Definition quotable (q c : ascii) : Prop :=
  (c = " "%char \/ c = "009"%char \/ letter c \/ digit c \/ In c (lit "().{}-_*#:;,/?[]!~`@$%^&=+|<>")) \/
  (q = squote /\ c = dquote) \/ (q = dquote /\ c = squote).
Inductive var_text : mvar -> str -> Prop :=
| T_text : forall q s, q = squote \/ q = dquote -> (forall c, In c s -> quotable q c) -> var_text (VText s) (q :: s ++ [q])
| T_extra : var_text VExtra (lit "extra")
| T_var : forall c n, letter c -> (forall x, In x n -> letter x \/ digit x \/ x = "_"%char \/ x = "."%char) -> c :: n <> lit "extra" ->
    var_text (VVar (c :: n)) (c :: n).
Inductive op_text : mop -> str -> Prop :=
| T_cmp : forall op, In op [lit "<="; lit "<"; lit ">="; lit ">"; lit "!="; lit "=="; lit "~="] -> op_text (OCmp op) op
| T_in : op_text OIn (lit "in")
| T_not_in : forall w, blank w -> w <> [] -> op_text ONotIn (lit "not" ++ w ++ lit "in").
(** a word must not follow a name directly *)
Definition apart (v : mvar) (o : mop) (w : str) : Prop :=
  match o, v with OCmp _, _ => True | _, VText _ => True | _, _ => w <> [] end.
Inductive base_text : expr -> str -> Prop :=
| T_atom : forall a ta w o tw w' b tb, var_text a ta -> blank w -> op_text o tw -> blank w' -> var_text b tb -> apart a o w ->
    base_text (EAtom a o b) (ta ++ w ++ tw ++ w' ++ tb)
| T_paren : forall e t w w', or_text e t -> blank w -> blank w' -> base_text e (lit "(" ++ w ++ t ++ w' ++ lit ")")
with and_text : expr -> str -> Prop :=
| T_base : forall e t, base_text e t -> and_text e t
| T_and : forall a ta w w' b tb, and_text a ta -> blank w -> w <> [] -> blank w' -> base_text b tb ->
    and_text (EAnd a b) (ta ++ w ++ lit "and" ++ w' ++ tb)
with or_text : expr -> str -> Prop :=
| T_ands : forall e t, and_text e t -> or_text e t
| T_or : forall a ta w w' b tb, or_text a ta -> blank w -> w <> [] -> blank w' -> and_text b tb ->
    or_text (EOr a b) (ta ++ w ++ lit "or" ++ w' ++ tb).

(** the meaning, given the one of the comparisons; an error stops the evaluation *)
Fixpoint sem (atom : mvar -> mop -> mvar -> res bool) (e : expr) : res bool :=
  match e with
  | EAtom a o b => atom a o b
  | EAnd a b => match sem atom a with Ok true => sem atom b | r => r end
  | EOr a b => match sem atom a with Ok false => sem atom b | r => r end
  end.
(** the letter that the set of characters of the code lacks *)
Definition no_J (t : str) : Prop := ~ In "J"%char t.
