(** Model of repositories/download-torch-pkm-repo/src/download_torch_pkm_repo/utils/html.py: the elements of a page and how they are
    looked for.

    Simplifications: the tokenizer is [html.parser.HTMLParser] of Python, a page is the list of its events; an element that is written
    as [<a/>] is a start followed by an end, which is what [handle_startendtag] of Python does. *)
From Coq Require Import List Bool NArith Ascii String Arith Lia.
From Verif Require Import Base.
Import ListNotations.
Open Scope string_scope. Open Scope nat_scope. Open Scope list_scope. Open Scope bool_scope.

(** html.py:10-14 [Element] *)
Inductive elem := Elem { e_tag : str; e_attrs : list (str * str); e_children : list elem }.

(** what the parser of Python tells [BasicDomParser], 48, 55, 61: an attribute may have no value *)
Inductive event :=
| EStart (tag : str) (attrs : list (str * option str))
| EEnd (tag : str)
| EData (data : str).

(** html.py:49-51: the dictionary of the attributes *)
Definition attrs_of (l : list (str * option str)) : list (str * str) :=
  fold_left (fun d a => dict_set (fst a) (match snd a with Some v => v | None => lit "true" end) d) l [].

(** [self._node[-1].children.append(x)], 59 and 66: the innermost open element first *)
Definition add_child (x : elem) (st : list elem) : res (list elem) :=
  match st with
  | [] => Err IndexError
  | Elem t a c :: r => Ok (Elem t a (c ++ [x]) :: r)
  end.

(** html.py:62-64 *)
Definition data_elem (d : str) : elem := Elem (lit "data") [(lit "value", d)] [].

(** html.py:48-66 [handle_starttag], [handle_endtag], [handle_data] *)
Definition handle (e : event) (st : list elem) : res (list elem) :=
  match e with
  | EStart t a => Ok (Elem t (attrs_of a) [] :: st)
  | EEnd t =>
      match st with
      | [] => Err IndexError
      | x :: r => if str_eqb (e_tag x) t then add_child x r else Err OtherErr
      end
  | EData d => add_child (data_elem d) st
  end.

Fixpoint feed (l : list event) (st : list elem) : res (list elem) :=
  match l with
  | [] => Ok st
  | e :: r => do st' <- handle e st; feed r st'
  end.

(** html.py:43-46 and the [dom] that is read after [feed]: the outermost element *)
Definition root : elem := Elem (lit "root") [] [].
Definition parse (l : list event) : res elem :=
  do st <- feed l [root]; Ok (last st root).

(** html.py:16-17 [data]: the element [data] may come from a tag of that name, which has no value *)
Fixpoint join_data (l : list elem) : res str :=
  match l with
  | [] => Ok []
  | x :: r =>
      if str_eqb (e_tag x) (lit "data")
      then match dict_get (lit "value") (e_attrs x) with
           | None => Err KeyError
           | Some v => do w <- join_data r; Ok (v ++ w)
           end
      else join_data r
  end.
Definition data (e : elem) : res str := join_data (e_children e).

(** html.py:19-30 [_lookup]: [nodes] is a stack, its top is the head of this list; the fuel bounds the loop of 22 and is enough (proved
    in HtmlProofs) *)
Fixpoint elem_size (e : elem) : nat := match e with Elem _ _ c => S (list_sum (map elem_size c)) end.
Fixpoint lookup (fuel : nat) (match_ : elem -> bool) (roots : bool) (nodes : list elem) : list elem :=
  match fuel with
  | 0 => []
  | S n =>
      match nodes with
      | [] => []
      | node :: r =>
          if match_ node
          then node :: lookup n match_ roots (if roots then r else rev (e_children node) ++ r)
          else lookup n match_ roots (rev (e_children node) ++ r)
      end
  end.
Definition do_lookup (match_ : elem -> bool) (roots : bool) (e : elem) : list elem := lookup (S (elem_size e)) match_ roots [e].

(** html.py:32-38 [select]: without matchers [matchers[0]] of 37 fails *)
Fixpoint select (matchers : list (elem -> bool)) (e : elem) : res (list elem) :=
  match matchers with
  | [] => Err IndexError
  | [m] => Ok (do_lookup m false e)
  | m :: rest =>
      (fix each (l : list elem) : res (list elem) :=
         match l with
         | [] => Ok []
         | x :: r => do a <- select rest x; do b <- each r; Ok (a ++ b)
         end) (do_lookup m true e)
  end.
