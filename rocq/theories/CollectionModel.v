(** Collection helpers: pkm/src/pkm/utils/{iterators,sequences,seqs,dicts,strings,sets}.py.
    Generators and iterators are modelled by the lists they yield; equality of keys ([==] and [hash]
    agreeing) is a boolean function passed along. *)
From Coq Require Import String Ascii List Bool NArith ZArith Arith.
From Verif Require Import Base.
Import ListNotations.
Open Scope string_scope.
Open Scope nat_scope.
Open Scope list_scope.
Open Scope bool_scope.

Section Keyed.
  Context {A K : Type} (keqb : K -> K -> bool).

  (** iterators.py:21-24, the body of the loop of [groupby]: the list of the key, created at the end of
      the dict when missing, gets the item appended *)
  Fixpoint group_add (k : K) (x : A) (d : list (K * list A)) : list (K * list A) :=
    match d with
    | [] => [(k, [x])]
    | (k', l) :: r => if keqb k k' then (k', l ++ [x]) :: r else (k', l) :: group_add k x r
    end.
  (** iterators.py:12-26 [groupby] *)
  Definition groupby (seq : list A) (key : A -> K) : list (K * list A) :=
    fold_left (fun d x => group_add (key x) x d) seq [].

  (** iterators.py:84-95 [distinct]; seqs.py:51-60 [unique_by] is the same code.  [s]: the keys seen *)
  Fixpoint distinct_from (s : list K) (key : A -> K) (it : list A) : list A :=
    match it with
    | [] => []
    | x :: r => if existsb (keqb (key x)) s then distinct_from s key r
                else x :: distinct_from (key x :: s) key r
    end.
  Definition distinct (it : list A) (key : A -> K) : list A := distinct_from [] key it.
End Keyed.

Section Plain.
  Context {A : Type}.

  (** iterators.py:29-36 [find_first] *)
  Definition find_first (seq : list A) (m : A -> bool) (none_value : A) : A :=
    match find m seq with Some x => x | None => none_value end.

  (** iterators.py:39-53 [partition]; seqs.py:107-115 [partition_by] is the same code *)
  Definition partition_step (m : A -> bool) (acc : list A * list A) (x : A) : list A * list A :=
    let '(t, f) := acc in if m x then (t ++ [x], f) else (t, f ++ [x]).
  Definition partition (seq : list A) (m : A -> bool) : list A * list A :=
    fold_left (partition_step m) seq ([], []).

  (** iterators.py:69-81 [single_or] *)
  Definition single_or (seq : list A) (default : A) : A :=
    match seq with
    | [] => default
    | x :: r => match r with [] => x | _ :: _ => default end
    end.
  (** iterators.py:56-66 [single_or_raise]: the sentinel is no element of any sequence, so it is [None] here *)
  Definition single_or_raise (seq : list A) : res A :=
    match match seq with [] => None | x :: r => match r with [] => Some x | _ :: _ => None end end with
    | None => Err ValueError
    | Some x => Ok x
    end.
  (** sequences.py:57-64 [single_or_raise] *)
  Definition seq_single_or_raise (seq : list A) : res A :=
    if length seq =? 1 then match seq with x :: _ => Ok x | [] => Err IndexError end else Err ValueError.

  (** iterators.py:98-104 [without] *)
  Definition without (it : list A) (p : A -> bool) : list A := filter (fun v => negb (p v)) it.
  (** iterators.py:115-122 [first] *)
  Definition first (it : list A) (default : A) : A := match it with x :: _ => x | [] => default end.
  (** iterators.py:134-142 [first_or_raise] *)
  Definition first_or_raise (it : list A) : res A := match it with x :: _ => Ok x | [] => Err NoSuchElement end.

  (** python [seq[i]]: negative indices count from the end *)
  Definition py_index (seq : list A) (i : Z) : res A :=
    let n := Z.of_nat (length seq) in
    let j := if (i <? 0)%Z then (n + i)%Z else i in
    if ((j <? 0) || (n <=? j))%Z then Err IndexError
    else match nth_error seq (Z.to_nat j) with Some x => Ok x | None => Err IndexError end.
  (** sequences.py:67-77 [get_or_default]: the guard is the chained comparison [-len > index > len] *)
  Definition get_or_default (seq : list A) (index : Z) (default : A) : res A :=
    let n := Z.of_nat (length seq) in
    if ((index <? - n) && (n <? index))%Z then Ok default else py_index seq index.

  (** python [max(range(n), key=...)] / [min(...)]: the first best index *)
  Fixpoint arg_from (better : A -> A -> bool) (best : nat) (bx : A) (i : nat) (l : list A) : nat :=
    match l with
    | [] => best
    | x :: r => if better x bx then arg_from better i x (S i) r else arg_from better best bx (S i) r
    end.
  (** sequences.py:25-42 [argmin], [argmax]; [better x y]: x is strictly smaller (larger) than y.
      python raises ValueError for the empty sequence *)
  Definition arg_best (better : A -> A -> bool) (seq : list A) : res nat :=
    match seq with [] => Err ValueError | x :: r => Ok (arg_from better 0 x 1 r) end.

  (** sequences.py:45-54 [index_of_or_none] *)
  Fixpoint index_from (eqb : A -> A -> bool) (i : nat) (seq : list A) (v : A) : option nat :=
    match seq with
    | [] => None
    | x :: r => if eqb x v then Some i else index_from eqb (S i) r v
    end.
  Definition index_of_or_none (eqb : A -> A -> bool) (seq : list A) (v : A) : option nat := index_from eqb 0 seq v.

  (** sequences.py:88-97 [pop_or_none]: the popped item and the remaining stack *)
  Definition pop_or_none (stack : list A) : option A * list A :=
    match rev stack with [] => (None, stack) | x :: r => (Some x, rev r) end.

  (** sequences.py:18-22 [startswith] *)
  Fixpoint zip_all (eqb : A -> A -> bool) (a b : list A) : bool :=
    match a, b with x :: a', y :: b' => eqb x y && zip_all eqb a' b' | _, _ => true end.
  Definition seq_startswith (eqb : A -> A -> bool) (sq prefix : list A) : bool :=
    if length sq <? length prefix then false else zip_all eqb sq prefix.

  (** seqs.py:62-70 [without_first] *)
  Fixpoint without_first (eqb : A -> A -> bool) (item : A) (it : list A) : list A :=
    match it with [] => [] | x :: r => if eqb x item then r else x :: without_first eqb item r end.

  (** seqs.py:88-94 [to_list(into)]: the returned list and the list passed in after the call;
      [if into:] tests for a non empty list *)
  Definition to_list (it : list A) (into : option (list A)) : list A * option (list A) :=
    match into with
    | Some (y :: r) => ((y :: r) ++ it, Some ((y :: r) ++ it))
    | _ => (it, into)
    end.
End Plain.

(** dicts.py:12-23 [put_if_absent] *)
Definition put_if_absent {V} (d : list (str * V)) (k : str) (v : V) : bool * list (str * V) :=
  if dict_has k d then (false, d) else (true, dict_set k v d).
(** dicts.py:26-36 [get_or_put] *)
Definition get_or_put {V} (d : list (str * V)) (k : str) (provider : unit -> V) : V * list (str * V) :=
  match dict_get k d with
  | Some v => (v, d)
  | None => let v := provider tt in (v, dict_set k v d)
  end.
(** dicts.py:68-76 [without_keys] *)
Definition without_keys {V} (d : list (str * V)) (keys : list str) : list (str * V) :=
  filter (fun kv => negb (str_mem (fst kv) keys)) d.
(** dicts.py:88-109 [remove_by_value] with the matcher *)
Definition remove_by_value {V} (d : list (str * V)) (m : V -> bool) : list (str * V) :=
  fold_left (fun d k => dict_del k d) (map fst (filter (fun kv => m (snd kv)) d)) d.

(** [s.endswith(suffix)] *)
Definition ends_with (suffix s : str) : bool := starts_with (rev suffix) (rev s).
(** python [s[:-n]] for n >= 0: [s[:0]] when n is 0 *)
Definition drop_last (n : nat) (s : str) : str :=
  if n =? 0 then [] else firstn (length s - n) s.
(** strings.py:4-13 [without_suffix] *)
Definition without_suffix (s suffix : str) : str :=
  if ends_with suffix s then drop_last (length suffix) s else s.
(** strings.py:16-25 [without_prefix] *)
Definition without_prefix (s prefix : str) : str :=
  if starts_with prefix s then skipn (length prefix) s else s.
(** strings.py:28-34 [endswith_any] *)
Definition endswith_any (s : str) (suffixes : list str) : option str := find (fun sf => ends_with sf s) suffixes.
(** strings.py:37-43 [startswith_any] *)
Definition startswith_any (s : str) (prefixes : list str) : option str := find (fun pf => starts_with pf s) prefixes.

(** hashes.py:19-91 [HashBuilder]: the state is the python int [_result]; item hashes are given by a function. *)
Definition hash_new : Z := 7%Z.
(** hashes.py:23-30 *)
Definition hash_regular (st : Z) (h : Z) : Z := (st * 31 + h)%Z.
(** hashes.py:40-52 *)
Definition hash_ordered {A} (item_hash : A -> Z) (st : Z) (seq : list A) : Z :=
  fold_left (fun r x => (r * 31 + item_hash x)%Z) seq st.
(** hashes.py:54-66 *)
Definition hash_unordered {A} (item_hash : A -> Z) (st : Z) (seq : list A) : Z :=
  (st * 31 + fold_left (fun r x => Z.lxor r (item_hash x)) seq (7 * 31))%Z.
(** hashes.py:68-85 *)
Definition hash_mapping {K V} (kh : K -> Z) (vh : V -> Z) (st : Z) (m : list (K * V)) : Z :=
  (st * 31 + fold_left (fun r kv => Z.lxor r ((7 * 31 + kh (fst kv)) * 31 + vh (snd kv))) m 0)%Z.
