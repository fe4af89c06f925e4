(** Classes that hand on what they do not do themselves: pkm/src/pkm/utils/delegations.py.

    Simplifications: a class is what its instances answer, that is its own members and those that it inherits; attributes of
    instances do not hide members; values are texts or truths or none. *)
From Coq Require Import String Ascii List Bool NArith Arith.
From Verif Require Import Base.
Import ListNotations.
Open Scope string_scope.
Open Scope nat_scope.
Open Scope list_scope.
Open Scope bool_scope.

Inductive value := VText (s : str) | VBool (b : bool) | VNone.
(** what reading an attribute gives: something that can be called, or a value that cannot *)
Inductive attribute := Bound (f : list value -> res value) | Data (v : value).
(** an instance: what reading its attributes gives, by name *)
Definition instance := str -> res attribute.
Definition getattr (o : instance) (n : str) : res attribute := o n.
Definition call (r : res attribute) (args : list value) : res value :=
  do a <- r; match a with Bound f => f args | Data _ => Err TypeError end.

(** a member of a class; the fields of an instance that hold other instances are given by name *)
Definition fields := list (str * instance).
Inductive member := Function (f : fields -> list value -> res value) | Property (f : fields -> res value).
(** [own]: [__dict__]; [inherited]: what the bases answer; [abstracts]: [__abstractmethods__] if it is in the [__dict__] *)
Record class := Class { own : list (str * member); inherited : list (str * member); abstracts : option (list str) }.

(** an instance of a class; abstract classes have none *)
Definition read_member (c : class) (fs : fields) (n : str) : res attribute :=
  match (match dict_get n (own c) with Some m => Some m | None => dict_get n (inherited c) end) with
  | Some (Function f) => Ok (Bound (f fs))
  | Some (Property f) => do v <- f fs; Ok (Data v)
  | None => Err AttributeError
  end.
Definition create (c : class) (fs : fields) : res instance :=
  match abstracts c with
  | Some (_ :: _) => Err TypeError
  | _ => Ok (read_member c fs)
  end.

(** 49-52 [do_delegation] *)
Definition hand_on (attr name : str) : member :=
  Function (fun fs args => match dict_get attr fs with Some o => call (getattr o name) args | None => Err AttributeError end).
(** 17-29 [method_to_attr]: the abstract members of the types, later ones over earlier ones *)
Definition attrs_of (reqs : list (list str * str)) : list (str * str) :=
  fold_left (fun d r => fold_left (fun d n => dict_set n (snd r) d) (fst r) d) reqs [].
(** 31-65 [delegate_] *)
Definition delegate_all (reqs : list (list str * str)) (c : class) : class :=
  match abstracts c with
  | None => c
  | Some names =>
      let attrs := attrs_of reqs in
      let own' := fold_left (fun d n => match dict_get n attrs with Some a => dict_set n (hand_on a n) d | None => d end) names (own c) in
      match filter (fun n => negb (dict_has n attrs)) names with
      | [] => Class own' (inherited c) (Some [])
      | rest => Class own' (inherited c) (Some rest)
      end
  end.
(** 13-14 [delegate]; [type_abstracts]: the abstract members of the type *)
Definition delegate (type_abstracts : list str) (attr : str) (c : class) : class := delegate_all [(type_abstracts, attr)] c.

(** ** repository.py 18-58 and package_installation.py 414-462 *)
(** the members of [Repository] that are not abstract *)
Definition repository_concrete : list (str * member) :=
  [(lit "list", Function (fun _ _ => Ok VNone)); (lit "accepted_url_protocols", Function (fun _ _ => Ok VNone)); (lit "accept_non_url_packages", Function (fun _ _ => Ok (VBool true)))].
Definition repository_abstracts : list str := [lit "name"; lit "match"; lit "publisher"].
(** [own_match]: the [match] of the class *)
Definition installation_repository (own_match : fields -> list value -> res value) : class :=
  delegate repository_abstracts (lit "_repo")
    (Class [(lit "match", Function own_match)] repository_concrete (Some [lit "name"; lit "publisher"])).
