(** Configurations: dotted keys, the codec of configuration classes.
    Source: pkm/src/pkm/config/configclass.py, api/projects/pyproject_configuration.py. *)
From Coq Require Import String Ascii List Bool NArith ZArith Arith.
From Verif Require Import Base.
Import ListNotations.
Open Scope string_scope.
Open Scope nat_scope.
Open Scope list_scope.
Open Scope bool_scope.

(** raw configuration values, as the readers of configuration files return them.
    Simplification: floats and dates are left out; tables do not share sub-tables. *)
Inductive val :=
| VNull | VBool (b : bool) | VInt (i : Z) | VStr (s : str) | VList (l : list val) | VTab (t : list (str * val)).
Definition table := list (str * val).
(** [bool(v)] *)
Definition truthy (v : val) : bool :=
  match v with
  | VNull => false | VBool b => b | VInt i => negb (Z.eqb i 0) | VStr s => match s with [] => false | _ => true end
  | VList l => match l with [] => false | _ => true end
  | VTab t => match t with [] => false | _ => true end
  end.
(** [d.pop(k, None)]: the dictionary without [k] *)
Definition dict_without (k : str) (t : table) : table := filter (fun e => negb (str_eqb (fst e) k)) t.
(** [d.get(k, None)] *)
Definition dict_get_or_none (k : str) (t : table) : val := match dict_get k t with Some v => v | None => VNull end.

(** configclass.py:251-258 [_pop_key] on the parts of the key: what is returned and the changed configuration *)
Fixpoint pop_parts (config : table) (part : str) (parts : list str) : res (val * table) :=
  match parts with
  | [] => Ok (dict_get_or_none part config, dict_without part config)
  | next :: rest =>
      let inner := dict_get_or_none part config in
      if truthy inner then
        match inner with
        | VTab t => do r <- pop_parts t next rest; Ok (fst r, dict_set part (VTab (snd r)) config)
        | _ => Err AssertionError
        end
      else Ok (VNull, config)
  end.
Definition key_parts (key : str) : str * list str :=
  match split_on "." key with p :: r => (p, r) | [] => ([], []) end.
Definition pop_key (config : table) (key : str) : res (val * table) :=
  pop_parts config (fst (key_parts key)) (snd (key_parts key)).

(** configclass.py:261-269 [_shove_key] on the parts of the key.  On an inner value that is neither false nor a dictionary
    the next step raises: [.get] an AttributeError, the assignment by a text key a TypeError. *)
Fixpoint shove_parts (config : table) (part : str) (parts : list str) (value : val) : res table :=
  match parts with
  | [] => Ok (dict_set part value config)
  | next :: rest =>
      let inner := dict_get_or_none part config in
      if truthy inner then
        match inner with
        | VTab t => do r <- shove_parts t next rest value; Ok (dict_set part (VTab r) config)
        | _ => match rest with [] => Err TypeError | _ => Err AttributeError end
        end
      else do r <- shove_parts [] next rest value; Ok (dict_set part (VTab r) config)
  end.
Definition shove_key (config : table) (key : str) (value : val) : res table :=
  shove_parts config (fst (key_parts key)) (snd (key_parts key)) value.

(** configclass.py:368-376 [ConfigField]; [O] are the values that fields of objects hold ([None] is Python's None) *)
Section Codec.
  Variable O : Type.
  Record field := { f_name : str; f_key : option str; f_required : bool; f_leftover : bool; f_default : option O;
                    f_parse : val -> res O; f_unparse : O -> res val }.
  Inductive slot := Value (o : option O) | Rest.
  (** configclass.py:312, 364: [schema.key or field] *)
  Definition key_of (s : field) : str := match f_key s with Some (c :: k) => c :: k | _ => f_name s end.
  (** configclass.py:315-332: the value of a field from what was popped *)
  Definition parse_value (s : field) (w : val) : res (option O) :=
    match w with
    | VNull => if f_required s then Err ValueError else Ok (f_default s)
    | _ => match f_parse s w with Ok o => Ok (Some o) | Err _ => Err ValueError end
    end.
  (** configclass.py:302-339 [parse] without the [__post_init__] of the class: the fields of the object and what is left of the
      configuration.  A leftover field holds that same dictionary, so later fields are still removed from it. *)
  Fixpoint parse_fields (schema : list field) (config : table) : res (list (str * slot) * table) :=
    match schema with
    | [] => Ok ([], config)
    | s :: r =>
        if f_leftover s then
          do x <- parse_fields r config; Ok ((f_name s, Rest) :: fst x, snd x)
        else
          do pc <- pop_key config (key_of s);
          do v <- parse_value s (fst pc);
          do x <- parse_fields r (snd pc); Ok ((f_name s, Value v) :: fst x, snd x)
    end.
  (** [dict.update] *)
  Definition dict_update (t u : table) : table := fold_left (fun a e => dict_set (fst e) (snd e) a) u t.
  (** configclass.py:341-365 [unparse] *)
  Fixpoint unparse_fields (schema : list field) (object : list (str * slot)) (leftover : table) (target : table) : res table :=
    match schema with
    | [] => Ok target
    | s :: r =>
        match dict_get (f_name s) object with
        | None | Some (Value None) => unparse_fields r object leftover target
        | Some Rest => unparse_fields r object leftover (dict_update target leftover)
        | Some (Value (Some o)) =>
            match f_unparse s o with
            | Err _ => Err ValueError
            | Ok v => do t <- shove_key target (key_of s) v; unparse_fields r object leftover t
            end
        end
    end.
  (** loading a configuration and saving the object without any change: configclass.py:242-248 *)
  Definition load_save (schema : list field) (config : table) : res table :=
    do x <- parse_fields schema config;
    unparse_fields schema (fst x) (snd x) [].
End Codec.
Arguments f_name {O}. Arguments f_key {O}. Arguments f_required {O}. Arguments f_leftover {O}. Arguments f_default {O}.
Arguments f_parse {O}. Arguments f_unparse {O}. Arguments key_of {O}. Arguments parse_value {O}. Arguments parse_fields {O}. Arguments unparse_fields {O}.
Arguments load_save {O}. Arguments Value {O}. Arguments Rest {O}.

(** pyproject_configuration.py:257-265: the fields of [PyProjectConfiguration].
    Simplification: the inner configuration classes are taken to hold their tables as they are. *)
Definition raw_field (name : str) (key : option str) (default : option val) : field val :=
  {| f_name := name; f_key := key; f_required := false; f_leftover := false; f_default := default;
     f_parse := fun v => Ok v; f_unparse := fun v => Ok v |}.
Definition leftover_field (name : str) : field val :=
  {| f_name := name; f_key := None; f_required := false; f_leftover := true; f_default := None;
     f_parse := fun v => Ok v; f_unparse := fun v => Ok v |}.
Definition pyproject_schema : list (field val) :=
  [raw_field "project" None None;
   raw_field "pkm_project" (Some (lit "tool.pkm.project")) (Some (VTab []));
   raw_field "build_system" (Some (lit "build-system")) (Some (VTab []));
   raw_field "pkm_application" (Some (lit "tool.pkm.application")) None;
   raw_field "pkm_distribution" (Some (lit "tool.pkm.distribution")) (Some (VTab [(lit "type", VStr "lib")]));
   leftover_field "_leftovers"].

(** pyproject_configuration.py:41-54 [ContactInfo.__post_init__] on the name, with [specialsre] and [escapesre] of
    [email.utils].  Simplification: names are ASCII. *)
Definition special_char (c : ascii) : bool := existsb (Ascii.eqb c) (lit "][\()<>@,:;"".").
Definition escape_char (c : ascii) : bool := Ascii.eqb c "\" || Ascii.eqb c """".
Definition escape_name (s : str) : str := flat_map (fun c => if escape_char c then ["\"%char; c] else [c]) s.
Definition contact_name (s : str) : str :=
  let quotes := if existsb special_char s then lit """" else [] in
  quotes ++ escape_name s ++ quotes.
