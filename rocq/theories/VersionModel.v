(** Model of pkm/src/pkm/api/versions/version.py *)
From Coq Require Import String Ascii List Bool NArith Arith.
From Verif Require Import Base.
Import ListNotations.
Open Scope string_scope.
Open Scope nat_scope.
Open Scope list_scope.
Open Scope bool_scope.

(** version.py:105-112 [StandardVersion] fields.  All numbers are naturals (the parser only
    produces those; the dataclass itself does not check). *)
Record sv := SV {
  release : list N;
  epoch : option N;
  pre_release : option (str * N);
  post_release : option N;
  dev_release : option N;
  local_label : option str
}.

(** version.py:45-49, 82-84, 105: the three version classes. *)
Inductive version :=
| VUrl (url : str) (protocol_ : option str) (schema_ : str)
| VNamed (name : str)
| VStd (s : sv).

(** python truthiness of an optional string *)
Definition truthy_str (o : option str) : bool :=
  match o with Some (_ :: _) => true | _ => false end.

(** version.py:51-53 [UrlVersion.protocol] *)
Definition url_protocol (p : option str) (schema : str) : str :=
  match p with Some (c :: r) => c :: r | _ => schema end.

(** version.py:67-70 [UrlVersion.__str__] *)
Definition url_str (url : str) (p : option str) : str :=
  match p with Some (c :: r) => (c :: r) ++ "+"%char :: url | _ => url end.

(** version.py:114-117 [without_local] *)
Definition sv_without_local (v : sv) : sv :=
  match local_label v with
  | Some _ => SV (release v) (epoch v) (pre_release v) (post_release v) (dev_release v) None
  | None => v
  end.
(** version.py:29-30 and 114-117 *)
Definition without_local (v : version) : version :=
  match v with VStd s => VStd (sv_without_local s) | _ => v end.

(** version.py:119-122 [without_patch] *)
Definition sv_without_patch (v : sv) : sv :=
  if 2 <? length (release v)
  then SV (firstn 2 (release v)) (epoch v) (pre_release v) (post_release v) (dev_release v) (local_label v)
  else v.

(** version.py:125-127: the loop [while len(release) > 1 and release[-1] == 0: release = release[:-1]],
    written on the reversed list. *)
Fixpoint strip_rev (r : list N) : list N :=
  match r with
  | x :: r' =>
      match r' with
      | [] => r
      | _ :: _ => if (x =? 0)%N then strip_rev r' else r
      end
  | [] => []
  end.
Definition strip_release (r : list N) : list N := rev (strip_rev (rev r)).
Definition zero_to_none (o : option N) : option N :=
  match o with Some 0%N => None | _ => o end.
(** version.py:124-133 [standartize] *)
Definition standartize (v : sv) : sv :=
  SV (strip_release (release v)) (epoch v) (pre_release v)
     (zero_to_none (post_release v)) (zero_to_none (dev_release v)) (local_label v).

(** version.py:135-137 [__hash__]: the hashed tuple.  Two versions are taken to have the same hash
    exactly when these tuples are equal (collisions of python's tuple hash are ignored). *)
Definition sv_hash_key (v : sv) :=
  let s := standartize v in
  (release s, epoch s, dev_release s, post_release s, pre_release s, local_label s).

(** Hash of any version: frozen dataclasses hash the tuple of raw fields for [UrlVersion]
    (version.py:45-49; the class defines [__eq__] only) and [NamedVersion] (82-84). *)
Inductive hash_key :=
| HUrl (url : str) (p : option str) (schema : str)
| HNamed (n : str)
| HStd (k : list N * option N * option N * option N * option (str * N) * option str).
Definition version_hash (v : version) : hash_key :=
  match v with
  | VUrl u p s => HUrl u p s
  | VNamed n => HNamed n
  | VStd s => HStd (sv_hash_key s)
  end.

(** version.py:139-146 *)
Definition sv_is_pre_or_dev (v : sv) : bool := is_some (pre_release v) || is_some (dev_release v).
Definition is_pre_or_dev_release (v : version) : bool :=
  match v with VStd s => sv_is_pre_or_dev s | _ => false end.
Definition is_post_release (v : version) : bool :=
  match v with VStd s => is_some (post_release s) | _ => false end.
Definition is_local (v : version) : bool :=
  match v with VStd s => is_some (local_label s) | _ => false end.

(** version.py:238-249 [normalized]: both releases padded with zeros to the longer length *)
Definition pad (n : nat) (r : list N) : list N := r ++ repeat 0%N (n - length r).
Definition normalized_releases (a b : list N) : list N * list N :=
  let n := Nat.max (length a) (length b) in (pad n a, pad n b).

Definition pre_eqb (a b : str * N) : bool := str_eqb (fst a) (fst b) && (snd a =? snd b)%N.

(** version.py:217-233 [equals_to] *)
Definition equals_to (a b : sv) (compare_locals : bool) : bool :=
  let '(r1, r2) := normalized_releases (release a) (release b) in
  (opt_or (epoch a) 0 =? opt_or (epoch b) 0)%N
  && list_eqb N.eqb r1 r2
  && opt_eqb pre_eqb (pre_release a) (pre_release b)
  && opt_eqb N.eqb (post_release a) (post_release b)
  && opt_eqb N.eqb (dev_release a) (dev_release b)
  && (negb compare_locals || opt_eqb str_eqb (local_label a) (local_label b)).

(** version.py:235-236 *)
Definition sv_eqb (a b : sv) : bool := equals_to a b true.

(** version.py:64-65, 95-96, 235-236: [__eq__] of the three classes *)
Definition version_eqb (a b : version) : bool :=
  match a, b with
  | VUrl u1 p1 s1, VUrl u2 p2 s2 =>
      str_eqb (url_protocol p1 s1) (url_protocol p2 s2) && str_eqb u1 u2
  | VNamed n1, VNamed n2 => str_eqb n1 n2
  | VStd s1, VStd s2 => sv_eqb s1 s2
  | _, _ => false
  end.

(** version.py:286-289: [for s, o in zip(...)]: [Some b] when the loop returns [b] *)
Fixpoint zip_less (a b : list N) : option bool :=
  match a, b with
  | x :: a', y :: b' => if (x =? y)%N then zip_less a' b' else Some (x <? y)%N
  | _, _ => None
  end.

(** version.py:298-304, the zip over the pair (type, number) *)
Definition pre_less (a b : str * N) : option bool :=
  if str_eqb (fst a) (fst b)
  then if (snd a =? snd b)%N then None else Some (snd a <? snd b)%N
  else Some (str_ltb (fst a) (fst b)).

(** version.py:317-329 local segments.  Line 323 compares [int(True) < int(True)], i.e. is false. *)
Fixpoint local_less (a b : list str) : option bool :=
  match a, b with
  | m :: a', o :: b' =>
      if str_eqb m o then local_less a' b'
      else
        let m_num := all_digits m in
        let o_num := all_digits o in
        if m_num && o_num then Some (N.b2n m_num <? N.b2n o_num)%N
        else if m_num || o_num then Some o_num
        else Some (str_ltb m o)
  | _, _ => None
  end.

(** version.py:314-315 [(v.local_label or "").split('.')] *)
Definition local_segments (v : sv) : list str := split_on "."%char (opt_or (local_label v) []).

(** version.py:282-329: the standard version part of [_less] *)
Definition sv_ltb (v1 v2 : sv) : bool :=
  let e1 := opt_or (epoch v1) 0%N in
  let e2 := opt_or (epoch v2) 0%N in
  if negb (e1 =? e2)%N then (e1 <? e2)%N else
  let '(r1, r2) := normalized_releases (release v1) (release v2) in
  match zip_less r1 r2 with
  | Some b => b
  | None =>
  let after_post :=
    let m := local_segments v1 in
    let o := local_segments v2 in
    match local_less m o with
    | Some b => b
    | None => length m <? length o
    end in
  let after_pre :=
    match post_release v1, post_release v2 with
    | None, Some _ => true
    | Some _, None => false
    | Some a, Some b => if (a =? b)%N then after_post else (a <? b)%N
    | None, None => after_post
    end in
  let after_dev :=
    match pre_release v1, pre_release v2 with
    | None, Some _ => false
    | Some _, None => true
    | Some a, Some b => match pre_less a b with Some r => r | None => after_pre end
    | None, None => after_pre
    end in
  match dev_release v1, dev_release v2 with
  | None, Some _ => false
  | Some _, None => true
  | Some a, Some b => if (a =? b)%N then after_dev else (a <? b)%N
  | None, None => after_dev
  end
  end.

(** version.py:257-329 [_less].  Lines 262-276: urls before named versions before standard ones;
    the swapped branches return [not _less(v2, v1)] where the swapped call is of a
    url (resp. named) version against something that is not one, i.e. returns True. *)
Definition version_ltb (v1 v2 : version) : bool :=
  match v1, v2 with
  | VUrl u1 p1 _, VUrl u2 p2 _ => str_ltb (url_str u1 p1) (url_str u2 p2)
  | VUrl _ _ _, _ => true
  | _, VUrl _ _ _ => negb true
  | VNamed n1, VNamed n2 => str_ltb n1 n2
  | VNamed _, VStd _ => true
  | VStd _, VNamed _ => negb true
  | VStd s1, VStd s2 => sv_ltb s1 s2
  end.

(** version.py:214-215 [StandardVersion.__le__] *)
Definition sv_leb (a b : sv) : bool := sv_eqb b a || sv_ltb a b.

(** ** bump (version.py:148-193) *)
(** version.py:159-161 *)
Definition update_release (v : sv) (r : list N) : sv := SV r (epoch v) None None None None.

(** version.py:163-172 [bump_release]; only called when [len(release) == 3] *)
Definition bump_release (v : sv) (p : str) : option sv :=
  match release v with
  | [a; b; c] =>
      if str_eqb p "major" then Some (update_release v [(a + 1)%N; 0%N; 0%N])
      else if str_eqb p "minor" then Some (update_release v [a; (b + 1)%N; 0%N])
      else if str_eqb p "patch" then Some (update_release v [a; b; (c + 1)%N])
      else None
  | _ => None
  end.

Definition set_pre (v : sv) (p : option (str * N)) : sv :=
  SV (release v) (epoch v) p (post_release v) (dev_release v) (local_label v).

(** version.py:174-187 [bump_pre_release]; [s > p] on strings is [p < s] *)
Definition bump_pre_release (v : sv) (p : str) : sv :=
  match pre_release v with
  | Some (t, n) =>
      if str_ltb p t then
        set_pre (match bump_release v "patch" with Some v' => v' | None => v end) None
      else if str_ltb t p then set_pre v (Some (p, 0%N))
      else set_pre v (Some (p, (n + 1)%N))
  | None => set_pre v (Some (p, 0%N))
  end.

(** version.py:148-193 [bump].  The result of [bump_pre_release] is a version object, always truthy,
    so the [ValueError] of line 191 is unreachable (as in the code). *)
Definition bump (v : version) (particle : str) : res sv :=
  match v with
  | VStd s =>
      if negb (length (release s) =? 3) then Err UnsupportedOperation
      else match bump_release s particle with
           | Some v' => Ok v'
           | None => Ok (bump_pre_release s particle)
           end
  | _ => Err AttributeError (* the other classes have no [bump] method *)
  end.

(** version.py:195-209 [__str__] *)
Definition sv_str (v : sv) : str :=
  match epoch v with Some e => show_N e ++ lit "!" | None => [] end
  ++ join (lit ".") (map show_N (release v))
  ++ match pre_release v with Some (t, n) => t ++ show_N n | None => [] end
  ++ match post_release v with Some n => lit ".post" ++ show_N n | None => [] end
  ++ match dev_release v with Some n => lit ".dev" ++ show_N n | None => [] end
  ++ match local_label v with Some l => "+"%char :: l | None => [] end.

Definition version_str (v : version) : str :=
  match v with
  | VUrl u p _ => url_str u p
  | VNamed n => n
  | VStd s => sv_str s
  end.
