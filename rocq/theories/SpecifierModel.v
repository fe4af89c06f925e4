(** Model of pkm/src/pkm/api/versions/version_specifiers.py *)
From Coq Require Import String Ascii List Bool NArith Arith.
From Verif Require Import Base VersionModel.
Import ListNotations.
Open Scope string_scope.
Open Scope nat_scope.
Open Scope list_scope.
Open Scope bool_scope.

(** The specifier classes (version_specifiers.py:91, 125, 165, 239, 365, 475).
    [RestrictAll]/[AllowAll] are the singletons compared with [is]. *)
Inductive spec :=
| RestrictAll
| AllowAll
| Union (segments : list spec)
| Hetro (blacklist : list version) (standard_spec : spec)
| Match (v : version) (allow : bool)
| Range (min max : option sv) (includes_min includes_max : bool).

Definition is_restrict (s : spec) : bool := match s with RestrictAll => true | _ => false end.
Definition is_allow (s : spec) : bool := match s with AllowAll => true | _ => false end.
Definition is_std (v : version) : bool := match v with VStd _ => true | _ => false end.

(** ** python sets of versions: membership needs equal hash and equality.
    Simplification: iteration order is insertion order. *)
Definition pre_key_eqb := opt_eqb pre_eqb.
Definition hash_eqb (a b : version) : bool :=
  match a, b with
  | VUrl u p s, VUrl u' p' s' => str_eqb u u' && opt_eqb str_eqb p p' && str_eqb s s'
  | VNamed n, VNamed n' => str_eqb n n'
  | VStd x, VStd y =>
      let x := standartize x in let y := standartize y in
      list_eqb N.eqb (release x) (release y) && opt_eqb N.eqb (epoch x) (epoch y)
      && opt_eqb N.eqb (dev_release x) (dev_release y) && opt_eqb N.eqb (post_release x) (post_release y)
      && pre_key_eqb (pre_release x) (pre_release y) && opt_eqb str_eqb (local_label x) (local_label y)
  | _, _ => false
  end.
Definition set_mem (x : version) (s : list version) : bool :=
  existsb (fun y => hash_eqb x y && version_eqb x y) s.
Definition set_add (x : version) (s : list version) : list version :=
  if set_mem x s then s else s ++ [x].
Definition set_union (a b : list version) : list version := fold_left (fun acc x => set_add x acc) b a.
Definition set_eqb (a b : list version) : bool :=
  (length a =? length b) && forallb (fun x => set_mem x b) a.
Fixpoint set_remove (x : version) (s : list version) : option (list version) :=
  match s with
  | [] => None
  | y :: r => if hash_eqb x y && version_eqb x y then Some r
              else match set_remove x r with Some r' => Some (y :: r') | None => None end
  end.

(** ** allows_version *)
(** lines 618-627 *)
Definition range_allows (mn mx : option sv) (imin imax : bool) (v : version) : bool :=
  if (match mn with Some m => imin && version_eqb (VStd m) v | None => false end)
     || (match mx with Some m => imax && version_eqb (VStd m) v | None => false end)
  then true
  else if is_post_release v && (match mn with None => true | Some m => negb (is_some (post_release m)) end) then false
  else (match mn with None => true | Some m => version_ltb (VStd m) v end)
       && (match mx with None => true | Some m => version_ltb v (VStd m) end).
(** lines 401-407 *)
Definition match_allows (mv : version) (allow : bool) (v : version) : bool :=
  let v := if is_local mv then v else without_local v in
  if allow then version_eqb mv v else negb (version_eqb mv v).
(** lines 103, 149, 186-187, 255-259, 401-407, 618-627 *)
Fixpoint allows (s : spec) (v : version) : bool :=
  match s with
  | RestrictAll => false
  | AllowAll => true
  | Union l => existsb (fun x => allows x v) l
  | Hetro bl sp => if set_mem v bl then false else negb (is_std v) || allows sp v
  | Match mv a => match_allows mv a v
  | Range mn mx i j => range_allows mn mx i j v
  end.

(** ** equality: lines 100-101, 134-135, 192-193, 347-349, 397-399, 527-529 *)
Definition opt_sv_eqb (a b : option sv) : bool := opt_eqb sv_eqb a b.
Fixpoint spec_eqb (a b : spec) {struct a} : bool :=
  match a, b with
  | RestrictAll, RestrictAll => true
  | AllowAll, AllowAll => true
  | Union l, Union m =>
      (fix go (l m : list spec) : bool :=
         match l, m with
         | [], [] => true
         | x :: l', y :: m' => spec_eqb x y && go l' m'
         | _, _ => false
         end) l m
  | Hetro bl s, Hetro bl' s' => set_eqb bl bl' && spec_eqb s s'
  | Match v al, Match v' al' => Bool.eqb al al' && version_eqb v v'
  | Range mn mx i j, Range mn' mx' i' j' =>
      Bool.eqb i i' && Bool.eqb j j' && opt_sv_eqb mn mn' && opt_sv_eqb mx mx'
  | _, _ => false
  end.

(** ** ordering of specifiers (only used to sort union segments and to normalise range pairs) *)
(** stable insertion sort: the result of [list.sort] whenever the comparison is a strict weak order *)
Fixpoint insert_by {A} (lt : A -> A -> bool) (x : A) (l : list A) : list A :=
  match l with
  | [] => [x]
  | y :: r => if lt x y then x :: l else y :: insert_by lt x r
  end.
Definition sort_by {A} (lt : A -> A -> bool) (l : list A) : list A :=
  fold_left (fun acc x => insert_by lt x acc) l [].
(** python list [<] *)
Fixpoint versions_ltb (a b : list version) : bool :=
  match a, b with
  | _, [] => false
  | [], _ :: _ => true
  | x :: a', y :: b' => if version_eqb x y then versions_ltb a' b' else version_ltb x y
  end.
Definition bool_truthy_opt {A} (o : option A) : bool := is_some o.
(** lines 506-523 [StandardVersionRange.__lt__] for two ranges *)
Definition range_ltb (a b : option sv * option sv * bool * bool) : bool :=
  let '(mn, mx, i, j) := a in
  let '(mn', mx', i', j') := b in
  if Bool.eqb i i' && Bool.eqb j j' && opt_sv_eqb mn mn' && opt_sv_eqb mx mx' then false else
  let by_max :=
    match mx, mx' with
    | Some m, Some m' => if negb (sv_eqb m m') then sv_ltb m m' else j'
    | _, _ => is_some mx
    end in
  match mn, mn' with
  | Some m, Some m' =>
      if negb (sv_eqb m m') then sv_ltb m m'
      else if negb (Bool.eqb i i') then i'
      else by_max
  | None, None => by_max
  | _, _ => is_some mn'
  end.
(** lines 97-98, 131-132, 189-190, 328-345, 376-395, 502-525 and 56-63 ([<=], [>=] by [==] and [<]).
    [fuel] bounds the dispatch depth. *)
Fixpoint spec_ltb (fuel : nat) (a b : spec) : bool :=
  match fuel with
  | 0 => false
  | S f =>
      (* [not self >= other], i.e. [not (other == self or other < self)] *)
      let not_ge := negb (spec_eqb b a || spec_ltb f b a) in
      match a with
      | RestrictAll => false
      | AllowAll => negb (is_allow b)
      | Union (s0 :: _) => spec_ltb f s0 b
      | Union [] => false
      | Hetro bl sp =>
          match b with
          | RestrictAll | AllowAll | Union _ => not_ge
          | Hetro bl' sp' =>
              if set_eqb bl bl' then spec_ltb f sp sp'
              else versions_ltb (sort_by version_ltb bl) (sort_by version_ltb bl')
          | Match v al =>
              if is_std v then spec_ltb f sp b
              else al || versions_ltb (sort_by version_ltb bl) [v]
          | Range _ _ _ _ => spec_ltb f sp b
          end
      | Match v al =>
          match b with
          | Match v' al' =>
              if spec_eqb a b then false
              else if al then negb al'
              else al' && version_ltb v v'
          | Range mn' _ _ _ =>
              match v with
              | VStd s => if al then match mn' with Some m => sv_ltb s m | None => false end
                          else is_some mn'
              | _ => true
              end
          | _ => not_ge
          end
      | Range mn mx i j =>
          match b with
          | Range mn' mx' i' j' => range_ltb (mn, mx, i, j) (mn', mx', i', j')
          | _ => not_ge
          end
      end
  end.
Fixpoint spec_size (s : spec) : nat :=
  match s with
  | Union l => S (fold_right (fun x n => spec_size x + n) 0 l)
  | Hetro _ s => S (spec_size s)
  | _ => 1
  end.
Definition spec_lt (a b : spec) : bool := spec_ltb (2 * (spec_size a + spec_size b) + 4) a b.

(** ** constructors with their assertions *)
(** lines 169-172 *)
Definition mk_union (l : list spec) : res spec :=
  if length l <=? 1 then Err AssertionError
  else if existsb (fun s => is_restrict s || is_allow s) l then Err AssertionError
  else Ok (Union (sort_by spec_lt l)).
(** lines 482-486 *)
Definition mk_range (mn mx : option sv) (i j : bool) : res spec :=
  if is_none mn && is_none mx then Err AssertionError
  else if i && is_none mn then Err AssertionError
  else if j && is_none mx then Err AssertionError
  else match mn, mx with
       | Some a, Some b => if sv_ltb a b then Ok (Range mn mx i j) else Err AssertionError
       | _, _ => Ok (Range mn mx i j)
       end.
(** lines 244-246 *)
Definition mk_hetro (bl : list version) (s : spec) : res spec :=
  match bl with
  | [] => Err AssertionError
  | _ => if is_restrict s then Err AssertionError else Ok (Hetro bl s)
  end.
(** lines 70-88 [create_range] *)
Definition create_range (mn mx : option sv) (i j : bool) : res spec :=
  let eq := opt_sv_eqb mn mx in
  if eq && negb (Bool.eqb i j) then Err AssertionError
  else match mn, mx with
       | None, None => Ok AllowAll
       | _, _ =>
           if eq then
             if negb i || negb j then Ok RestrictAll
             else match mn with Some m => Ok (Match (VStd m) i) | None => Ok AllowAll end
           else mk_range mn mx i j
       end.
(** lines 351-362 [HetroVersionIntersection.create] *)
Definition hetro_create (bl : list version) (s : spec) : res spec :=
  let bl' := filter (fun v => negb (is_std v) || allows s v) bl in
  if is_restrict s then Ok RestrictAll
  else match bl' with
       | [] => Ok s
       | [v] => if is_allow s then Ok (Match v false) else mk_hetro bl' s
       | _ => mk_hetro bl' s
       end.

(** ** union *)
(** lines 560-573 [_union_with]; the swap recurses at most once because the order is asymmetric *)
Definition range_union_ordered (a b : option sv * option sv * bool * bool) : res spec :=
  let '(mn, mx, i, j) := a in
  let '(mn', mx', i', j') := b in
  let overlap := match mn', mx with Some m', Some m => sv_ltb m' m | _, _ => true end in
  if overlap then
    let imin := if opt_sv_eqb mn mn' then i || i' else i in
    let imax := if opt_sv_eqb mx mx' then j || j' else j' in
    create_range mn mx' imin imax
  else if (negb j && negb i') || negb (opt_sv_eqb mn' mx)
  then mk_union [Range mn mx i j; Range mn' mx' i' j']
  else create_range mn mx' i j'.
Definition range_union (a b : option sv * option sv * bool * bool) : res spec :=
  if range_ltb b a then range_union_ordered b a else range_union_ordered a b.

Fixpoint remove_at {A} (n : nat) (l : list A) : list A :=
  match n, l with
  | _, [] => []
  | 0, _ :: r => r
  | S n', x :: r => x :: remove_at n' r
  end.

(** [union fuel self other] = [self.union_with(other)]: lines 115-116, 155-156, 205-227, 261-288, 418-442, 575-584.
    [union_loop fuel new_segments other_segments] is the loop of lines 212-227, [other_segments] being
    kept reversed (its head is what [pop()] returns). *)
Fixpoint union (fuel : nat) (a b : spec) {struct fuel} : res spec :=
  match fuel with
  | 0 => Err RecursionErr
  | S f =>
      match a with
      | RestrictAll => Ok b
      | AllowAll => Ok AllowAll
      | Union segs =>
          match b with
          | AllowAll | RestrictAll => union f b a
          | Union o => union_loop f segs (rev o)
          | _ => union_loop f segs [b]
          end
      | Hetro bl sp =>
          match b with
          | RestrictAll | AllowAll | Union _ => union f b a
          | Hetro bl' sp' =>
              do s <- union f sp sp';
              if negb (length (set_union bl' bl) =? length bl) then Ok s
              else hetro_create (if length bl <? length bl' then bl else bl') s
          | Match v al =>
              if is_std v && al then do s <- union f sp b; hetro_create bl s
              else if al then
                match set_remove v bl with
                | Some bl' => hetro_create bl' sp
                | None => Err KeyError
                end
              else hetro_create (set_add v bl) sp
          | Range _ _ _ _ => do s <- union f sp b; hetro_create bl s
          end
      | Match v al =>
          match b with
          | RestrictAll | AllowAll | Hetro _ _ | Union _ => union f b a
          | Match v' al' =>
              if spec_eqb a b then Ok a
              else if version_eqb v v' && negb (Bool.eqb al al') then Ok AllowAll
              else mk_union [a; b]
          | Range mn mx i j =>
              if range_allows mn mx i j v then (if al then Ok b else Ok AllowAll)
              else if negb al then Ok a
              else if negb i && (match mn with Some m => version_eqb v (VStd m) | None => false end)
                   then mk_range mn mx true j
              else if negb j && (match mx with Some m => version_eqb v (VStd m) | None => false end)
                   then mk_range mn mx i true
              else mk_union [a; b]
          end
      | Range mn mx i j =>
          match b with
          | Range mn' mx' i' j' =>
              if spec_eqb a b then Ok a else range_union (mn, mx, i, j) (mn', mx', i', j')
          | _ => union f b a
          end
      end
  end
with union_loop (fuel : nat) (new_segments other_rev : list spec) {struct fuel} : res spec :=
  match fuel with
  | 0 => Err RecursionErr
  | S f =>
      match other_rev with
      | [] => mk_union new_segments
      | os :: rest =>
          (* the for loop of lines 214-225: [inr] the result of the method, [inl] the new state *)
          let step := (fix go (i : nat) (l : list spec) : res (spec + list spec * list spec) :=
            match l with
            | [] => Ok (inr (new_segments ++ [os], rest))
            | es :: l' =>
                do us <- union f os es;
                match us with
                | AllowAll => Ok (inl AllowAll)
                | RestrictAll => Ok (inr (new_segments, rest))
                | Union _ => go (S i) l'
                | _ => Ok (inr (remove_at i new_segments, us :: rest))
                end
            end) 0 new_segments in
          do r <- step;
          match r with
          | inl s => Ok s
          | inr (n, o) => union_loop f n o
          end
      end
  end.
Definition union_fuel (a b : spec) : nat := 8 * (spec_size a + spec_size b) + 16.
Definition union_with (a b : spec) : res spec := union (union_fuel a b) a b.

(** The segments left in [other] after [self.union_with(other)]: line 210 aliases [other.segments] and
    lines 212-224 pop from and append to that very list.  [union_left] follows [union_loop], but
    returns the (reversed) remaining list when the loop is left; [None] when an exception escapes. *)
Fixpoint union_left (fuel : nat) (new_segments other_rev : list spec) : option (list spec) :=
  match fuel with
  | 0 => None
  | S f =>
      match other_rev with
      | [] => Some []
      | os :: rest =>
          let step := (fix go (i : nat) (l : list spec) : res (bool * (list spec * list spec)) :=
            match l with
            | [] => Ok (false, (new_segments ++ [os], rest))
            | es :: l' =>
                do us <- union f os es;
                match us with
                | AllowAll => Ok (true, (new_segments, rest))
                | RestrictAll => Ok (false, (new_segments, rest))
                | Union _ => go (S i) l'
                | _ => Ok (false, (remove_at i new_segments, us :: rest))
                end
            end) 0 new_segments in
          match step with
          | Ok (true, (_, o)) => Some o
          | Ok (false, (n, o)) => union_left f n o
          | Err _ => None
          end
      end
  end.
(** the object passed as [other], after [self.union_with(other)].  Simplification: only the top level
    list is followed; unions nested inside unions are not. *)
Definition union_with_other_after (a b : spec) : option spec :=
  match a, b with
  | Union segs, Union o =>
      match union_left (union_fuel a b) segs (rev o) with
      | Some l => Some (Union (rev l))
      | None => None
      end
  | _, _ => Some b
  end.

(** ** intersection *)
(** lines 586-605 [_intersect_with] *)
Definition range_intersect_ordered (a b : option sv * option sv * bool * bool) : res spec :=
  let '(mn, mx, i, j) := a in
  let '(mn', mx', i', j') := b in
  let overlap := match mn', mx with Some m', Some m => sv_ltb m' m | _, _ => true end in
  if overlap then
    let imin := if opt_sv_eqb mn mn' then i && i' else i' in
    let imax := if opt_sv_eqb mx mx' then j && j' else j in
    let use_other := match mx with
                     | None => true
                     | Some m => match mx' with Some m' => sv_ltb m' m | None => false end
                     end in
    if use_other then create_range mn' mx' imin j' else create_range mn' mx imin imax
  else if j && i' && opt_sv_eqb mx mn'
  then match mx with Some m => Ok (Match (VStd m) true) | None => Ok RestrictAll end
  else Ok RestrictAll.
Definition range_intersect (a b : option sv * option sv * bool * bool) : res spec :=
  if range_ltb b a then range_intersect_ordered b a else range_intersect_ordered a b.

(** [intersect fuel self other] = [self.intersect_with(other)]: lines 118-119, 158-159, 229-236, 290-314, 444-472, 607-616 *)
Fixpoint intersect (fuel : nat) (a b : spec) {struct fuel} : res spec :=
  match fuel with
  | 0 => Err RecursionErr
  | S f =>
      match a with
      | RestrictAll => Ok RestrictAll
      | AllowAll => Ok b
      | Union segs =>
          match b with
          | AllowAll | RestrictAll => intersect f b a
          | _ => fold_left (fun acc seg => do r <- acc; do p <- intersect f seg b; union_with r p) segs (Ok RestrictAll)
          end
      | Hetro bl sp =>
          match b with
          | RestrictAll | AllowAll | Union _ => intersect f b a
          | Hetro bl' sp' => do s <- intersect f sp sp'; hetro_create (set_union bl bl') s
          | Match v al =>
              if is_std v && al then
                if allows sp v && negb (set_mem v bl) then Ok b else Ok RestrictAll
              else if al then (if set_mem v bl then Ok RestrictAll else Ok b)
              else hetro_create (set_add v bl) sp
          | Range _ _ _ _ => do s <- intersect f sp b; hetro_create bl s
          end
      | Match v al =>
          match b with
          | RestrictAll | AllowAll | Hetro _ _ | Union _ => intersect f b a
          | Match v' al' =>
              if spec_eqb a b then Ok a else
              let '(mv, ov) := if negb (Bool.eqb (is_local v) (is_local v'))
                               then (without_local v, without_local v') else (v, v') in
              if al && al' then
                if version_eqb mv ov then Ok (if is_local v then a else b) else Ok RestrictAll
              else if al || al' then
                if version_eqb mv ov then Ok RestrictAll else Ok (if al then a else b)
              else mk_hetro (set_add v' [v]) AllowAll
          | Range mn mx i j =>
              if is_std v && range_allows mn mx i j v
              then if al then Ok a else mk_hetro [v] b
              else if al then Ok RestrictAll else Ok b
          end
      | Range mn mx i j =>
          match b with
          | Range mn' mx' i' j' =>
              if spec_eqb a b then Ok a else range_intersect (mn, mx, i, j) (mn', mx', i', j')
          | _ => intersect f b a
          end
      end
  end.
Definition intersect_fuel (a b : spec) : nat := 4 * (spec_size a + spec_size b) + 8.
Definition intersect_with (a b : spec) : res spec := intersect (intersect_fuel a b) a b.

(** ** inverse: lines 94-95, 128-129, 180-184, 316-320, 373-374, 491-500 *)
Fixpoint inverse (s : spec) : res spec :=
  match s with
  | RestrictAll => Ok AllowAll
  | AllowAll => Ok RestrictAll
  | Union l => fold_left (fun acc x => do r <- acc; do i <- inverse x; intersect_with r i) l (Ok AllowAll)
  | Hetro bl sp =>
      if is_allow sp then mk_union (map (fun v => Match v true) bl)
      else do i <- inverse sp; mk_union (map (fun v => Match v true) bl ++ [i])
  | Match v al => Ok (Match v (negb al))
  | Range mn mx i j =>
      match mn, mx with
      | Some m, Some m' =>
          do a <- create_range None (Some m) false (negb i);
          do b <- create_range (Some m') None (negb j) false;
          union_with a b
      | Some m, None => create_range None (Some m) false (negb i)
      | None, Some m' => create_range (Some m') None (negb j) false
      | None, None => Err IndexError
      end
  end.
(** lines 41-42 *)
Definition difference_from (a b : spec) : res spec := do i <- inverse b; intersect_with a i.

(** lines 16-20, 106-110, 137-147 *)
Definition allows_all (a b : spec) : res bool :=
  match a with
  | RestrictAll => Ok false
  | AllowAll => Ok (negb (is_restrict b))
  | _ => do r <- intersect_with a b; Ok (spec_eqb r b)
  end.
Definition allows_any (a b : spec) : res bool :=
  match a with
  | RestrictAll => Ok false
  | AllowAll => Ok (negb (is_restrict b))
  | _ => do r <- intersect_with a b; Ok (negb (is_restrict r))
  end.

(** lines 22-23, 177-178, 248-250, 370-371, 488-489 *)
Fixpoint allows_pre_or_dev (s : spec) : bool :=
  match s with
  | RestrictAll | AllowAll => false
  | Union l => existsb allows_pre_or_dev l
  | Hetro bl sp => allows_pre_or_dev sp || existsb is_pre_or_dev_release bl
  | Match v al => al && is_pre_or_dev_release v
  | Range mn mx _ _ =>
      match mn with Some m => sv_is_pre_or_dev m | None => false end
      || match mx with Some m => sv_is_pre_or_dev m | None => false end
  end.

(** ** printing: lines 112-113, 152-153, 195-203, 322-326, 409-416, 531-558 *)
Definition match_str (v : version) (al : bool) : str :=
  match v with
  | VUrl _ _ _ => (if al then lit "@" else lit "!@") ++ version_str v
  | VStd _ => (if al then lit "==" else lit "!=") ++ version_str v
  | VNamed _ => (if al then lit "===" else lit "!==") ++ version_str v
  end.
Definition compat_release (mn mx : sv) : bool :=
  match rev (release mn) with
  | _ :: y :: r => list_eqb N.eqb (release mx) (rev r ++ [(y + 1)%N; 0%N])
  | _ => false
  end.
Definition range_str (mn mx : option sv) (i j : bool) : str :=
  match (match mn, mx with
         | Some a, Some b => if i && negb j && compat_release a b then Some (lit "~=" ++ sv_str a) else None
         | _, _ => None end) with
  | Some t => t
  | None =>
      let a := match mn with Some m => lit ">" ++ (if i then lit "=" else []) ++ sv_str m | None => [] end in
      let b := match mx with Some m => lit "<" ++ (if j then lit "=" else []) ++ sv_str m | None => [] end in
      match mx with
      | Some _ => match a with [] => b | _ => a ++ lit ", " ++ b end
      | None => a
      end
  end.
Fixpoint spec_str (s : spec) : str :=
  match s with
  | RestrictAll => lit "<none>"
  | AllowAll => lit "*"
  | Union l =>
      match l with
      | [Range None mx _ _; Range mn' None _ _] =>
          match mx, mn' with
          | Some m, Some m' => if sv_eqb m m' then lit "!=" ++ sv_str m else join (lit "; ") (map spec_str l)
          | _, _ => join (lit "; ") (map spec_str l)
          end
      | _ => join (lit "; ") (map spec_str l)
      end
  | Hetro bl sp =>
      join (lit ", ") (map (fun v => lit "!=" ++ version_str v) bl)
      ++ (if is_allow sp then [] else lit ", " ++ spec_str sp)
  | Match v al => match_str v al
  | Range mn mx i j => range_str mn mx i j
  end.
