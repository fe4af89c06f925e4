(** Model of pkm/src/pkm/resolution/pubgrub.py.

    Simplifications: packages are numbers whose order is the order of their names; the texts of the causes and the
    progress messages are left out; a specifier is never mutated by another one's [union_with] (see C11).
    The solver is parametrised by the specifier operations it uses, so that it runs with the model of
    version_specifiers.py ([real_ops] below) as well as with an idealised implementation. *)
From Coq Require Import String Ascii List Bool NArith Arith.
From Verif Require Import Base VersionModel SpecifierModel.
Import ListNotations.
Open Scope nat_scope.
Open Scope list_scope.
Open Scope bool_scope.

(** ** The specifier operations used by the solver; S: specifiers, V: versions *)
Record ops (S V : Type) := Ops {
  o_everything : S;                              (* AllowAllVersions *)
  o_nothing : S;                                 (* RestrictAllVersions *)
  o_is_nothing : S -> bool;                      (* [is RestrictAllVersions] *)
  o_match : V -> S;                              (* VersionMatch(v) *)
  o_window : option V -> option V -> res S;      (* create_range(min_=.., max_=.., includes_max=max_ is given) *)
  o_allows : S -> V -> bool;                     (* allows_version *)
  o_all : S -> S -> res bool;                    (* allows_all *)
  o_any : S -> S -> res bool;                    (* allows_any *)
  o_inter : S -> S -> res S;                     (* intersect_with *)
  o_union : S -> S -> res S;                     (* union_with *)
  o_inverse : S -> res S;                        (* inverse *)
  o_diff : S -> S -> res S;                      (* difference_from *)
  o_eqb : S -> S -> bool;                        (* == *)
  o_special : S -> option V;                     (* the version of an allowing VersionMatch that is not a StandardVersion *)
  o_vlt : V -> V -> bool                         (* < on versions *)
}.
Arguments Ops {S V}. Arguments o_everything {S V}. Arguments o_nothing {S V}. Arguments o_is_nothing {S V}.
Arguments o_match {S V}. Arguments o_window {S V}. Arguments o_allows {S V}. Arguments o_all {S V}. Arguments o_any {S V}.
Arguments o_inter {S V}. Arguments o_union {S V}. Arguments o_inverse {S V}. Arguments o_diff {S V}. Arguments o_eqb {S V}.
Arguments o_special {S V}. Arguments o_vlt {S V}.

(** ** dictionaries keyed by packages (insertion ordered, as python's) *)
Definition pkg := N.
Fixpoint pget {A} (p : pkg) (d : list (pkg * A)) : option A :=
  match d with [] => None | (q, v) :: r => if (p =? q)%N then Some v else pget p r end.
Fixpoint pset {A} (p : pkg) (v : A) (d : list (pkg * A)) : list (pkg * A) :=
  match d with [] => [(p, v)] | (q, w) :: r => if (p =? q)%N then (q, v) :: r else (q, w) :: pset p v r end.
Definition plist {A} (p : pkg) (d : list (pkg * list A)) : list A := match pget p d with Some l => l | None => [] end.
Definition pnat (p : pkg) (d : list (pkg * nat)) : nat := match pget p d with Some n => n | None => 0 end.
Definition last_of {A} (l : list A) : option A := match rev l with [] => None | x :: _ => Some x end.

Section Solver.
Variables S V : Type.
Variable O : ops S V.

(** pubgrub.py:42-84 [Term]; terms are compared by package and constraint *)
Record term := T { t_pkg : pkg; t_con : S }.
Definition term_eqb (a b : term) : bool := (t_pkg a =? t_pkg b)%N && o_eqb O (t_con a) (t_con b).
(** 47-48 *)
Definition negate (t : term) : res term := do c <- o_inverse O (t_con t); Ok (T (t_pkg t) c).
(** 58-77 [Term.join], for a group of at least one term *)
Fixpoint join_constraints (c : S) (ts : list term) : res S :=
  match ts with [] => Ok c | t :: r => do c <- o_inter O c (t_con t); join_constraints c r end.

(** 87-99; [a_cause]: the number of the incompatibility. Object identity ([is]): the order index, unique among the
    assignments of a partial solution *)
Record assignment := A { a_term : term; a_level : nat; a_order : nat; a_cause : option nat; a_acc : S }.
Definition is_decision (a : assignment) : bool := is_none (a_cause a).

(** 102-108 *)
Record psol := PSol { s_order : list assignment; s_pkgs : list (pkg * list assignment);
                      s_required : list (pkg * nat); s_decisions : list (pkg * assignment) }.
Definition psol0 : psol := PSol [] [] [] [].
(** 115-116 *)
Definition undecided (s : psol) : list pkg := filter (fun p => is_none (pget p (s_decisions s))) (map fst (s_required s)).
(** 118-124; [get(..) or -1] makes -1 of level 0 as well: only compared with numbers >= 0, so -1 is written as 0 *)
Definition requirement_level (s : psol) (p : pkg) : nat := pnat p (s_required s).
(** 126-128 *)
Definition level (s : psol) : nat := length (s_decisions s) - 1.
(** 130-135 *)
Definition requiring_decision (s : psol) (p : pkg) : res assignment :=
  match pget p (s_required s) with
  | None => Err KeyError
  | Some l => match find (fun a => a_level a =? l) (map snd (s_decisions s)) with
              | Some a => Ok a
              | None => Err AssertionError
              end
  end.
(** 137-161 *)
Definition backtrack (s : psol) (l : nat) : psol :=
  PSol (filter (fun a => a_level a <=? l) (s_order s))
       (map (fun e => (fst e, filter (fun a => a_level a <=? l) (snd e))) (s_pkgs s))
       (filter (fun e => snd e <=? l) (s_required s))
       (filter (fun e => a_level (snd e) <=? l) (s_decisions s)).
(** 163-167 *)
Definition require (s : psol) (ps : list pkg) : psol :=
  PSol (s_order s) (s_pkgs s)
       (fold_left (fun req p => if is_none (pget p req) then pset p (level s) req else req) ps (s_required s))
       (s_decisions s).
Definition assignments (s : psol) (p : pkg) : list assignment := plist p (s_pkgs s).
Definition accumulated (s : psol) (p : pkg) : option S := option_map a_acc (last_of (assignments s p)).
(** 172-184 *)
Definition make_assignment (root : pkg) (s : psol) (t : term) (cause : option nat) : res assignment :=
  do acc <- match accumulated s (t_pkg t) with Some prev => o_inter O prev (t_con t) | None => Ok (t_con t) end;
  let dlevel := if is_none cause && negb (t_pkg t =? root)%N then Datatypes.S (level s) else level s in
  Ok (A t dlevel (length (s_order s)) cause acc).
(** 186-198 *)
Definition push (s : psol) (a : assignment) : psol :=
  PSol (s_order s) (pset (t_pkg (a_term a)) (assignments s (t_pkg (a_term a)) ++ [a]) (s_pkgs s)) (s_required s) (s_decisions s).
Definition assign (s : psol) (a : assignment) : psol :=
  let s' := push s a in
  PSol (s_order s ++ [a]) (s_pkgs s') (s_required s)
       (if is_decision a then pset (t_pkg (a_term a)) a (s_decisions s) else s_decisions s).
Definition assign_term (root : pkg) (s : psol) (t : term) (cause : option nat) : res psol :=
  do a <- make_assignment root s t cause; Ok (assign s a).

(** 276-283, 436-444 [Incompatibility], [DependencyIncompatibility]; [i_dep]: dependant and dependency,
    [i_added]: the flag [added] *)
Record incompat := I { i_terms : list term; i_dep : option (term * term); i_added : bool }.
Definition terms_eqb (a b : incompat) : bool := list_eqb term_eqb (i_terms a) (i_terms b).

(** 227-244 [find_satisfier] *)
Fixpoint find_in (t : term) (next : option assignment) (l : list assignment) : res (option assignment) :=
  match l with
  | [] => Ok None
  | a :: r =>
      match next with
      | Some n =>
          if a_order a =? a_order n then Ok None
          else do x <- o_inter O (a_acc a) (t_con (a_term n));
               do ok <- o_all O (t_con t) x;
               if ok then Ok (Some a) else find_in t next r
      | None => do ok <- o_all O (t_con t) (a_acc a); if ok then Ok (Some a) else find_in t next r
      end
  end.
Definition find_satisfier (s : psol) (t : term) (next : option assignment) : res (option assignment) :=
  match accumulated s (t_pkg t) with
  | None => Ok None
  | Some acc => do ok <- o_all O (t_con t) acc; if ok then find_in t next (assignments s (t_pkg t)) else Ok None
  end.

(** 207-212 *)
Inductive satisfaction := Unsat | Almost (t : term) | Full (satisfier : assignment) (prev : option assignment).
(** utils/sequences.py [argmax]: the first maximum *)
Fixpoint latest (l : list assignment) (best : assignment) : assignment :=
  match l with [] => best | a :: r => latest r (if a_order best <? a_order a then a else best) end.
Fixpoint drop_first (a : assignment) (l : list assignment) : list assignment :=
  match l with [] => [] | b :: r => if a_order b =? a_order a then r else b :: drop_first a r end.
(** 261-267 *)
Fixpoint more_satisfiers (s : psol) (satisfier : assignment) (ts : list term) (acc : list assignment) : res (list assignment) :=
  match ts with
  | [] => Ok acc
  | t :: r =>
      do acc <- match pget (t_pkg t) (s_required s) with
                | Some _ => do d <- requiring_decision s (t_pkg t); Ok (acc ++ [d])
                | None => Ok acc
                end;
      do acc <- (if (t_pkg t =? t_pkg (a_term satisfier))%N
                 then do p <- find_satisfier s t (Some satisfier); Ok (match p with Some x => acc ++ [x] | None => acc end)
                 else Ok acc);
      more_satisfiers s satisfier r acc
  end.
(** 254-273 *)
Definition create_full (s : psol) (i : incompat) (satisfiers : list assignment) : res satisfaction :=
  match satisfiers with
  | [] => Err ValueError
  | a :: r =>
      let satisfier := latest r a in
      do rest <- more_satisfiers s satisfier (i_terms i) (drop_first satisfier satisfiers);
      Ok (Full satisfier (match rest with [] => None | b :: r => Some (latest r b) end))
  end.
(** 300-303 *)
Definition some_impossible (s : psol) (ts : list term) : bool :=
  existsb (fun t => match accumulated s (t_pkg t) with Some c => o_is_nothing O c | None => false end) ts.
(** 305-322 *)
Fixpoint check_terms (s : psol) (i : incompat) (ts : list term) (open : option term) (satisfiers : list assignment) : res satisfaction :=
  match ts with
  | [] => match open with Some t => Ok (Almost t) | None => create_full s i satisfiers end
  | t :: r =>
      do f <- find_satisfier s t None;
      match f with
      | Some a => check_terms s i r open (satisfiers ++ [a])
      | None =>
          do impossible <- match accumulated s (t_pkg t) with
                           | Some acc => do any <- o_any O acc (t_con t); Ok (negb any)
                           | None => Ok false
                           end;
          if (impossible : bool) then Ok Unsat
          else match open with
               | Some _ => Ok Unsat
               | None => check_terms s i r (Some t) satisfiers
               end
      end
  end.
Definition check_plain (s : psol) (i : incompat) : res satisfaction :=
  if some_impossible s (i_terms i) then Ok Unsat else check_terms s i (i_terms i) None [].
(** 295-322, 446-455 *)
Definition check_satisfaction (s : psol) (i : incompat) : res satisfaction :=
  match i_dep i with
  | None => check_plain s i
  | Some (dependant, _) =>
      match accumulated s (t_pkg dependant) with
      | None => Ok Unsat
      | Some acc =>
          do any <- o_any O acc (t_con dependant);
          if any then check_plain s i
          else if o_is_nothing O acc then Ok Unsat
          else do all <- o_all O (t_con dependant) acc; if all then check_plain s i else Ok Unsat
      end
  end.

(** 415-428 [Incompatibility.create]: one term per package, sorted by package *)
Fixpoint group_terms (ts : list term) (g : list (pkg * list term)) : list (pkg * list term) :=
  match ts with [] => g | t :: r => group_terms r (pset (t_pkg t) (plist (t_pkg t) g ++ [t]) g) end.
Fixpoint insert_term (t : term) (l : list term) : list term :=
  match l with [] => [t] | u :: r => if (t_pkg t <? t_pkg u)%N then t :: l else u :: insert_term t r end.
Definition sort_terms (l : list term) : list term := fold_left (fun acc t => insert_term t acc) l [].
Fixpoint join_groups (g : list (pkg * list term)) : res (list term) :=
  match g with
  | [] => Ok []
  | (p, []) :: r => join_groups r
  | (p, t :: ts) :: r => do c <- join_constraints (t_con t) ts; do rest <- join_groups r; Ok (T p c :: rest)
  end.
Definition create_terms (ts : list term) : res (list term) := do l <- join_groups (group_terms ts []); Ok (sort_terms l).
(** 437-444, 457-464 *)
Definition dependency_terms (dependant dependency : term) : res (list term) := do n <- negate dependency; Ok (sort_terms [n; dependant]).

(** 528-557 [Problem]; [None]: MalformedPackageException *)
Record problem := Problem { p_versions : pkg -> list V; p_deps : pkg -> V -> option (list term); p_has : pkg -> V -> bool }.

(** 467-473, 522-525 [_PackageVersion], [PackageDependency]; [v_deps]: per package the required constraint and the
    incompatibility made for it; [v_next]: position of the next larger version *)
Record pversion := PV { v_version : V; v_range : S; v_deps : option (list (pkg * (S * option nat))); v_next : option nat }.

(** 562-571 *)
Record state := St { x_sol : psol; x_versions : list (pkg * list pversion); x_avail : list (pkg * nat);
                     x_trouble : list (pkg * nat); x_heap : list incompat; x_incs : list (pkg * list nat) }.
Definition state0 : state := St psol0 [] [] [] [] [].
Definition with_sol (x : state) (s : psol) : state := St s (x_versions x) (x_avail x) (x_trouble x) (x_heap x) (x_incs x).
Definition with_heap (x : state) (h : list incompat) : state := St (x_sol x) (x_versions x) (x_avail x) (x_trouble x) h (x_incs x).
Definition with_versions (x : state) (v : list (pkg * list pversion)) : state := St (x_sol x) v (x_avail x) (x_trouble x) (x_heap x) (x_incs x).
Definition inc (x : state) (n : nat) : incompat := nth n (x_heap x) (I [] None false).
Definition put {A} (n : nat) (v : A) (l : list A) : list A := firstn n l ++ match skipn n l with [] => [] | _ :: r => v :: r end.
Definition set_inc (x : state) (n : nat) (i : incompat) : state := with_heap x (put n i (x_heap x)).
Definition new_inc (x : state) (i : incompat) : state * nat := (with_heap x (x_heap x ++ [i]), length (x_heap x)).

(** 573-583 *)
Definition add_to_list (h : list incompat) (n : nat) (i : incompat) (incs : list (pkg * list nat)) (t : term) : list (pkg * list nat) :=
  let l := plist (t_pkg t) incs in
  if existsb (fun m => terms_eqb (nth m h (I [] None false)) i) l then incs else pset (t_pkg t) (l ++ [n]) incs.
Definition add_incompatibility (x : state) (n : nat) : state :=
  let i := inc x n in
  if is_some (i_dep i) && i_added i then x
  else let x := if is_some (i_dep i) then set_inc x n (I (i_terms i) (i_dep i) true) else x in
       St (x_sol x) (x_versions x) (x_avail x) (x_trouble x) (x_heap x)
          (fold_left (add_to_list (x_heap x) n i) (i_terms i) (x_incs x)).

(** ** package_versions, 691-716 *)
(** the positions of the versions in increasing order ([sorted] is stable) *)
Fixpoint insert_pos (v : V) (n : nat) (l : list (V * nat)) : list (V * nat) :=
  match l with [] => [(v, n)] | (w, m) :: r => if o_vlt O v w then (v, n) :: l else (w, m) :: insert_pos v n r end.
Definition sort_positions (vs : list V) : list (V * nat) :=
  fold_left (fun acc e => insert_pos (fst e) (snd e) acc) (combine vs (seq 0 (length vs))) [].
Definition window_of (sorted : list (V * nat)) (k : nat) : res S :=
  let n := length sorted in
  let v i := option_map fst (nth_error sorted i) in
  if n =? 1 then Ok (o_everything O)
  else if k =? 0 then o_window O None (v 0)
  else if Datatypes.S k =? n then o_window O (v (k - 1)) None
  else o_window O (v (k - 1)) (v k).
Fixpoint position (n : nat) (sorted : list (V * nat)) (k : nat) : nat :=
  match sorted with [] => k | (_, m) :: r => if m =? n then k else position n r (Datatypes.S k) end.
Fixpoint build_versions (vs : list V) (n : nat) (sorted : list (V * nat)) : res (list pversion) :=
  match vs with
  | [] => Ok []
  | v :: r =>
      let k := position n sorted 0 in
      do w <- window_of sorted k;
      do rest <- build_versions r (Datatypes.S n) sorted;
      Ok (PV v w None (option_map snd (nth_error sorted (Datatypes.S k))) :: rest)
  end.
Variable P : problem.
Variable root : pkg.
Definition package_versions (x : state) (p : pkg) : res (state * list pversion) :=
  match plist p (x_versions x) with
  | [] => do l <- build_versions (p_versions P p) 0 (sort_positions (p_versions P p));
          Ok (with_versions x (pset p l (x_versions x)), l)
  | l => Ok (x, l)
  end.

(** ** _propagate and _resolve_conflict, 604-689 *)
(** 624-626 *)
Definition is_tautology (i : incompat) : bool :=
  match i_terms i with [] => true | [t] => (t_pkg t =? root)%N | _ => false end.
(** 292-293 *)
Definition term_for (i : incompat) (p : pkg) : option term := find (fun t => (t_pkg t =? p)%N) (i_terms i).
(** a set of terms; the order of its elements is the order of insertion (only matters for the order of intersections) *)
Definition add_term (t : term) (l : list term) : list term := if existsb (term_eqb t) l then l else l ++ [t].
Definition add_trouble (x : state) (ts : list term) : state :=
  St (x_sol x) (x_versions x) (x_avail x)
     (fold_left (fun d t => pset (t_pkg t) (Datatypes.S (pnat (t_pkg t) d)) d) ts (x_trouble x)) (x_heap x) (x_incs x).
(** [RecursionErr]: still running *)
Fixpoint resolve_conflict (fuel : nat) (x : state) (n original : nat) (satisfier : assignment) (prev : option assignment) : res (state * pkg) :=
  match fuel with
  | 0 => Err RecursionErr
  | Datatypes.S fuel =>
      let i := inc x n in
      let x := add_trouble x (i_terms i) in
      if is_tautology i then Err UnsatError
      else
        let sp := t_pkg (a_term satisfier) in
        let prev_level := match prev with Some a => a_level a | None => 0 end in
        if is_decision satisfier || (prev_level <? a_level satisfier) then
          let x := with_sol x (backtrack (x_sol x) prev_level) in
          let x := if n =? original then x else add_incompatibility x n in
          do sat <- check_satisfaction (x_sol x) (inc x n);
          match sat with
          | Almost t => do nt <- negate t; do s <- assign_term root (x_sol x) nt (Some n); Ok (with_sol x s, t_pkg t)
          | _ => Err AssertionError
          end
        else
          match term_for i sp, a_cause satisfier with
          | Some t, Some c =>
              let prior := fold_left (fun l u => if (t_pkg u =? sp)%N then l else add_term u l) (i_terms i ++ i_terms (inc x c)) [] in
              if terms_eqb (inc x c) i then Err AssertionError
              else
                do inside <- o_all O (t_con t) (t_con (a_term satisfier));
                do prior <- (if negb inside || match prior with [] => true | _ => false end
                             then do d <- o_diff O (a_acc satisfier) (t_con t); do d <- o_inverse O d; Ok (add_term (T sp d) prior)
                             else Ok prior);
                do ts <- create_terms prior;
                let (x, m) := new_inc x (I ts None false) in
                (* 678-681 cannot happen: the set is not empty *)
                if is_tautology (inc x m) then resolve_conflict fuel x m original satisfier prev
                else
                  do sat <- check_satisfaction (x_sol x) (inc x m);
                  match sat with
                  | Full a p => resolve_conflict fuel x m original a p
                  | _ => Err AssertionError
                  end
          | _, _ => Err AttributeError
          end
  end.
(** the [for] loop, 612-622; [changed]: a set *)
Definition add_changed (p : pkg) (l : list pkg) : list pkg := if existsb (N.eqb p) l then l else l ++ [p].
Fixpoint process (fuel : nat) (todo : list nat) (x : state) (changed : list pkg) : res (state * list pkg) :=
  match todo with
  | [] => Ok (x, changed)
  | n :: r =>
      do sat <- check_satisfaction (x_sol x) (inc x n);
      match sat with
      | Full a p => do xp <- resolve_conflict fuel x n n a p; process fuel r (fst xp) (add_changed (snd xp) changed)
      | Almost t => do nt <- negate t; do s <- assign_term root (x_sol x) nt (Some n); process fuel r (with_sol x s) (add_changed (t_pkg t) changed)
      | Unsat => process fuel r x changed
      end
  end.
(** [changed.pop()] takes any element: [pick] says which *)
Variable pick : list pkg -> nat.
Fixpoint remove_nth {A} (n : nat) (l : list A) : list A :=
  match l, n with [] , _ => [] | _ :: r, 0 => r | a :: r, Datatypes.S n => a :: remove_nth n r end.
Fixpoint propagate (fuel : nat) (x : state) (changed : list pkg) : res state :=
  match changed with
  | [] => Ok x
  | c :: _ =>
      match fuel with
      | 0 => Err RecursionErr
      | Datatypes.S k =>
          let j := pick changed mod length changed in
          let p := nth j changed c in
          do xc <- process fuel (rev (plist p (x_incs x))) x (remove_nth j changed);
          propagate k (fst xc) (snd xc)
      end
  end.

(** ** _make_next_decision, 750-830 *)
(** 758-772; the second component: [true] for a version outside of [package_versions] *)
Definition special_version (v : V) (c : S) : pversion := PV v c None None.
Fixpoint matching (x : state) (ps : list pkg) : res (state * list (pkg * (list (option nat * pversion)))) :=
  match ps with
  | [] => Ok (x, [])
  | p :: r =>
      match accumulated (x_sol x) p with
      | None => Err IndexError
      | Some acc =>
          do xl <- match o_special O acc with
                   | Some v => Ok (x, if p_has P p v then [(None, special_version v acc)] else [])
                   | None => do xv <- package_versions x p;
                             Ok (fst xv, filter (fun e => o_allows O acc (v_version (snd e))) (combine (map Some (seq 0 (length (snd xv)))) (snd xv)))
                   end;
          do rest <- matching (fst xl) r;
          Ok (fst rest, (p, snd xl) :: snd rest)
      end
  end.
(** 774-775: the first minimum of (-trouble, number of versions) *)
Definition better (x : state) (a b : pkg * list (option nat * pversion)) : bool :=
  let ta := pnat (fst a) (x_trouble x) in let tb := pnat (fst b) (x_trouble x) in
  (tb <? ta) || ((ta =? tb) && (length (snd a) <? length (snd b))).
Fixpoint best_package (x : state) (l : list (pkg * list (option nat * pversion))) (best : pkg * list (option nat * pversion)) :=
  match l with [] => best | e :: r => best_package x r (if better x e best then e else best) end.
(** 479-484: the dependencies by package, the last one of a package counts *)
Definition fetch (p : pkg) (v : pversion) : option pversion :=
  match v_deps v with
  | Some (_ :: _) => Some v
  | _ => match p_deps P p (v_version v) with
         | None => None
         | Some ts => Some (PV (v_version v) (v_range v) (Some (fold_left (fun d t => pset (t_pkg t) (t_con t, None) d) ts [])) (v_next v))
         end
  end.
(** writing back to the _PackageVersion object *)
Definition set_version (x : state) (p : pkg) (k : option nat) (v : pversion) : state :=
  match k with Some k => with_versions x (pset p (put k v (plist p (x_versions x))) (x_versions x)) | None => x end.
Definition get_version (x : state) (p : pkg) (k : nat) : option pversion := nth_error (plist p (x_versions x)) k.
(** 781-806: the first version that is not malformed *)
Fixpoint first_usable (x : state) (p : pkg) (l : list (option nat * pversion)) : option (state * (option nat * pversion)) :=
  match l with
  | [] => None
  | (k, v) :: r => match fetch p v with Some v => Some (set_version x p k v, (k, v)) | None => first_usable x p r end
  end.
(** 489-501: the incompatibility of the last version in a row that requires the same; [fuel]: the number of versions *)
Fixpoint last_requiring (fuel : nat) (x : state) (p : pkg) (d : pkg) (c : S) (next : option nat) (last : option nat) : option nat :=
  match fuel, next with
  | Datatypes.S fuel, Some k =>
      match get_version x p k with
      | Some nv =>
          match v_deps nv with
          | Some ((_ :: _) as deps) =>
              match pget d deps with
              | Some (c', _) => if o_eqb O c' c then last_requiring fuel x p d c (v_next nv) (Some k) else last
              | None => last
              end
          | _ => last
          end
      | None => last
      end
  | _, _ => last
  end.
(** 486-516, for one dependency; result: the incompatibility *)
Definition compute_one (x : state) (p : pkg) (k : option nat) (v : pversion) (d : pkg) (c : S) : res (state * nat) :=
  let fresh :=
    do ts <- dependency_terms (T p (v_range v)) (T d c);
    let (x, n) := new_inc x (I ts (Some (T p (v_range v), T d c)) false) in
    let v := match k with Some k => match get_version x p k with Some w => w | None => v end | None => v end in
    Ok (set_version x p k (PV (v_version v) (v_range v) (Some (pset d (c, Some n) (match v_deps v with Some l => l | None => [] end))) (v_next v)), n) in
  match last_requiring (length (plist p (x_versions x))) x p d c (v_next v) None with
  | Some k' =>
      match get_version x p k' with
      | Some nv =>
          match match v_deps nv with Some deps => pget d deps | None => None end with
          | Some (_, Some n) =>
              let i := inc x n in
              match i_dep i with
              | Some (dependant, dependency) =>
                  do u <- o_union O (t_con dependant) (v_range v);
                  do ts <- dependency_terms (T p u) dependency;
                  Ok (set_inc x n (I ts (Some (T p u, dependency)) (i_added i)), n)
              | None => fresh
              end
          | _ => fresh
          end
      | None => fresh
      end
  | None => fresh
  end.
Fixpoint compute_incompatibilities (x : state) (p : pkg) (k : option nat) (v : pversion) (deps : list (pkg * (S * option nat))) : res (state * list nat) :=
  match deps with
  | [] => Ok (x, [])
  | (d, (c, _)) :: r =>
      do xn <- compute_one x p k v d c;
      do rest <- compute_incompatibilities (fst xn) p k v r;
      Ok (fst rest, snd xn :: snd rest)
  end.
(** 814 *)
Fixpoint conflicting (s : psol) (h : list incompat) (ns : list nat) : res (list nat) :=
  match ns with
  | [] => Ok []
  | n :: r =>
      do sat <- check_satisfaction s (nth n h (I [] None false));
      do rest <- conflicting s h r;
      Ok (match sat with Full _ _ => n :: rest | _ => rest end)
  end.
(** 718-748, levels as [Some]; [None] is -1 *)
Fixpoint adjustment_level (x : state) (p : pkg) (conflicts : list nat) (acc : option nat) : res (option nat) :=
  match conflicts with
  | [] => Ok acc
  | n :: r =>
      match find (fun t => negb (t_pkg t =? p)%N) (i_terms (inc x n)) with
      | None => Err AttributeError
      | Some t =>
          do requirement <- o_inverse O (t_con t);
          match rev (assignments (x_sol x) (t_pkg t)) with
          | a :: b :: _ =>
              if is_decision a then
                do any <- o_any O (a_acc b) requirement;
                if any then
                  let dlevel := match a_level a with 0 => None | Datatypes.S l => Some l end in
                  adjustment_level x p r (match acc with None => dlevel | Some m => match dlevel with None => None | Some l => Some (Nat.min l m) end end)
                else Ok None
              else adjustment_level x p r acc
          | _ => adjustment_level x p r acc
          end
      end
  end.
Definition attempt_minor_adjustments (x : state) (p : pkg) (conflicts : list nat) : res (state * bool) :=
  do l <- adjustment_level x p conflicts None;
  match l with
  | Some l => if requirement_level (x_sol x) p <=? l then Ok (with_sol x (backtrack (x_sol x) l), true) else Ok (x, false)
  | None => Ok (x, false)
  end.
(** 781-794: no version is left *)
Definition unavailable (x : state) (p : pkg) : res state :=
  match accumulated (x_sol x) p with
  | None => Err IndexError
  | Some acc =>
      match pget p (x_avail x) with
      | Some n =>
          match i_terms (inc x n) with
          | [t] => do u <- o_union O (t_con t) acc; Ok (set_inc x n (I [T (t_pkg t) u] None false))
          | _ => Err AssertionError
          end
      | None =>
          do ts <- create_terms [T p acc];
          let (x, n) := new_inc x (I ts None false) in
          Ok (add_incompatibility (St (x_sol x) (x_versions x) (pset p n (x_avail x)) (x_trouble x) (x_heap x) (x_incs x)) n)
      end
  end.
Definition make_next_decision (x : state) : res (state * option pkg) :=
  match undecided (x_sol x) with
  | [] => Ok (x, None)
  | u =>
      do xm <- matching x u;
      let x := fst xm in
      match snd xm with
      | [] => Ok (x, None)
      | e :: r =>
          let (p, versions) := best_package x r e in
          match first_usable x p versions with
          | None => do x <- unavailable x p; Ok (x, Some p)
          | Some (x, (k, v)) =>
              let deps := match v_deps v with Some l => l | None => [] end in
              do xi <- compute_incompatibilities x p k v deps;
              let x := fold_left add_incompatibility (snd xi) (fst xi) in
              let t := T p (o_match O (v_version v)) in
              do a <- make_assignment root (x_sol x) t None;
              do conflicts <- conflicting (push (x_sol x) a) (x_heap x) (snd xi);
              do xb <- match conflicts with
                       | [] => Ok (x, true)
                       | _ => attempt_minor_adjustments x p conflicts
                       end;
              let x := fst xb in
              if snd xb : bool then
                do a <- match conflicts with [] => Ok a | _ => make_assignment root (x_sol x) t None end;
                Ok (with_sol x (require (assign (x_sol x) a) (map fst deps)), Some p)
              else Ok (x, Some p)
          end
      end
  end.

(** ** solve, 585-602 *)
Definition decisions (s : psol) : list (pkg * S) := map (fun e => (fst e, t_con (a_term (snd e)))) (s_decisions s).
Fixpoint solve_loop (fuel : nat) (x : state) (next : pkg) : res state :=
  match fuel with
  | 0 => Err RecursionErr
  | Datatypes.S k =>
      do x <- propagate fuel x [next];
      do xn <- make_next_decision x;
      match snd xn with
      | None => Ok (fst xn)
      | Some p => solve_loop k (fst xn) p
      end
  end.
Definition start : res state :=
  do xv <- package_versions state0 root;
  match snd xv with
  | [] => Err IndexError
  | v :: _ =>
      do n <- negate (T root (o_match O (v_version v)));
      do ts <- create_terms [n];
      let (x, k) := new_inc (fst xv) (I ts None false) in
      let x := add_incompatibility x k in
      Ok (with_sol x (require (x_sol x) [root]))
  end.
Definition solve (fuel : nat) : res (list (pkg * S)) :=
  do x <- start; do x <- solve_loop fuel x root; Ok (decisions (x_sol x)).
End Solver.

Arguments T {S}. Arguments t_pkg {S}. Arguments t_con {S}. Arguments Problem {S V}. Arguments p_versions {S V}. Arguments p_deps {S V}. Arguments p_has {S V}.

(** ** the operations of version_specifiers.py *)
Definition real_window (mn mx : option version) : res spec :=
  let sv_of v := match v with Some (VStd s) => Ok (Some s) | Some _ => Err TypeError | None => Ok None end in
  do a <- sv_of mn; do b <- sv_of mx; create_range a b false (is_some b).
Definition real_ops : ops spec version :=
  Ops AllowAll RestrictAll is_restrict (fun v => Match v true) real_window allows allows_all allows_any intersect_with union_with
      inverse difference_from spec_eqb
      (fun s => match s with Match v true => if is_std v then None else Some v | _ => None end) version_ltb.
