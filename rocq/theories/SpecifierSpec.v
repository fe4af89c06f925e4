(** Vocabulary used to state the specifier properties: intervals of versions, the fragments of the
    specifier language, and set-theoretic meaning.  Independent of the operations of the model. *)
From Coq Require Import String Ascii List Bool NArith Arith.
From Verif Require Import Base VersionModel VersionSpec SpecifierModel.
Import ListNotations.
Open Scope string_scope.
Open Scope nat_scope.
Open Scope list_scope.
Open Scope bool_scope.

(** A version without local label, whose epoch, if zero, is not written. *)
Definition plain (v : sv) : Prop := release v <> [] /\ local_label v = None /\ epoch v <> Some 0%N.
(** A final, pre- or development release: what is not a post-release. *)
Definition candidate (v : sv) : Prop := plain v /\ post_release v = None.

(** (lower, upper, lower included, upper included) *)
Definition interval := (option sv * option sv * bool * bool)%type.
(** [v] lies in the interval, by the order of versions *)
Definition inside (r : interval) (v : sv) : Prop :=
  let '(mn, mx, i, j) := r in
  (forall m, mn = Some m -> sv_ltb m v = true \/ (i = true /\ same_version m v)) /\
  (forall m, mx = Some m -> sv_ltb v m = true \/ (j = true /\ same_version v m)).

(** A range object that satisfies the assertions of its class and has plain bounds. *)
Definition wf_interval (r : interval) : Prop :=
  let '(mn, mx, i, j) := r in
  (mn <> None \/ mx <> None) /\ (i = true -> mn <> None) /\ (j = true -> mx <> None) /\
  (forall m, mn = Some m -> plain m) /\ (forall m, mx = Some m -> plain m) /\
  (forall a b, mn = Some a -> mx = Some b -> sv_ltb a b = true).

Definition std_plain (v : version) : Prop := match v with VStd s => plain s | _ => False end.

(** ranges and "==v" *)
Definition atom (s : spec) : Prop :=
  match s with
  | Range mn mx i j => wf_interval (mn, mx, i, j)
  | Match v true => std_plain v
  | _ => False
  end.
Definition bounds (s : spec) : option interval :=
  match s with
  | Range mn mx i j => Some (mn, mx, i, j)
  | Match (VStd v) true => Some (Some v, Some v, true, true)
  | _ => None
  end.
(** every version of [a] is below every version of [b] and the two do not touch *)
Definition below (a b : spec) : Prop :=
  exists mn x i j y mx i' j',
    bounds a = Some (mn, Some x, i, j) /\ bounds b = Some (Some y, mx, i', j') /\
    (sv_ltb x y = true \/ (same_version x y /\ j = false /\ i' = false)).
Definition apart (a b : spec) : Prop := below a b \/ below b a.

(** specifiers without "!=v": everything, nothing, an atom, or a union of at least two atoms that
    neither overlap nor touch *)
Definition deny_free (s : spec) : Prop :=
  match s with
  | RestrictAll | AllowAll => True
  | Union l => 2 <= length l /\ Forall atom l /\ ForallOrdPairs apart l
  | _ => atom s
  end.
(** specifiers without unions: everything, nothing, an atom, "!=v", or "!=v1,..,!=vn" together with
    an atom or everything *)
Definition union_free (s : spec) : Prop :=
  match s with
  | RestrictAll | AllowAll => True
  | Match v _ => std_plain v
  | Hetro bl sp => bl <> [] /\ Forall std_plain bl /\ (sp = AllowAll \/ atom sp)
  | _ => atom s
  end.

(** [s] allows exactly the candidate versions described by [P] *)
Definition denotes (s : spec) (P : sv -> Prop) : Prop :=
  forall v, candidate v -> (allows s (VStd v) = true <-> P v).

(** the lower bound of [a] is a smaller version than the lower bound of [b] *)
Definition starts_before (a b : interval) : Prop :=
  let '(mn, _, _, _) := a in let '(mn', _, _, _) := b in
  match mn, mn' with
  | None, Some _ => True
  | Some m, Some m' => sv_ltb m m' = true
  | _, None => False
  end.
(** every version beyond the end of [b] is beyond the end of [a] *)
Definition ends_no_later (a b : interval) : Prop :=
  let '(_, mx, _, j) := a in let '(_, mx', _, j') := b in
  match mx, mx' with
  | _, None => True
  | None, Some _ => False
  | Some n, Some n' => sv_ltb n n' = true \/ (same_version n n' /\ (j = true -> j' = true))
  end.
Definition staggered (a b : interval) : Prop :=
  (starts_before a b /\ ends_no_later a b) \/ (starts_before b a /\ ends_no_later b a).

(** the two ranges begin at the same version, [b] including it if [a] does *)
Definition same_start (a b : interval) : Prop :=
  let '(mn, _, i, _) := a in let '(mn', _, i', _) := b in
  match mn, mn' with
  | None, None => True
  | Some m, Some m' => same_version m m' /\ (i = true -> i' = true)
  | _, _ => False
  end.

(** specifiers built from ranges only: everything, nothing, a range, or a union of at least two
    ranges that neither overlap nor touch *)
Definition is_range (s : spec) : Prop := match s with Range _ _ _ _ => True | _ => False end.
Definition range_only (s : spec) : Prop :=
  deny_free s /\
  match s with
  | RestrictAll | AllowAll => True
  | Union l => Forall is_range l
  | _ => is_range s
  end.
