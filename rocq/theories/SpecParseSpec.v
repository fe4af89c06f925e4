(** What the clauses of a textual version requirement mean.  Independent of the parser and of the
    specifier operations. *)
From Coq Require Import String Ascii List Bool NArith Arith.
From Verif Require Import Base VersionModel VersionSpec SpecifierModel SpecifierSpec.
Import ListNotations.
Open Scope string_scope.
Open Scope nat_scope.
Open Scope list_scope.
Open Scope bool_scope.

Inductive cop := Ge | Gt | Le | Lt | Eq | Ne | Compat | EqStar | NeStar.
Definition clause := (cop * sv)%type.
Definition cop_text (o : cop) : str :=
  match o with
  | Ge => lit ">=" | Gt => lit ">" | Le => lit "<=" | Lt => lit "<"
  | Eq | EqStar => lit "==" | Ne | NeStar => lit "!=" | Compat => lit "~="
  end.
Definition starred (o : cop) : bool := match o with EqStar | NeStar => true | _ => false end.
Definition clause_text (c : clause) : str :=
  cop_text (fst c) ++ sv_str (snd c) ++ (if starred (fst c) then lit ".*" else []).
(** the clauses considered: plain versions; at least two release numbers after [~=]; only release
    numbers before [.*] *)
Definition clause_ok (c : clause) : Prop :=
  let '(o, v) := c in
  wf_sv v /\ plain v /\ (o = Compat -> 2 <= length (release v)) /\
  (starred o = true -> pre_release v = None /\ post_release v = None /\ dev_release v = None).

Definition at_least (v w : sv) : Prop := sv_ltb v w = true \/ same_version v w.
Definition at_most (v w : sv) : Prop := sv_ltb w v = true \/ same_version w v.
(** [w] is in the series of [v]: not below [v] and below the next number at the last position *)
Definition in_series (v w : sv) : Prop :=
  exists p x, release v = p ++ [x] /\ at_least v w /\ sv_ltb w (SV (p ++ [(x + 1)%N]) (epoch v) None None None None) = true.
(** not below [v], and below the next number at the last but one position *)
Definition compatible (v w : sv) : Prop :=
  exists p x y, release v = p ++ [x; y] /\ at_least v w /\
    sv_ltb w (SV (p ++ [(x + 1)%N; 0%N]) (epoch v) None None None None) = true.
Definition clause_holds (c : clause) (w : sv) : Prop :=
  let '(o, v) := c in
  match o with
  | Ge => at_least v w
  | Gt => sv_ltb v w = true
  | Le => at_most v w
  | Lt => sv_ltb w v = true
  | Eq => same_version v w
  | Ne => ~ same_version v w
  | Compat => compatible v w
  | EqStar => in_series v w
  | NeStar => ~ in_series v w
  end.

(** a requirement text *)
Definition clauses_text (cs : list clause) : str := join (lit ", ") (map clause_text cs).
(** all clauses in one of the two fragments *)
Definition no_ne (c : clause) : Prop := fst c <> Ne.
Definition no_nestar (c : clause) : Prop := fst c <> NeStar.

(** the printed form is faithful: the upper bound, when it looks like the one of [~=], is that one *)
Definition printable (s : spec) : Prop :=
  match s with
  | AllowAll => True
  | Match (VStd v) _ => wf_sv v /\ plain v
  | Range mn mx i j =>
      wf_interval (mn, mx, i, j) /\ (forall m, mn = Some m -> wf_sv m) /\ (forall m, mx = Some m -> wf_sv m) /\
      (forall m n, mn = Some m -> mx = Some n -> i = true -> j = false -> forall p x y, release m = p ++ [x; y] ->
         release n = p ++ [(x + 1)%N; 0%N] -> n = SV (p ++ [(x + 1)%N; 0%N]) (epoch m) None None None None)
  | _ => False
  end.

