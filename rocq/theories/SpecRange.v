(** Proofs about single version ranges. *)
From Coq Require Import String Ascii List Bool NArith Arith Lia Permutation.
From Verif Require Import Base BaseFacts OrderFacts VersionModel VersionSpec VersionProofs
  SpecifierModel SpecifierSpec.
Import ListNotations.
Open Scope string_scope.
Open Scope nat_scope.
Open Scope list_scope.
Open Scope bool_scope.

(** ** Reduction of finitely many label-free versions to natural numbers *)
Definition nolab (v : sv) : Prop := local_label v = None.
Lemma plain_nolab : forall v, plain v -> nolab v.
Proof. intros v (_ & H & _). exact H. Qed.
Lemma nolab_total : forall a b, nolab a -> nolab b -> sv_ltb a b = false -> sv_ltb b a = false -> sv_eqb a b = true.
Proof.
  intros a b Ha Hb H1 H2. rewrite sv_eqb_key. unfold nolab in *.
  rewrite sv_ltb_key in H1, H2. rewrite Ha, Hb. cbn. rewrite andb_true_r.
  destruct (pub_eqb a b) eqn:E; [reflexivity|].
  rewrite (spo_sym _ _ spo_pub) in H2. rewrite E in H2. rewrite <- E.
  apply total_pub; assumption.
Qed.

Definition rank (L : list sv) (x : sv) : nat := length (filter (fun y => sv_ltb y x) L).
Lemma rank_mono : forall L x y, sv_ltb x y = true -> rank L x <= rank L y.
Proof.
  intros L x y H. unfold rank. induction L as [|z L IH]; [simpl; lia|]. simpl.
  destruct (sv_ltb z x) eqn:E1, (sv_ltb z y) eqn:E2; simpl; try lia.
  rewrite (spo_trans _ _ spo_sv _ _ _ E1 H) in E2. discriminate.
Qed.
Lemma rank_strict : forall L x y, In x L -> sv_ltb x y = true -> rank L x < rank L y.
Proof.
  induction L as [|z L IH]; [contradiction|]. intros x y [->|Hin] H.
  - unfold rank. cbn [filter]. rewrite H.
    rewrite (spo_irr _ _ spo_sv x x (spo_refl _ _ spo_sv x)). simpl.
    pose proof (rank_mono L x y H). unfold rank in *. lia.
  - specialize (IH x y Hin H). unfold rank in *. cbn [filter].
    destruct (sv_ltb z x) eqn:E1, (sv_ltb z y) eqn:E2; simpl; try lia.
    rewrite (spo_trans _ _ spo_sv _ _ _ E1 H) in E2. discriminate.
Qed.
Lemma rank_eq : forall L x y, sv_eqb x y = true -> rank L x = rank L y.
Proof.
  intros L x y H. unfold rank. f_equal. apply filter_ext. intro z.
  apply (spo_right _ _ spo_sv). exact H.
Qed.
Lemma rank_exists : forall L, Forall nolab L -> exists f : sv -> nat,
  forall x y, In x L -> In y L -> sv_ltb x y = (f x <? f y) /\ sv_eqb x y = (f x =? f y).
Proof.
  intros L HL. exists (rank L). intros x y Hx Hy. rewrite Forall_forall in HL.
  destruct (sv_ltb x y) eqn:E1; [|destruct (sv_ltb y x) eqn:E2].
  - pose proof (rank_strict _ _ _ Hx E1).
    assert (sv_eqb x y = false) as ->.
    { destruct (sv_eqb x y) eqn:E; [|reflexivity]. rewrite (spo_irr _ _ spo_sv _ _ E) in E1. discriminate. }
    split; symmetry; [apply Nat.ltb_lt|apply Nat.eqb_neq]; lia.
  - pose proof (rank_strict _ _ _ Hy E2).
    assert (sv_eqb x y = false) as ->.
    { destruct (sv_eqb x y) eqn:E; [|reflexivity]. rewrite (spo_sym _ _ spo_sv) in E.
      rewrite (spo_irr _ _ spo_sv _ _ E) in E2. discriminate. }
    split; symmetry; [apply Nat.ltb_ge|apply Nat.eqb_neq]; lia.
  - pose proof (nolab_total x y (HL _ Hx) (HL _ Hy) E1 E2) as E. rewrite E.
    pose proof (rank_eq L x y E). split; symmetry; [apply Nat.ltb_ge|apply Nat.eqb_eq]; lia.
Qed.

(** replace the order on the versions of [L] by the order of their ranks *)
Ltac inlist := repeat (first [left; reflexivity | right]).
Ltac reranks Hf :=
  repeat match goal with
    | |- context [sv_ltb ?x ?y] => rewrite (proj1 (Hf x y ltac:(inlist) ltac:(inlist)))
    | |- context [sv_eqb ?x ?y] => rewrite (proj2 (Hf x y ltac:(inlist) ltac:(inlist)))
    | H : context [sv_ltb ?x ?y] |- _ => lazymatch H with Hf => fail | _ => rewrite (proj1 (Hf x y ltac:(inlist) ltac:(inlist))) in H end
    | H : context [sv_eqb ?x ?y] |- _ => lazymatch H with Hf => fail | _ => rewrite (proj2 (Hf x y ltac:(inlist) ltac:(inlist))) in H end
    end.
Ltac ranks L :=
  let f := fresh "rk" in let Hf := fresh "Hrk" in
  destruct (rank_exists L) as (f & Hf);
  [ repeat constructor; auto using plain_nolab
  | reranks Hf ].
Ltac bcase :=
  repeat (first
   [ match goal with
     | H : (_ <? _) = true |- _ => apply Nat.ltb_lt in H
     | H : (_ <? _) = false |- _ => apply Nat.ltb_ge in H
     | H : (_ =? _) = true |- _ => apply Nat.eqb_eq in H
     | H : (_ =? _) = false |- _ => apply Nat.eqb_neq in H
     | H : true = true |- _ => clear H
     | H : false = false |- _ => clear H
     | H : true = false |- _ => discriminate H
     | H : false = true |- _ => discriminate H
     end
   | match goal with
     | |- context [?a <? ?b] => destruct (Nat.ltb_spec a b); try (exfalso; lia)
     | |- context [?a =? ?b] => destruct (Nat.eqb_spec a b); try (exfalso; lia)
     end ]; cbn [andb orb negb Bool.eqb]).

(** ** Membership in an interval, as a boolean *)
Definition in_lo (mn : option sv) (i : bool) (v : sv) : bool :=
  match mn with None => true | Some m => sv_ltb m v || (i && sv_eqb m v) end.
Definition in_hi (mx : option sv) (j : bool) (v : sv) : bool :=
  match mx with None => true | Some m => sv_ltb v m || (j && sv_eqb v m) end.
Definition in_rng (r : interval) (v : sv) : bool :=
  let '(mn, mx, i, j) := r in in_lo mn i v && in_hi mx j v.
Lemma in_rng_spec : forall r v, in_rng r v = true <-> inside r v.
Proof.
  intros [[[mn mx] i] j] v. unfold in_rng, inside, in_lo, in_hi. rewrite andb_true_iff.
  assert (A : forall (a b c d : bool) (e : Prop), (d = true <-> e) ->
    ((a || (c && d) = true) <-> (a = true \/ (c = true /\ e)))).
  { intros a b c d e H. rewrite orb_true_iff, andb_true_iff, H. tauto. }
  split; intros [H1 H2]; split.
  - intros m ->. apply (A _ true _ _ _ (sv_eqb_spec m v)). exact H1.
  - intros m ->. apply (A _ true _ _ _ (sv_eqb_spec v m)). exact H2.
  - destruct mn as [m|]; [|reflexivity]. apply (A _ true _ _ _ (sv_eqb_spec m v)). apply H1. reflexivity.
  - destruct mx as [m|]; [|reflexivity]. apply (A _ true _ _ _ (sv_eqb_spec v m)). apply H2. reflexivity.
Qed.
Lemma wf_lo : forall mn mx i j m, wf_interval (mn, mx, i, j) -> mn = Some m -> plain m.
Proof. intros mn mx i j m (_ & _ & _ & H & _) E. auto. Qed.
Lemma wf_hi : forall mn mx i j m, wf_interval (mn, mx, i, j) -> mx = Some m -> plain m.
Proof. intros mn mx i j m (_ & _ & _ & _ & H & _) E. auto. Qed.

Lemma range_allows_in : forall mn mx i j v, wf_interval (mn, mx, i, j) -> candidate v ->
  range_allows mn mx i j (VStd v) = in_rng (mn, mx, i, j) v.
Proof.
  intros mn mx i j v W [Pv Pp]. unfold range_allows, in_rng, in_lo, in_hi.
  cbn [is_post_release version_eqb version_ltb]. rewrite Pp. cbn [is_some is_none negb andb].
  destruct W as (W1 & W2 & W3 & W4 & W5 & W6).
  destruct mn as [m|], mx as [n|].
  - specialize (W4 _ eq_refl). specialize (W5 _ eq_refl). specialize (W6 _ _ eq_refl eq_refl).
    ranks [m; n; v]. destruct i, j; bcase; reflexivity.
  - specialize (W4 _ eq_refl). ranks [m; v]. destruct i; bcase; reflexivity.
  - specialize (W5 _ eq_refl). ranks [n; v]. destruct j; bcase; reflexivity.
  - destruct W1; congruence.
Qed.

(** ** ranges: intersection *)
(** the lower (upper) bound [r] is at least as tight as [a] *)
Definition lo_leb (a r : option sv * bool) : bool :=
  match fst a, fst r with
  | None, _ => true
  | Some _, None => false
  | Some m, Some m' => sv_ltb m m' || (sv_eqb m m' && implb (snd r) (snd a))
  end.
Definition hi_leb (a r : option sv * bool) : bool :=
  match fst a, fst r with
  | None, _ => true
  | Some _, None => false
  | Some m, Some m' => sv_ltb m' m || (sv_eqb m' m && implb (snd r) (snd a))
  end.
Definition lo (r : interval) := let '(mn, _, i, _) := r in (mn, i).
Definition hi (r : interval) := let '(_, mx, _, j) := r in (mx, j).
Definition subb (a r : interval) : bool := lo_leb (lo a) (lo r) && hi_leb (hi a) (hi r).
(** upper bound [h] excludes everything lower bound [l] allows *)
Definition crossb (l h : option sv * bool) : bool :=
  match fst l, fst h with
  | Some m, Some n => sv_ltb n m || (sv_eqb n m && negb (snd l && snd h))
  | _, _ => false
  end.
Definition wfb (r : interval) : bool :=
  let '(mn, mx, i, j) := r in
  (is_some mn || is_some mx) && implb i (is_some mn) && implb j (is_some mx)
  && match mn, mx with Some a, Some b => sv_ltb a b | _, _ => true end.

Definition touched (a b r : interval) : bool :=
  subb a r && subb b r
  && (lo_leb (lo r) (lo a) || lo_leb (lo r) (lo b))
  && (hi_leb (hi r) (hi a) || hi_leb (hi r) (hi b)).
Definition check_inter (a b : interval) (s : spec) : bool :=
  match s with
  | RestrictAll => crossb (lo a) (hi b) || crossb (lo b) (hi a)
  | Range mn mx i j => wfb (mn, mx, i, j) && touched a b (mn, mx, i, j)
  | Match (VStd v) true => touched a b (Some v, Some v, true, true)
  | _ => false
  end.


Lemma range_intersect_check : forall a b, wf_interval a -> wf_interval b ->
  match range_intersect a b with Ok r => check_inter a b r | Err _ => false end = true.
Proof.
  intros [[[mn mx] i] j] [[[mn' mx'] i'] j'] Wa Wb.
  destruct Wa as (A1 & A2 & A3 & A4 & A5 & A6). destruct Wb as (B1 & B2 & B3 & B4 & B5 & B6).
  unfold range_intersect, range_intersect_ordered, range_ltb, create_range, mk_range.
  destruct mn as [p|], mx as [q|], mn' as [p'|], mx' as [q'|];
   try (destruct A1; congruence); try (destruct B1; congruence);
   try specialize (A4 _ eq_refl); try specialize (A5 _ eq_refl); try specialize (A6 _ _ eq_refl eq_refl);
   try specialize (B4 _ eq_refl); try specialize (B5 _ eq_refl); try specialize (B6 _ _ eq_refl eq_refl);
   cbn [opt_sv_eqb opt_eqb is_none is_some negb andb orb].
  all: try (assert (i = false) by (destruct i; [exfalso; apply A2; reflexivity|reflexivity]); subst i).
  all: try (assert (j = false) by (destruct j; [exfalso; apply A3; reflexivity|reflexivity]); subst j).
  all: try (assert (i' = false) by (destruct i'; [exfalso; apply B2; reflexivity|reflexivity]); subst i').
  all: try (assert (j' = false) by (destruct j'; [exfalso; apply B3; reflexivity|reflexivity]); subst j').
  all: clear A1 A2 A3 B1 B2 B3.
  all: match goal with
    | A4 : plain ?p, A5 : plain ?q, B4 : plain ?p', B5 : plain ?q' |- _ => ranks [p; q; p'; q']
    | A4 : plain ?p, A5 : plain ?q, B4 : plain ?p' |- _ => ranks [p; q; p']
    | A4 : plain ?p, A5 : plain ?q |- _ => ranks [p; q]
    end.
  all: repeat match goal with b : bool |- _ => destruct b end; cbn [Bool.eqb andb orb negb]; bcase.
  all: unfold check_inter, touched, subb, wfb, crossb, lo_leb, hi_leb, lo, hi; cbn [fst snd is_some is_none negb implb].
  all: reranks Hrk; bcase; reflexivity.
Qed.

(** the versions of the result are among those of the operands *)
Definition ends (r : interval) : list (option sv) := let '(mn, mx, _, _) := r in [mn; mx].
Definition spec_ends (s : spec) : list (option sv) :=
  match s with
  | Range mn mx _ _ => [mn; mx]
  | Match (VStd v) _ => [Some v]
  | _ => []
  end.
Lemma create_range_ends : forall mn mx i j r, create_range mn mx i j = Ok r ->
  forall o, In o (spec_ends r) -> In o [mn; mx].
Proof.
  intros mn mx i j r H o Ho. unfold create_range, mk_range in H. destruct mn, mx;
  repeat match type of H with
  | context [if ?c then _ else _] => destruct c; try discriminate H
  end;
  injection H as <-; cbn in *; intuition.
Qed.
Lemma range_intersect_ends : forall a b r, range_intersect a b = Ok r ->
  forall o, In o (spec_ends r) -> In o (ends a) \/ In o (ends b).
Proof.
  intros [[[mn mx] i] j] [[[mn' mx'] i'] j'] r H o Ho. unfold range_intersect, range_intersect_ordered in H.
  assert (G : forall m n (k l : bool), create_range m n k l = Ok r ->
     In m [mn; mx; mn'; mx'] -> In n [mn; mx; mn'; mx'] -> In o (ends (mn, mx, i, j)) \/ In o (ends (mn', mx', i', j'))).
  { intros m n k l E Hm Hn. pose proof (create_range_ends _ _ _ _ _ E o Ho) as X. cbn in *.
    destruct X as [X|[X|[]]]; subst o; tauto. }
  repeat match type of H with
  | (if ?c then _ else _) = _ => destruct c
  | create_range _ _ _ _ = _ => eapply G; [exact H| cbn; tauto | cbn; tauto]
  | match ?o with Some _ => _ | None => _ end = _ => destruct o
  | Ok _ = Ok _ => injection H as <-; cbn in *; intuition congruence
  end.
Qed.
