(** C15: with specifier operations that compute on sets, and no requirement shared by two versions, what the resolver
    returns is a solution. *)
From Coq Require Import String Ascii List Bool NArith Arith Lia Sorted.
From Verif Require Import Base PubgrubModel PubgrubSolution PubgrubLaws.
Import ListNotations.
Open Scope nat_scope.
Open Scope list_scope.
Open Scope bool_scope.

Lemma last_of_snoc : forall A (l : list A) x, last_of (l ++ [x]) = Some x.
Proof. intros A l x. unfold last_of. rewrite rev_app_distr. reflexivity. Qed.
Lemma last_of_some : forall A (l : list A) x, last_of l = Some x -> exists l', l = l' ++ [x].
Proof.
  intros A l x H. unfold last_of in H. destruct (rev l) as [|y r] eqn:E; [discriminate|]. injection H as ->. exists (rev r). rewrite <- (rev_involutive l), E. reflexivity.
Qed.
Lemma last_of_none : forall A (l : list A), last_of l = None -> l = [].
Proof. intros A l H. unfold last_of in H. destruct (rev l) eqn:E; [|discriminate]. rewrite <- (rev_involutive l), E. reflexivity. Qed.
Lemma sorted_snoc : forall A (R : A -> A -> Prop) l x, StronglySorted R l -> (forall y, In y l -> R y x) -> StronglySorted R (l ++ [x]).
Proof.
  intros A R l x. induction l as [|y l IH]; intros H1 H2; [cbn; constructor; [constructor|constructor]|]. inversion H1 as [|? ? S1 S2]; subst. cbn. constructor; [apply IH; [exact S1|intros z I; apply H2; right; exact I]|].
  rewrite Forall_forall in *. intros z I. apply in_app_iff in I. destruct I as [I|[<-|[]]]; [exact (S2 z I)|apply H2; left; reflexivity].
Qed.
Lemma sorted_filter : forall A (R : A -> A -> Prop) f l, StronglySorted R l -> StronglySorted R (filter f l).
Proof.
  intros A R f l. induction l as [|y l IH]; intro H; [constructor|]. inversion H as [|? ? S1 S2]; subst. cbn. destruct (f y); [|exact (IH S1)]. constructor; [exact (IH S1)|]. rewrite Forall_forall in *. intros z I. apply filter_In in I. exact (S2 z (proj1 I)).
Qed.
Lemma sorted_last : forall A (R : A -> A -> Prop) l x y, StronglySorted R l -> last_of l = Some x -> In y l -> y = x \/ R y x.
Proof.
  intros A R l x y H L I. apply last_of_some in L. destruct L as (l' & ->). apply in_app_iff in I. destruct I as [I|[<-|[]]]; [|left; reflexivity]. right.
  clear -H I. induction l' as [|z l' IH]; [contradiction|]. cbn in H. inversion H as [|? ? S1 S2]; subst. destruct I as [->|I]; [|exact (IH S1 I)]. rewrite Forall_forall in S2. apply S2. apply in_or_app. right. left. reflexivity.
Qed.
Lemma last_filter : forall A f (l : list A) x, last_of l = Some x -> f x = true -> last_of (filter f l) = Some x.
Proof. intros A f l x L F. apply last_of_some in L. destruct L as (l' & ->). rewrite filter_app2. cbn. rewrite F. apply last_of_snoc. Qed.
Lemma bind_ok : forall A B (r : res A) (k : A -> res B) y, (do x <- r; k x) = Ok y -> exists x, r = Ok x /\ k x = Ok y.
Proof. intros A B r k y H. destruct r as [x|e]; [exists x; auto|discriminate]. Qed.

Section Sound.
Variables S V : Type.
Variable O : ops S V.
Variable P : problem S V.
Variable root : pkg.
Hypothesis law : lawful O.
Notation psol := (psol S). Notation term := (term S). Notation assignment := (assignment S).
Notation allow s w := (o_allows O s w = true).

(** [a] allows [v] and nothing else *)
Definition single (a : S) (v : V) : Prop := forall w, allow a w <-> w = v.
Definition narrower (a b : assignment) : Prop := forall w, allow (a_acc S b) w -> allow (a_acc S a) w.

(** a requirement is enforced at the level of the decision that makes it *)
Definition settled (s : psol) (a : assignment) (t : term) : Prop :=
  exists b, In b (assignments S s (t_pkg t)) /\ a_level S b <= a_level S a /\ forall w, allow (a_acc S b) w -> allow (t_con t) w.
Record dec_ok (s : psol) (p : pkg) (a : assignment) (v : V) (ts : list term) : Prop := {
  d_last : last_of (assignments S s p) = Some a;
  d_term : a_term S a = T p (o_match O v);
  d_single : single (a_acc S a) v;
  d_listed : In v (p_versions P p) \/ p_has P p v = true;
  d_deps : p_deps P p v = Some ts;
  d_req : forall t, In t ts -> exists l, pget (t_pkg t) (s_required S s) = Some l /\ l <= a_level S a }.
(** the partial solution; [ex]: the package whose requirements may not be enforced yet *)
Record inv (s : psol) (ex : option pkg) : Prop := {
  n_levels : levels_ok S s;
  n_root : (s_decisions S s = [] /\ (forall p, In p (map fst (s_required S s)) -> p = root)) \/ (exists a rest, s_decisions S s = (root, a) :: rest);
  n_rootreq : pget root (s_required S s) = Some 0;
  n_sorted : forall p, StronglySorted narrower (assignments S s p);
  n_dec : forall p a, In (p, a) (s_decisions S s) -> exists v ts, dec_ok s p a v ts /\ (ex = Some p \/ forall t, In t ts -> settled s a t) }.

Lemma inv_weaken : forall s ex, inv s None -> inv s ex.
Proof. intros s ex [A B C D E]. constructor; auto. intros p a I. destruct (E p a I) as (v & ts & X & [Y|Y]); [discriminate|]. exists v, ts. auto. Qed.
Lemma pget_filter : forall A (f : pkg * A -> bool) d p v, NoDup (map fst d) -> pget p d = Some v -> f (p, v) = true -> pget p (filter f d) = Some v.
Proof.
  intros A f d p v. induction d as [|[q w] d IH]; intros N G F; [discriminate|]. cbn in N. inversion N as [|? ? N1 N2]; subst. cbn in G. destruct (p =? q)%N eqn:E.
  - injection G as ->. apply N.eqb_eq in E. subst q. cbn. rewrite F. cbn. rewrite N.eqb_refl. reflexivity.
  - cbn. destruct (f (q, w)); [cbn; rewrite E; exact (IH N2 G F)|exact (IH N2 G F)].
Qed.
Lemma pget_filter' : forall A (f : A -> bool) d p v, pget p d = Some v -> f v = true -> pget p (filter (fun e => f (snd e)) d) = Some v.
Proof.
  intros A f d p v. induction d as [|[q w] d IH]; intros G F; [discriminate|]. cbn in G. destruct (p =? q)%N eqn:E.
  - injection G as ->. cbn. rewrite F. cbn. rewrite E. reflexivity.
  - cbn. destruct (f w); [cbn; rewrite E; exact (IH G F)|exact (IH G F)].
Qed.
Lemma inv_backtrack : forall s ex l, inv s ex -> inv (backtrack S s l) ex.
Proof.
  intros s ex l [A B C D E]. constructor.
  - apply back_levels. exact A.
  - destruct B as [[B1 B2]|(a & rest & B)].
    + left. cbn. rewrite B1. split; [reflexivity|]. intros p I. apply B2. apply in_map_iff in I. destruct I as (e & <- & I). apply filter_In in I. apply in_map. apply I.
    + right. pose proof (lv_decisions _ _ A) as LD. rewrite B in LD. cbn in LD. injection LD as L0 _. cbn. rewrite B. cbn. rewrite L0. cbn. eauto.
  - cbn. apply (pget_filter' nat (fun k => k <=? l)); [exact C|reflexivity].
  - intro p. rewrite back_lookup. apply sorted_filter. apply D.
  - intros p a I. cbn in I. apply filter_In in I. destruct I as [I L]. cbn in L. destruct (E p a I) as (v & ts & [d1 d2 d3 d4 d5 d6] & X). exists v, ts. apply Nat.leb_le in L. split.
    + constructor; auto.
      * rewrite back_lookup. apply last_filter; [exact d1|]. apply Nat.leb_le. exact L.
      * intros t It. destruct (d6 t It) as (k & G & K). exists k. split; [|exact K]. cbn. apply (pget_filter' nat (fun k => k <=? l)); [exact G|]. apply Nat.leb_le. lia.
    + destruct X as [X|X]; [left; exact X|right]. intros t It. destruct (X t It) as (b & b1 & b2 & b3). exists b. split; [|split; [exact b2|exact b3]]. rewrite back_lookup. apply filter_In. split; [exact b1|]. apply Nat.leb_le. lia.
Qed.
(** a derived assignment of a package that is not decided *)
Lemma acc_narrower : forall s t c a, (forall p, StronglySorted narrower (assignments S s p)) -> make_assignment S V O root s t c = Ok a ->
  StronglySorted narrower (assignments S s (t_pkg t) ++ [a]) /\ (forall w, allow (a_acc S a) w -> allow (t_con t) w) /\
  (forall w b, last_of (assignments S s (t_pkg t)) = Some b -> (allow (a_acc S a) w <-> allow (a_acc S b) w /\ allow (t_con t) w)) /\
  (assignments S s (t_pkg t) = [] -> a_acc S a = t_con t).
Proof.
  intros s t c a SO H. apply make_assignment_spec in H. destruct H as (ET & EC & EO & EL & EA). unfold accumulated in EA.
  destruct (last_of (assignments S s (t_pkg t))) as [b|] eqn:EB; cbn [option_map] in EA.
  - pose proof (fun w => law_inter O law _ _ _ w EA) as LI. assert (X : forall w, allow (a_acc S a) w <-> allow (a_acc S b) w /\ allow (t_con t) w) by (intro w; rewrite LI, andb_true_iff; tauto).
    split; [|split; [|split]].
    + apply sorted_snoc; [apply SO|]. intros y I w Aw. apply X in Aw. destruct (sorted_last _ narrower _ b y (SO _) EB I) as [->|N]; [apply Aw|apply N; apply Aw].
    + intros w Aw. apply X in Aw. apply Aw.
    + intros w b' E. injection E as <-. apply X.
    + intro E. rewrite E in EB. discriminate.
  - apply last_of_none in EB. rewrite EB. split; [cbn; constructor; [constructor|constructor]|]. rewrite EA. split; [auto|]. split; [discriminate|reflexivity].
Qed.
Lemma settled_mono : forall s s' a t, (forall p b, In b (assignments S s p) -> In b (assignments S s' p)) -> settled s a t -> settled s' a t.
Proof. intros s s' a t H (b & B1 & B2 & B3). exists b. auto. Qed.
Lemma decided_get : forall s ex p a, inv s ex -> In (p, a) (s_decisions S s) -> pget p (s_decisions S s) = Some a.
Proof. intros s ex p a I J. apply pget_nodup; [apply (lv_keys _ _ (n_levels _ _ I))|exact J]. Qed.
Lemma inv_derive : forall s ex t c s', inv s ex -> pget (t_pkg t) (s_decisions S s) = None -> assign_term S V O root s t (Some c) = Ok s' ->
  inv s' ex /\ s_decisions S s' = s_decisions S s /\ s_required S s' = s_required S s /\ level S s' = level S s /\
  (forall p b, In b (assignments S s p) -> In b (assignments S s' p)) /\
  (forall p, p <> t_pkg t -> assignments S s' p = assignments S s p) /\
  exists a, In a (assignments S s' (t_pkg t)) /\ a_level S a = level S s /\ forall w, allow (a_acc S a) w -> allow (t_con t) w.
Proof.
  intros s ex t c s' I ND H. assert (IS := I). destruct IS as [A B C D E]. unfold assign_term in H. apply bind_ok in H. destruct H as (a & HA & H). injection H as <-.
  destruct (acc_narrower s t (Some c) a D HA) as (SN & AC & _). apply make_assignment_spec in HA. destruct HA as (ET & EC & EO & EL & _). cbn [is_none andb] in EL.
  assert (AL : forall p, assignments S (assign S s a) p = if (p =? t_pkg t)%N then assignments S s p ++ [a] else assignments S s p) by (intro p; rewrite assign_lookup, ET; reflexivity).
  assert (DD : s_decisions S (assign S s a) = s_decisions S s) by (cbn; unfold is_decision; rewrite EC; reflexivity).
  assert (MO : forall p b, In b (assignments S s p) -> In b (assignments S (assign S s a) p)).
  { intros p b J. rewrite AL. destruct (p =? t_pkg t)%N; [apply in_or_app; left; exact J|exact J]. }
  split; [constructor|split; [exact DD|split; [reflexivity|split; [unfold level; rewrite DD; reflexivity|split; [exact MO|split]]]]].
  - apply assign_levels; [exact A|congruence|]. intros _. lia.
  - rewrite DD. exact B.
  - exact C.
  - intro p. rewrite AL. destruct (p =? t_pkg t)%N eqn:X; [apply N.eqb_eq in X; subst p; exact SN|apply D].
  - rewrite DD. intros p b J. destruct (E p b J) as (v & ts & [d1 d2 d3 d4 d5 d6] & X). exists v, ts. split.
    + constructor; auto. rewrite AL. destruct (p =? t_pkg t)%N eqn:Y; [|exact d1]. apply N.eqb_eq in Y. subst p. rewrite (decided_get s ex _ _ I J) in ND. discriminate.
    + destruct X as [X|X]; [left; exact X|right]. intros u Iu. apply (settled_mono s); [exact MO|exact (X u Iu)].
  - intros p NE. rewrite AL. apply N.eqb_neq in NE. rewrite NE. reflexivity.
  - exists a. split; [rewrite AL, N.eqb_refl; apply in_or_app; right; left; reflexivity|]. split; [exact EL|exact AC].
Qed.

(** ** checking an incompatibility *)
Lemma find_in_none : forall t l, find_in S V O t None l = Ok None -> forall a, In a l -> o_all O (t_con t) (a_acc S a) = Ok false.
Proof.
  intros t l. induction l as [|b l IH]; intros H a I; [contradiction|]. cbn in H. apply bind_ok in H. destruct H as (ok & E & H). destruct ok; [discriminate|]. destruct I as [->|I]; [exact E|exact (IH H a I)].
Qed.
Lemma satisfier_none : forall s t, find_satisfier S V O s t None = Ok None -> forall b, last_of (assignments S s (t_pkg t)) = Some b -> o_all O (t_con t) (a_acc S b) = Ok false.
Proof.
  intros s t H b L. unfold find_satisfier, accumulated in H. rewrite L in H. cbn [option_map] in H. apply bind_ok in H. destruct H as (ok & E & H). destruct ok; [|exact E].
  apply (find_in_none t _ H). apply last_of_some in L. destruct L as (l' & ->). apply in_or_app. right. left. reflexivity.
Qed.
Lemma check_terms_almost : forall s i ts open sats t, check_terms S V O s i ts open sats = Ok (Almost S t) ->
  open = Some t \/ (In t ts /\ find_satisfier S V O s t None = Ok None /\ forall b, last_of (assignments S s (t_pkg t)) = Some b -> o_any O (a_acc S b) (t_con t) = Ok true).
Proof.
  intros s i ts. induction ts as [|u ts IH]; intros open sats t H; cbn in H.
  - destruct open as [x|]; [injection H as ->; left; reflexivity|]. destruct sats; [discriminate|]. unfold create_full in H. cbn in H. apply bind_ok in H. destruct H as (r & _ & H). discriminate.
  - apply bind_ok in H. destruct H as (f & F & H). destruct f as [a|].
    + destruct (IH _ _ _ H) as [X|(X & Y)]; [left; exact X|right; split; [right; exact X|exact Y]].
    + apply bind_ok in H. destruct H as (imp & EI & H). destruct imp; [discriminate|]. destruct open as [x|]; [discriminate|]. destruct (IH _ _ _ H) as [X|(X & Y)]; [|right; split; [right; exact X|exact Y]].
      injection X as ->. right. split; [left; reflexivity|]. split; [exact F|]. intros b L. unfold accumulated in EI. rewrite L in EI. cbn [option_map] in EI. apply bind_ok in EI. destruct EI as (any & EA & EI). injection EI as EI. apply negb_false_iff in EI. subst any. exact EA.
Qed.
Lemma check_almost : forall s i t, check_satisfaction S V O s i = Ok (Almost S t) ->
  In t (i_terms S i) /\ find_satisfier S V O s t None = Ok None /\ forall b, last_of (assignments S s (t_pkg t)) = Some b -> o_any O (a_acc S b) (t_con t) = Ok true.
Proof.
  intros s i t H. assert (G : check_plain S V O s i = Ok (Almost S t)).
  { unfold check_satisfaction in H. destruct (i_dep S i) as [[dt dd]|]; [|exact H]. destruct (accumulated S s (t_pkg dt)) as [acc|]; [|discriminate]. apply bind_ok in H. destruct H as (any & _ & H). destruct any; [exact H|]. destruct (o_is_nothing O acc); [discriminate|]. apply bind_ok in H. destruct H as (all & _ & H). destruct all; [exact H|discriminate]. }
  unfold check_plain in G. destruct (some_impossible S V O s (i_terms S i)); [discriminate|]. apply check_terms_almost in G. destruct G as [G|G]; [discriminate|exact G].
Qed.
(** the open term of an almost satisfied incompatibility is about a package that is not decided *)
Lemma almost_undecided : forall s ex i t, inv s ex -> check_satisfaction S V O s i = Ok (Almost S t) -> pget (t_pkg t) (s_decisions S s) = None.
Proof.
  intros s ex i t I H. destruct (pget (t_pkg t) (s_decisions S s)) as [a|] eqn:G; [|reflexivity]. exfalso. apply pget_in in G. destruct (n_dec _ _ I _ _ G) as (v & ts & D & _).
  apply check_almost in H. destruct H as (_ & F & AN). pose proof (satisfier_none _ _ F _ (d_last _ _ _ _ _ D)) as X. specialize (AN _ (d_last _ _ _ _ _ D)).
  apply (law_any O law) in AN. destruct AN as [AN _]. destruct (AN eq_refl) as (w & W1 & W2). apply (d_single _ _ _ _ _ D) in W1. subst w.
  apply (law_all O law) in X; [|exists v; apply (d_single _ _ _ _ _ D); reflexivity]. assert (false = true); [|discriminate]. apply X. intros w W. apply (d_single _ _ _ _ _ D) in W. subst w. exact W2.
Qed.

(** [i] says: [v] of [p] needs [c] of [D] *)
Definition dep_like (i : incompat S) (p : pkg) (v : V) (d : pkg) (c : S) : Prop :=
  (forall dt dd, i_dep S i = Some (dt, dd) -> In dt (i_terms S i)) /\
  exists tp td, (i_terms S i = [tp; td] \/ i_terms S i = [td; tp]) /\ t_pkg tp = p /\ allow (t_con tp) v /\ t_pkg td = d /\ forall w, o_allows O (t_con td) w = negb (o_allows O c w).
Lemma check_dep : forall s i p v d c ap r, dep_like i p v d c -> last_of (assignments S s p) = Some ap -> single (a_acc S ap) v -> check_satisfaction S V O s i = Ok r ->
  match r with
  | Unsat _ => assignments S s d = [] \/ exists b, last_of (assignments S s d) = Some b /\ forall w, allow (a_acc S b) w -> allow c w
  | Almost _ t => t_pkg t = d /\ forall w, o_allows O (t_con t) w = negb (o_allows O c w)
  | Full _ _ _ => True
  end.
Proof.
  intros s i p v d c ap r (HD & tp & td & HT & Hp & Hv & Hd & Hc) LP SG H.
  assert (AP : accumulated S s p = Some (a_acc S ap)) by (unfold accumulated; rewrite LP; reflexivity).
  assert (SAT : find_satisfier S V O s tp None <> Ok None).
  { intro X. rewrite <- Hp in LP. pose proof (satisfier_none _ _ X _ LP) as Y. apply (law_all O law) in Y; [|exists v; apply SG; reflexivity]. assert (false = true); [|discriminate]. apply Y. intros w W. apply SG in W. subst w. exact Hv. }
  assert (INC : forall b, (exists r, o_any O (a_acc S b) (t_con td) = Ok r /\ r = false) -> forall w, allow (a_acc S b) w -> allow c w).
  { intros b (r' & E & ->) w W. apply (law_any O law) in E. destruct (o_allows O c w) eqn:X; [reflexivity|]. exfalso. assert (false = true); [|discriminate]. apply E. exists w. split; [exact W|]. rewrite Hc, X. reflexivity. }
  assert (PLAIN : check_plain S V O s i = Ok r ->
    match r with
    | Unsat _ => assignments S s d = [] \/ exists b, last_of (assignments S s d) = Some b /\ forall w, allow (a_acc S b) w -> allow c w
    | Almost _ t => t_pkg t = d /\ forall w, o_allows O (t_con t) w = negb (o_allows O c w)
    | Full _ _ _ => True end).
  { clear H. intro H. unfold check_plain in H. destruct (some_impossible S V O s (i_terms S i)) eqn:EI.
    - injection H as <-. unfold some_impossible in EI. apply existsb_exists in EI. destruct EI as (t & It & EN).
      assert (CS : t = tp \/ t = td) by (destruct HT as [HT|HT]; rewrite HT in It; cbn in It; destruct It as [X|[X|[]]]; auto). destruct CS as [->| ->].
      + rewrite Hp, AP in EN. pose proof (law_nothing O law _ v EN) as X. assert (Y : allow (a_acc S ap) v) by (apply SG; reflexivity). congruence.
      + rewrite Hd in EN. unfold accumulated in EN. destruct (last_of (assignments S s d)) as [b|] eqn:LB; [|discriminate]. cbn in EN. right. exists b. split; [reflexivity|]. intros w W. pose proof (law_nothing O law _ w EN). congruence.
    - destruct r as [|t|x y]; [|split|exact Logic.I].
      + (* one of the terms is contradicted: it must be the one on d *)
        assert (G : exists b, last_of (assignments S s d) = Some b /\ o_any O (a_acc S b) (t_con td) = Ok false).
        { assert (TD : forall open sats rest, check_terms S V O s i (td :: rest) open sats = Ok (Unsat S) -> (open <> None -> False) ->
            (forall open sats, (open = None \/ open = Some td) -> check_terms S V O s i rest open sats = Ok (Unsat S) -> False) -> exists b, last_of (assignments S s d) = Some b /\ o_any O (a_acc S b) (t_con td) = Ok false).
          { intros open sats rest X NO R. destruct open as [z|]; [exfalso; apply NO; discriminate|]. cbn in X. apply bind_ok in X. destruct X as (f & F & X). destruct f as [a|]; [exfalso; exact (R _ _ (or_introl eq_refl) X)|].
            apply bind_ok in X. destruct X as (imp & EM & X). destruct imp; [|exfalso; exact (R _ _ (or_intror eq_refl) X)]. unfold accumulated in EM. rewrite Hd in EM. destruct (last_of (assignments S s d)) as [b|] eqn:LB; [|discriminate]. cbn [option_map] in EM.
            apply bind_ok in EM. destruct EM as (any & EA & EM). injection EM as EM. apply negb_true_iff in EM. subst any. exists b. split; [reflexivity|exact EA]. }
          assert (NIL : forall open sats, (open = None \/ open = Some td) -> check_terms S V O s i [] open sats = Ok (Unsat S) -> False).
          { intros open sats _ X. cbn in X. destruct open; [discriminate|]. destruct sats; [discriminate|]. unfold create_full in X. cbn in X. apply bind_ok in X. destruct X as (q & _ & X). discriminate. }
          destruct HT as [HT|HT]; rewrite HT in H.
          - cbn [check_terms] in H. apply bind_ok in H. destruct H as (f & F & H). destruct f as [a|]; [|exfalso; exact (SAT F)]. change (check_terms S V O s i [td] None ([] ++ [a]) = Ok (Unsat S)) in H. apply (TD _ _ _ H); [auto|exact NIL].
          - apply (TD _ _ _ H); [auto|]. intros open sats OP X. cbn [check_terms] in X. apply bind_ok in X. destruct X as (f & F & X). destruct f as [a|]; [|exact (SAT F)]. exact (NIL open _ OP X). }
        destruct G as (b & LB & EA). right. exists b. split; [exact LB|]. apply INC. exists false. auto.
      + apply check_terms_almost in H. destruct H as [H|(It & F & _)]; [discriminate|]. assert (CS : t = tp \/ t = td) by (destruct HT as [HT|HT]; rewrite HT in It; cbn in It; destruct It as [X|[X|[]]]; auto). destruct CS as [->| ->]; [exfalso; exact (SAT F)|exact Hd].
      + apply check_terms_almost in H. destruct H as [H|(It & F & _)]; [discriminate|]. assert (CS : t = tp \/ t = td) by (destruct HT as [HT|HT]; rewrite HT in It; cbn in It; destruct It as [X|[X|[]]]; auto). destruct CS as [->| ->]; [exfalso; exact (SAT F)|exact Hc]. }
  unfold check_satisfaction in H. destruct (i_dep S i) as [[dt dd]|] eqn:ED; [|exact (PLAIN H)].
  specialize (HD dt dd eq_refl). assert (CS : dt = tp \/ dt = td) by (destruct HT as [HT|HT]; rewrite HT in HD; cbn in HD; destruct HD as [X|[X|[]]]; auto).
  destruct (accumulated S s (t_pkg dt)) as [acc|] eqn:EA.
  - apply bind_ok in H. destruct H as (any & AN & H). destruct any; [exact (PLAIN H)|]. destruct CS as [->| ->].
    + rewrite Hp, AP in EA. injection EA as <-. exfalso. apply (law_any O law) in AN. assert (false = true); [|discriminate]. apply AN. exists v. split; [apply SG; reflexivity|exact Hv].
    + rewrite Hd in EA. unfold accumulated in EA. destruct (last_of (assignments S s d)) as [b|] eqn:LB; [|discriminate]. cbn in EA. injection EA as <-.
      assert (X : forall w, allow (a_acc S b) w -> allow c w) by (apply INC; exists false; auto).
      destruct (o_is_nothing O (a_acc S b)); [injection H as <-; right; exists b; auto|]. apply bind_ok in H. destruct H as (all & _ & H). destruct all; [exact (PLAIN H)|]. injection H as <-. right. exists b. auto.
  - injection H as <-. destruct CS as [->| ->]; [rewrite Hp in EA; congruence|]. left. rewrite Hd in EA. unfold accumulated in EA. destruct (last_of (assignments S s d)) eqn:LB; [discriminate|]. apply last_of_none. exact LB.
Qed.

(** ** the same partial solutions are checked alike *)
Lemma same_find : forall a b t n, same S a b -> find_satisfier S V O a t n = find_satisfier S V O b t n.
Proof. intros a b t n H. unfold find_satisfier. rewrite (same_accumulated S a b _ H). destruct H as (_ & B & _). rewrite B. reflexivity. Qed.
Lemma same_more : forall a b st ts acc, same S a b -> more_satisfiers S V O a st ts acc = more_satisfiers S V O b st ts acc.
Proof.
  intros a b st ts. induction ts as [|t ts IH]; intros acc H; [reflexivity|]. cbn [more_satisfiers]. pose proof H as (_ & _ & RQ & DC). unfold requiring_decision. rewrite RQ, DC, (same_find a b t (Some st) H).
  match goal with |- (do acc0 <- ?r; _) = _ => destruct r as [z|]; [|reflexivity] end. cbn [bind].
  match goal with |- (do acc0 <- ?r; _) = _ => destruct r as [z'|]; [|reflexivity] end. cbn [bind]. apply IH. exact H.
Qed.
Lemma same_check : forall a b i, same S a b -> check_satisfaction S V O a i = check_satisfaction S V O b i.
Proof.
  intros a b i H. assert (CT : forall ts open sats, check_terms S V O a i ts open sats = check_terms S V O b i ts open sats).
  { intro ts. induction ts as [|t ts IH]; intros open sats; cbn [check_terms].
    - destruct open; [reflexivity|]. unfold create_full. destruct sats as [|x r]; [reflexivity|]. rewrite (same_more a b _ _ _ H). reflexivity.
    - rewrite (same_find a b t None H), (same_accumulated S a b _ H). destruct (find_satisfier S V O b t None) as [[y|]|]; cbn [bind]; [apply IH| |reflexivity].
      match goal with |- (do z <- ?r; _) = _ => destruct r as [z'|]; [|reflexivity] end. cbn [bind]. destruct z'; [reflexivity|]. destruct open; [reflexivity|apply IH]. }
  assert (CP : check_plain S V O a i = check_plain S V O b i).
  { unfold check_plain. rewrite CT. assert (E : some_impossible S V O a (i_terms S i) = some_impossible S V O b (i_terms S i)).
    { unfold some_impossible. induction (i_terms S i) as [|t ts IH]; [reflexivity|]. cbn. rewrite (same_accumulated S a b _ H), IH. reflexivity. }
    rewrite E. reflexivity. }
  unfold check_satisfaction. destruct (i_dep S i) as [[dt dd]|]; [|exact CP]. rewrite (same_accumulated S a b _ H), CP. reflexivity.
Qed.

(** ** conflicts *)
Notation state := (state S V).
Definition heap_ok (x : state) : Prop := forall i, In i (x_heap S V x) -> forall dt dd, i_dep S i = Some (dt, dd) -> In dt (i_terms S i).
Lemma inc_heap_ok : forall x n dt dd, heap_ok x -> i_dep S (inc S V x n) = Some (dt, dd) -> In dt (i_terms S (inc S V x n)).
Proof.
  intros x n dt dd H E. unfold inc in *. destruct (nth_in_or_default n (x_heap S V x) (I S [] None false)) as [X|X]; [exact (H _ X dt dd E)|]. rewrite X in E. discriminate.
Qed.
Lemma add_plain : forall x n, i_dep S (inc S V x n) = None -> x_sol S V (add_incompatibility S V O x n) = x_sol S V x /\ x_heap S V (add_incompatibility S V O x n) = x_heap S V x /\ x_versions S V (add_incompatibility S V O x n) = x_versions S V x.
Proof. intros x n H. unfold add_incompatibility. rewrite H. cbn. auto. Qed.
Lemma resolve_spec : forall fuel x n orig a p x' q ex, inv (x_sol S V x) ex -> (n = orig \/ i_dep S (inc S V x n) = None) ->
  (is_tautology S root (inc S V x n) = true \/ check_satisfaction S V O (x_sol S V x) (inc S V x n) = Ok (Full S a p)) ->
  resolve_conflict S V O root fuel x n orig a p = Ok (x', q) ->
  inv (x_sol S V x') ex /\ (forall r b, In (r, b) (s_decisions S (x_sol S V x')) -> In (r, b) (s_decisions S (x_sol S V x)) /\ a_level S b < level S (x_sol S V x)) /\
  x_versions S V x' = x_versions S V x /\ (heap_ok x -> heap_ok x').
Proof.
  intros fuel. induction fuel as [|fuel IH]; intros x n orig a p x' q ex IV NO SAT H; [discriminate|]. cbn [resolve_conflict] in H.
  destruct (is_tautology S root (inc S V x n)) eqn:ET; [discriminate|]. destruct SAT as [SAT|SAT]; [discriminate|].
  set (x0 := add_trouble S V x (i_terms S (inc S V x n))) in *.
  assert (I0 : inc S V x0 n = inc S V x n) by reflexivity. assert (S0 : x_sol S V x0 = x_sol S V x) by reflexivity.
  destruct (is_decision S a || (match p with Some b => a_level S b | None => 0 end <? a_level S a)) eqn:EB.
  - set (l := match p with Some b => a_level S b | None => 0 end) in *.
    set (x1 := with_sol S V x0 (backtrack S (x_sol S V x0) l)) in *.
    assert (X2 : exists x2, (if n =? orig then x1 else add_incompatibility S V O x1 n) = x2 /\ x_sol S V x2 = x_sol S V x1 /\ x_heap S V x2 = x_heap S V x1 /\ x_versions S V x2 = x_versions S V x1).
    { destruct (n =? orig) eqn:EN; [exists x1; auto|]. apply Nat.eqb_neq in EN. destruct NO as [NO|NO]; [congruence|]. eexists. split; [reflexivity|]. apply add_plain. exact NO. }
    destruct X2 as (x2 & E2 & SX & HX & VX). rewrite E2 in H. clear E2.
    assert (IX : inc S V x2 n = inc S V x n) by (unfold inc; rewrite HX; reflexivity). rewrite IX, SX in H.
    apply bind_ok in H. destruct H as (sat & CK & H). destruct sat as [|t|]; try discriminate. apply bind_ok in H. destruct H as (nt & EN & H). apply bind_ok in H. destruct H as (s' & ES & H). injection H as <- <-.
    change (x_sol S V x1) with (backtrack S (x_sol S V x) l) in CK, ES. unfold negate in EN. apply bind_ok in EN. destruct EN as (c & EC & EN). injection EN as <-.
    assert (LT : l < level S (x_sol S V x)).
    { destruct (le_lt_dec (level S (x_sol S V x)) l) as [C|C]; [|exact C]. exfalso. rewrite (same_check _ _ _ (back_id S _ l (n_levels _ _ IV) C)) in CK. congruence. }
    pose proof (inv_backtrack _ _ l IV) as IB. pose proof (almost_undecided _ _ _ _ IB CK) as ND.
    destruct (inv_derive _ _ (T (t_pkg t) c) n s' IB ND ES) as (IV' & DD & _). split; [exact IV'|]. split; [|split; [exact VX|]].
    + intros r b J. cbn in J. rewrite DD in J. cbn in J. apply filter_In in J. destruct J as [J1 J2]. split; [exact J1|]. apply Nat.leb_le in J2. cbn in J2. lia.
    + intros HO i J. cbn in J. rewrite HX in J. apply (HO i J).
  - destruct (term_for S (inc S V x n) (t_pkg (a_term S a))) as [t|] eqn:ETF; [|discriminate]. destruct (a_cause S a) as [c|] eqn:EC; [|discriminate].
    destruct (terms_eqb S V O (inc S V x0 c) (inc S V x n)); [discriminate|]. apply bind_ok in H. destruct H as (ins & _ & H). apply bind_ok in H. destruct H as (prior & _ & H). apply bind_ok in H. destruct H as (ts & _ & H).
    cbn [new_inc] in H. set (x1 := with_heap S V x0 (x_heap S V x0 ++ [I S ts None false])) in *. set (m := length (x_heap S V x0)) in *.
    assert (IM : inc S V x1 m = I S ts None false) by (unfold inc; cbn; rewrite app_nth2 by (unfold m; cbn; lia); unfold m; cbn; rewrite Nat.sub_diag; reflexivity).
    assert (HO : heap_ok x -> heap_ok x1).
    { intros HO i J. cbn in J. apply in_app_iff in J. destruct J as [J|[<-|[]]]; [exact (HO i J)|discriminate]. }
    assert (STEP : forall a' p', (is_tautology S root (inc S V x1 m) = true \/ check_satisfaction S V O (x_sol S V x1) (inc S V x1 m) = Ok (Full S a' p')) -> resolve_conflict S V O root fuel x1 m orig a' p' = Ok (x', q) ->
      inv (x_sol S V x') ex /\ (forall r b, In (r, b) (s_decisions S (x_sol S V x')) -> In (r, b) (s_decisions S (x_sol S V x)) /\ a_level S b < level S (x_sol S V x)) /\ x_versions S V x' = x_versions S V x /\ (heap_ok x -> heap_ok x')).
    { intros a' p' C R. destruct (IH x1 m orig a' p' x' q ex IV ltac:(right; rewrite IM; reflexivity) C R) as (A & B & C' & D). split; [exact A|]. split; [exact B|]. split; [exact C'|]. intro X. apply D, HO, X. }
    destruct (is_tautology S root (inc S V x1 m)) eqn:ET2; [apply (STEP a p); [left; reflexivity|exact H]|].
    apply bind_ok in H. destruct H as (sat & CK & H). destruct sat as [| |a' p']; try discriminate. apply (STEP a' p'); [right; exact CK|exact H].
Qed.

(** ** propagation *)
(** the requirements of the last decision, [q], that are not enforced yet will be *)
Definition pend (x : state) (todo : list nat) (changed : list pkg) (q : pkg) : Prop :=
  forall a, In (q, a) (s_decisions S (x_sol S V x)) -> a_level S a = level S (x_sol S V x) /\ exists v ts, dec_ok (x_sol S V x) q a v ts /\
    forall t, In t ts -> (exists m, In m (plist (t_pkg t) (x_incs S V x)) /\ dep_like (inc S V x m) q v (t_pkg t) (t_con t)) /\
      (settled (x_sol S V x) a t \/ (exists m, In m todo /\ dep_like (inc S V x m) q v (t_pkg t) (t_con t)) \/
       (In q changed /\ exists m, In m (plist q (x_incs S V x)) /\ dep_like (inc S V x m) q v (t_pkg t) (t_con t)) \/
       assignments S (x_sol S V x) (t_pkg t) = [] \/ In (t_pkg t) changed).
Lemma add_changed_in : forall p q l, In p (add_changed q l) <-> p = q \/ In p l.
Proof.
  intros p q l. unfold add_changed. destruct (existsb (N.eqb q) l) eqn:E.
  - apply existsb_exists in E. destruct E as (z & I & E). apply N.eqb_eq in E. subst z. split; [auto|intros [->|X]; auto].
  - rewrite in_app_iff. cbn. split; [intros [X|[X|[]]]; auto|intros [X|X]; auto].
Qed.
Lemma process_spec : forall fuel todo x changed x' changed' q, inv (x_sol S V x) (Some q) -> heap_ok x -> pend x todo changed q ->
  process S V O root fuel todo x changed = Ok (x', changed') ->
  inv (x_sol S V x') (Some q) /\ heap_ok x' /\ pend x' [] changed' q /\ x_versions S V x' = x_versions S V x.
Proof.
  intros fuel todo. induction todo as [|n todo IH]; intros x changed x' changed' q IV HO PE H; cbn [process] in H.
  - injection H as <- <-. auto.
  - apply bind_ok in H. destruct H as (sat & CK & H).
    assert (LEV : forall a b, In (q, a) (s_decisions S (x_sol S V x)) -> forall p, In b (assignments S (x_sol S V x) p) -> a_level S b <= a_level S a).
    { intros a b J p K. destruct (PE a J) as [L _]. rewrite L. exact (lv_pkgs _ _ (n_levels _ _ IV) p b K). }
    destruct sat as [|t|a p].
    + apply (IH x changed x' changed' q IV HO); [|exact H]. intros b J. destruct (PE b J) as (L & v & ts & D & PR). split; [exact L|]. exists v, ts. split; [exact D|]. intros t It. destruct (PR t It) as [P1 P2]. split; [exact P1|].
      destruct P2 as [P2|[(m & [<-|M] & DL)|[P2|P2]]]; [auto| |right; left; exists m; auto|auto|auto].
      destruct (check_dep _ _ _ _ _ _ _ _ DL (d_last _ _ _ _ _ D) (d_single _ _ _ _ _ D) CK) as [X|(c & LC & X)]; [auto|]. left. exists c. assert (IC : In c (assignments S (x_sol S V x) (t_pkg t))) by (apply last_of_some in LC; destruct LC as (l' & ->); apply in_or_app; right; left; reflexivity).
      split; [exact IC|]. split; [exact (LEV b c J _ IC)|exact X].
    + apply bind_ok in H. destruct H as (nt & EN & H). apply bind_ok in H. destruct H as (s' & ES & H). unfold negate in EN. apply bind_ok in EN. destruct EN as (c & EC & EN). injection EN as <-.
      pose proof (almost_undecided _ _ _ _ IV CK) as ND. destruct (inv_derive _ _ (T (t_pkg t) c) n s' IV ND ES) as (IV' & DD & RQ & LV & MO & OT & a & IA & LA & SA).
      apply (IH (with_sol S V x s') (add_changed (t_pkg t) changed) x' changed' q IV'); [exact HO| |exact H].
      intros b J. change (x_sol S V (with_sol S V x s')) with s' in *. rewrite DD in J. destruct (PE b J) as (L & v & ts & D & PR). split; [rewrite LV; exact L|]. exists v, ts.
      assert (NQ : q <> t_pkg t). { intro E. rewrite <- E, (decided_get _ _ _ _ IV J) in ND. discriminate. }
      split; [destruct D as [d1 d2 d3 d4 d5 d6]; constructor; auto; [rewrite (OT q NQ); exact d1|rewrite RQ; exact d6]|].
      intros u Iu. destruct (PR u Iu) as [P1 P2]. split; [exact P1|]. destruct P2 as [P2|[(m & [<-|M] & DL)|[[P2 P3]|[P2|P2]]]].
      * left. exact (settled_mono _ _ _ _ MO P2).
      * left. destruct (check_dep _ _ _ _ _ _ _ _ DL (d_last _ _ _ _ _ D) (d_single _ _ _ _ _ D) CK) as [X1 X2]. exists a. cbn [t_pkg] in IA. rewrite <- X1. split; [exact IA|]. split; [rewrite LA, L; apply le_n|]. intros w W. specialize (SA w W). cbn [t_con] in SA.
        rewrite (law_inverse O law _ _ w EC), X2, negb_involutive in SA. exact SA.
      * right. left. exists m. auto.
      * right. right. left. split; [apply add_changed_in; right; exact P2|exact P3].
      * destruct (N.eq_dec (t_pkg u) (t_pkg t)) as [E|NE]; [right; right; right; right; apply add_changed_in; left; exact E|]. right. right. right. left. rewrite (OT _ NE). exact P2.
      * right. right. right. right. apply add_changed_in. right. exact P2.
    + apply bind_ok in H. destruct H as ([x1 r] & RC & H). cbn [fst snd] in H. destruct (resolve_spec _ _ _ _ _ _ _ _ _ IV (or_introl eq_refl) (or_intror CK) RC) as (IV' & DD & VV & HO').
      destruct (IH x1 (add_changed r changed) x' changed' q IV' (HO' HO)) as (A & B & C & D); [|exact H|].
      * intros b J. exfalso. destruct (DD q b J) as [J1 J2]. destruct (PE b J1) as [L _]. lia.
      * split; [exact A|]. split; [exact B|]. split; [exact C|]. rewrite D. exact VV.
Qed.
Lemma remove_nth_in : forall (l : list pkg) j p d, In p l -> nth j l d = p \/ In p (remove_nth j l).
Proof.
  intros l. induction l as [|y l IH]; intros j p d I; [contradiction|]. destruct j as [|j]; cbn.
  - destruct I as [->|I]; auto.
  - destruct I as [->|I]; [right; left; reflexivity|]. destruct (IH j p d I) as [X|X]; auto.
Qed.
Lemma propagate_spec : forall pick fuel x changed x' q, inv (x_sol S V x) (Some q) -> heap_ok x -> pend x [] changed q ->
  propagate S V O root pick fuel x changed = Ok x' -> inv (x_sol S V x') (Some q) /\ heap_ok x' /\ pend x' [] [] q /\ x_versions S V x' = x_versions S V x.
Proof.
  intros pick fuel. induction fuel as [|fuel IH]; intros x changed x' q IV HO PE H; destruct changed as [|c r]; cbn [propagate] in H; try (injection H as <-; auto); try discriminate.
  set (ch := c :: r) in *. set (j := pick ch mod length ch) in *. apply bind_ok in H. destruct H as ([x1 ch1] & PR & H). cbn [fst snd] in H.
  assert (PE' : pend x (rev (plist (nth j ch c) (x_incs S V x))) (remove_nth j ch) q).
  { intros b J. destruct (PE b J) as (L & v & ts & D & PD). split; [exact L|]. exists v, ts. split; [exact D|]. intros t It. destruct (PD t It) as [P1 P2]. split; [exact P1|].
    destruct P2 as [P2|[(m & [] & _)|[[P2 P3]|[P2|P2]]]]; [auto| | auto |].
    + destruct (remove_nth_in ch j q c P2) as [X|X]; [|right; right; left; auto]. right. left. destruct P3 as (m & M & DL). exists m. split; [|exact DL]. apply -> in_rev. rewrite X. exact M.
    + destruct (remove_nth_in ch j (t_pkg t) c P2) as [X|X]; [|auto 6]. right. left. destruct P1 as (m & M & DL). exists m. split; [|exact DL]. apply -> in_rev. rewrite X. exact M. }
  destruct (process_spec _ _ _ _ _ _ q IV HO PE' PR) as (A & B & C & D).
  destruct (IH x1 ch1 x' q A B C H) as (A' & B' & C' & D'). split; [exact A'|]. split; [exact B'|]. split; [exact C'|]. rewrite D'. exact D.
Qed.
(** when all required packages have an assignment, all requirements are enforced *)
Lemma all_enforced : forall x q, inv (x_sol S V x) (Some q) -> pend x [] [] q -> (forall p, In p (map fst (s_required S (x_sol S V x))) -> assignments S (x_sol S V x) p <> []) -> inv (x_sol S V x) None.
Proof.
  intros x q [A B C D E] PE AS. constructor; auto. intros p a J. destruct (E p a J) as (v & ts & DO & [X|X]); [|exists v, ts; auto]. injection X as <-. destruct (PE a J) as (L & v' & ts' & DO' & PR). exists v', ts'. split; [exact DO'|]. right.
  intros t It. destruct (PR t It) as [_ [P2|[(m & [] & _)|[[[] _]|[P2|[]]]]]]; [exact P2|]. exfalso. apply (AS (t_pkg t)); [|exact P2]. destruct (d_req _ _ _ _ _ DO' t It) as (l & G & _). apply pget_in in G. apply in_map_iff. exists (t_pkg t, l). auto.
Qed.

(** ** the table of versions *)
Hypothesis tidy_problem : tidy P.
Hypothesis unshared_problem : unshared O P.
Notation pversion := (pversion S V).
Definition built (p : pkg) : res (list pversion) := build_versions S V O (p_versions P p) 0 (sort_positions S V O (p_versions P p)).
Definition dep_view (l : list (pkg * (S * option nat))) : list (pkg * S) := map (fun e => (fst e, fst (snd e))) l.
Definition term_view (ts : list term) : list (pkg * S) := map (fun t => (t_pkg t, t_con t)) ts.
Definition deps_known (p : pkg) (v : pversion) : Prop :=
  v_deps S V v = None \/ exists ts l, p_deps P p (v_version S V v) = Some ts /\ v_deps S V v = Some l /\ dep_view l = term_view ts.
Definition related (p : pkg) (a b : pversion) : Prop :=
  v_version S V a = v_version S V b /\ v_range S V a = v_range S V b /\ v_next S V a = v_next S V b /\ deps_known p b.
Definition table_ok (vs : list (pkg * list pversion)) : Prop :=
  forall p k pv, nth_error (plist p vs) k = Some pv -> exists l0 pv0, built p = Ok l0 /\ nth_error l0 k = Some pv0 /\ related p pv0 pv.

Lemma built_facts : forall p l0, built p = Ok l0 ->
  map (v_version S V) l0 = p_versions P p /\ (forall j pv, nth_error l0 j = Some pv -> allow (v_range S V pv) (v_version S V pv) /\ v_deps S V pv = None) /\
  (forall j pv k, nth_error l0 j = Some pv -> v_next S V pv = Some k -> k <> j).
Proof.
  intros p l0 H. destruct tidy_problem as [ND _].
  assert (TR : forall u v w : V, In u (p_versions P p) -> In v (p_versions P p) -> In w (p_versions P p) -> o_vlt O u v = true -> o_vlt O v w = true -> o_vlt O u w = true) by (intros u v w _ _ _; apply (law_lt_trans O law)).
  assert (TT : forall i j v w, nth_error (p_versions P p) i = Some v -> nth_error (p_versions P p) j = Some w -> o_vlt O v w = false -> o_vlt O w v = false -> i = j).
  { intros i j v w Hi Hj A B. pose proof (law_total O law _ _ A B) as E. subst w. apply (proj1 (NoDup_nth_error (p_versions P p)) (ND p)); [apply nth_error_Some; congruence|congruence]. }
  destruct (windows_partition S V O (p_versions P p)) with (K := fun _ : V => True) (out := l0) as (A & B & _).
  - intros v w _ _. apply (law_lt O law).
  - exact TR.
  - exact TT.
  - auto.
  - intros v w _ _. apply (law_lt O law).
  - intros u v w _ _ _. apply (law_lt_trans O law).
  - intros w _. apply (law_everything O law).
  - intros a b s w _ _ _ _ _ E. apply (law_window O law). exact E.
  - exact H.
  - split; [exact A|]. split.
    + intros j pv E. split; [exact (B j pv E)|]. destruct (build_spec S V O (p_versions P p) TR TT (p_versions P p) 0 l0) as [_ SP]; [exists []; auto|exact H|]. destruct (SP j pv E) as (k & _ & _ & X & _). exact X.
    + intros j pv k E N. exact (proj1 (next_other S V O (p_versions P p) TR TT l0 j pv k H E N)).
Qed.
Lemma nth_error_put : forall A (l : list A) k v j, nth_error (put k v l) j = if (j =? k) && (k <? length l) then Some v else nth_error l j.
Proof.
  intros A l. induction l as [|x l IH]; intros k v j.
  - unfold put. destruct k; cbn; rewrite andb_false_r; destruct j; reflexivity.
  - destruct k as [|k].
    + unfold put. cbn. destruct j; reflexivity.
    + change (put (Datatypes.S k) v (x :: l)) with (x :: put k v l). destruct j as [|j]; [reflexivity|]. cbn [nth_error]. rewrite IH. cbn [length]. reflexivity.
Qed.
Lemma put_length : forall A (l : list A) k v, length (put k v l) = length l.
Proof.
  intros A l. induction l as [|x l IH]; intros k v; [unfold put; destruct k; reflexivity|]. destruct k as [|k]; [reflexivity|]. change (put (Datatypes.S k) v (x :: l)) with (x :: put k v l). cbn. rewrite IH. reflexivity.
Qed.

Record item_ok (p : pkg) (k : option nat) (v : pversion) : Prop := {
  it_deps : deps_known p v;
  it_range : allow (v_range S V v) (v_version S V v);
  it_listed : In (v_version S V v) (p_versions P p) \/ p_has P p (v_version S V v) = true;
  it_table : match k with Some k => exists l0 pv0, built p = Ok l0 /\ nth_error l0 k = Some pv0 /\ related p pv0 v | None => v_next S V v = None end }.
(** everything but the partial solution's friends *)
Definition same_but_versions (x x' : state) : Prop :=
  x_sol S V x' = x_sol S V x /\ x_heap S V x' = x_heap S V x /\ x_incs S V x' = x_incs S V x.
Lemma set_version_table : forall x p k v, table_ok (x_versions S V x) -> item_ok p k v -> table_ok (x_versions S V (set_version S V x p k v)) /\ same_but_versions x (set_version S V x p k v).
Proof.
  intros x p k v TO IO. destruct k as [k|]; [|split; [exact TO|split; auto]]. split; [|split; auto]. cbn. intros q j pv E. destruct (N.eq_dec q p) as [->|NE].
  - rewrite plist_pset_same, nth_error_put in E. destruct ((j =? k) && (k <? _)) eqn:X; [|exact (TO p j pv E)]. injection E as <-. apply andb_true_iff in X. destruct X as [X _]. apply Nat.eqb_eq in X. subst j. exact (it_table _ _ _ IO).
  - rewrite plist_pset_other in E by exact NE. exact (TO q j pv E).
Qed.
Lemma related_item : forall p k l0 pv0 pv, built p = Ok l0 -> nth_error l0 k = Some pv0 -> related p pv0 pv -> item_ok p (Some k) pv.
Proof.
  intros p k l0 pv0 pv B E R. destruct (built_facts p l0 B) as (F1 & F2 & _). destruct R as (R1 & R2 & R3 & R4). constructor.
  - exact R4.
  - rewrite <- R1, <- R2. apply (F2 k pv0 E).
  - left. rewrite <- R1, <- F1. apply in_map. exact (nth_error_In _ _ E).
  - exists l0, pv0. split; [exact B|]. split; [exact E|]. split; [exact R1|]. split; [exact R2|]. split; [exact R3|exact R4].
Qed.
Lemma package_versions_spec : forall x p x' l, table_ok (x_versions S V x) -> package_versions S V O P x p = Ok (x', l) ->
  table_ok (x_versions S V x') /\ same_but_versions x x' /\ forall k pv, nth_error l k = Some pv -> item_ok p (Some k) pv.
Proof.
  intros x p x' l TO H. unfold package_versions in H. destruct (plist p (x_versions S V x)) as [|y r] eqn:E.
  - apply bind_ok in H. destruct H as (l1 & B & H). injection H as <- <-. destruct (built_facts p l1 B) as (F1 & F2 & _).
    assert (RR : forall k pv, nth_error l1 k = Some pv -> related p pv pv). { intros k pv X. split; [reflexivity|]. split; [reflexivity|]. split; [reflexivity|]. left. apply (F2 k pv X). }
    split; [|split; [split; auto|]].
    + cbn. intros q k pv X. destruct (N.eq_dec q p) as [->|NE]; [|rewrite plist_pset_other in X by exact NE; exact (TO q k pv X)]. rewrite plist_pset_same in X. exists l1, pv. split; [exact B|]. split; [exact X|exact (RR k pv X)].
    + intros k pv X. exact (related_item p k l1 pv pv B X (RR k pv X)).
  - injection H as <- <-. split; [exact TO|]. split; [split; auto|]. intros k pv X. rewrite <- E in X. destruct (TO p k pv X) as (l0 & pv0 & B & N & R). exact (related_item p k l0 pv0 pv B N R).
Qed.
Lemma combine_items : forall (l : list pversion) n k v, In (k, v) (combine (map Some (seq n (length l))) l) -> exists j, k = Some j /\ n <= j /\ nth_error l (j - n) = Some v.
Proof.
  intros l. induction l as [|y l IH]; intros n k v I; [contradiction|]. cbn in I. destruct I as [E|I].
  - injection E as <- <-. exists n. rewrite Nat.sub_diag. auto.
  - destruct (IH (Datatypes.S n) k v I) as (j & A & B & C). exists j. split; [exact A|]. split; [lia|]. replace (j - n) with (Datatypes.S (j - Datatypes.S n)) by lia. exact C.
Qed.
Lemma matching_spec : forall ps x x' ms, table_ok (x_versions S V x) -> matching S V O P x ps = Ok (x', ms) ->
  table_ok (x_versions S V x') /\ same_but_versions x x' /\ (forall p, In p ps -> accumulated S (x_sol S V x) p <> None) /\ (ms = [] -> ps = []) /\
  forall p l, In (p, l) ms -> In p ps /\ exists acc, accumulated S (x_sol S V x) p = Some acc /\ forall k v, In (k, v) l -> item_ok p k v /\ allow acc (v_version S V v).
Proof.
  intros ps. induction ps as [|p ps IH]; intros x x' ms TO H; cbn [matching] in H.
  - injection H as <- <-. split; [exact TO|]. split; [split; auto|]. split; [contradiction|]. split; [reflexivity|contradiction].
  - destruct (accumulated S (x_sol S V x) p) as [acc|] eqn:EA; [|discriminate]. apply bind_ok in H. destruct H as ([x1 l1] & H1 & H). apply bind_ok in H. destruct H as ([x2 ms2] & H2 & H). cbn [fst snd] in *. injection H as <- <-.
    assert (G : table_ok (x_versions S V x1) /\ same_but_versions x x1 /\ forall k v, In (k, v) l1 -> item_ok p k v /\ allow acc (v_version S V v)).
    { destruct (o_special O acc) as [v|] eqn:ES.
      - injection H1 as <- <-. split; [exact TO|]. split; [split; auto|]. intros k w J. destruct (p_has P p v) eqn:EH; [|contradiction]. destruct J as [J|[]]. injection J as <- <-. pose proof (law_special O law _ _ ES) as LS. split; [|exact LS].
        constructor; [left; reflexivity|exact LS|right; exact EH|reflexivity].
      - apply bind_ok in H1. destruct H1 as ([y l] & PV & H1). cbn [fst snd] in H1. injection H1 as <- <-. destruct (package_versions_spec x p y l TO PV) as (A & B & C). split; [exact A|]. split; [exact B|].
        intros k v J. apply filter_In in J. destruct J as [J1 J2]. cbn in J2. apply combine_items in J1. destruct J1 as (j & -> & _ & J1). rewrite Nat.sub_0_r in J1. split; [exact (C j v J1)|exact J2]. }
    destruct G as (T1 & (B1 & B2 & B3) & G). destruct (IH x1 x2 ms2 T1 H2) as (T2 & (C1 & C2 & C3) & AC & _ & M). split; [exact T2|]. split; [split; [congruence|split; congruence]|]. split; [|split; [discriminate|]].
    + intros q [<-|J]; [congruence|]. rewrite <- B1. apply AC. exact J.
    + intros q l [J|J].
      * injection J as <- <-. split; [left; reflexivity|]. exists acc. auto.
      * destruct (M q l J) as [M1 M2]. split; [right; exact M1|]. rewrite <- B1. exact M2.
Qed.
Lemma best_in : forall x l b, In (best_package S V x l b) (b :: l).
Proof.
  intros x l. induction l as [|e l IH]; intro b; [left; reflexivity|]. cbn [best_package]. destruct (IH (if better S V x e b then e else b)) as [X|X]; [|right; right; exact X]. rewrite <- X. destruct (better S V x e b); [right; left; reflexivity|left; reflexivity].
Qed.
Lemma fold_view : forall ts d, NoDup (map t_pkg ts) -> (forall t, In t ts -> pget (t_pkg t) d = None) ->
  dep_view (fold_left (fun d t => pset (t_pkg t) (t_con t, None) d) ts d) = dep_view d ++ term_view ts.
Proof.
  intros ts. induction ts as [|t ts IH]; intros d N H; [cbn; rewrite app_nil_r; reflexivity|]. cbn in N. inversion N as [|? ? N1 N2]; subst. cbn [fold_left]. rewrite IH.
  - rewrite (pset_new _ _ _ _ (H t (or_introl eq_refl))). unfold dep_view at 1. rewrite map_app, <- app_assoc. reflexivity.
  - exact N2.
  - intros u I. rewrite (pget_pset_other); [apply H; right; exact I|]. intro E. apply N1. rewrite <- E. apply in_map. exact I.
Qed.
(** the dependencies of a version are known *)
Definition fetched (p : pkg) (v : pversion) (ts : list term) : Prop :=
  p_deps P p (v_version S V v) = Some ts /\ exists l, v_deps S V v = Some l /\ dep_view l = term_view ts.
Lemma fetch_spec : forall p k v v', item_ok p k v -> fetch S V P p v = Some v' -> item_ok p k v' /\ v_version S V v' = v_version S V v /\ exists ts, fetched p v' ts.
Proof.
  intros p k v v' [I1 I2 I3 I4] H. assert (G : forall ts, p_deps P p (v_version S V v) = Some ts -> v' = PV S V (v_version S V v) (v_range S V v) (Some (fold_left (fun d t => pset (t_pkg t) (t_con t, None) d) ts [])) (v_next S V v) ->
    item_ok p k v' /\ v_version S V v' = v_version S V v /\ exists ts, fetched p v' ts).
  { intros ts E ->. assert (VW : dep_view (fold_left (fun d t => pset (t_pkg t) (t_con t, None) d) ts []) = term_view ts) by (rewrite fold_view; [reflexivity|exact (proj2 tidy_problem p _ ts E)|reflexivity]).
    split; [|split; [reflexivity|]].
    - constructor; auto.
      + right. exists ts. eexists. split; [exact E|]. split; [reflexivity|exact VW].
      + destruct k as [k|]; [|exact I4]. destruct I4 as (l0 & pv0 & B & N & R1 & R2 & R3 & R4). exists l0, pv0. split; [exact B|]. split; [exact N|]. split; [exact R1|]. split; [exact R2|]. split; [exact R3|]. right. exists ts. eexists. split; [exact E|]. split; [reflexivity|exact VW].
    - exists ts. split; [exact E|]. eexists. split; [reflexivity|exact VW]. }
  unfold fetch in H. destruct (v_deps S V v) as [[|e l]|] eqn:ED.
  - destruct (p_deps P p (v_version S V v)) as [ts|] eqn:E; [|discriminate]. injection H as <-. apply (G ts); reflexivity.
  - injection H as <-. split; [constructor; auto|]. split; [reflexivity|]. destruct I1 as [I1|(ts & l' & E1 & E2 & E3)]; [congruence|]. exists ts. split; [exact E1|]. exists l'. auto.
  - destruct (p_deps P p (v_version S V v)) as [ts|] eqn:E; [|discriminate]. injection H as <-. apply (G ts); reflexivity.
Qed.
(** the version in the table, once its dependencies have been written back *)
Definition current (x : state) (p : pkg) (k : option nat) (ts : list term) : Prop :=
  forall j w, k = Some j -> get_version S V x p j = Some w -> exists l, v_deps S V w = Some l /\ dep_view l = term_view ts.
Lemma first_usable_spec : forall l x p x' k v, table_ok (x_versions S V x) -> (forall k v, In (k, v) l -> item_ok p k v) -> first_usable S V P x p l = Some (x', (k, v)) ->
  table_ok (x_versions S V x') /\ same_but_versions x x' /\ item_ok p k v /\ (exists v0, In (k, v0) l /\ v_version S V v0 = v_version S V v) /\ exists ts, fetched p v ts /\ current x' p k ts.
Proof.
  intros l. induction l as [|[k0 v0] l IH]; intros x p x' k v TO IO H; [discriminate|]. cbn [first_usable] in H. destruct (fetch S V P p v0) as [v1|] eqn:F.
  - injection H as <- <- <-. destruct (fetch_spec p k0 v0 v1 (IO k0 v0 (or_introl eq_refl)) F) as (I1 & VE & ts & FE). destruct (set_version_table x p k0 v1 TO I1) as [A B]. split; [exact A|]. split; [exact B|]. split; [exact I1|]. split; [exists v0; split; [left; reflexivity|symmetry; exact VE]|]. exists ts. split; [exact FE|].
    intros j w -> E. unfold get_version in E. cbn in E. rewrite plist_pset_same, nth_error_put, Nat.eqb_refl in E. cbn [andb] in E. destruct (j <? _) eqn:L; [injection E as <-; apply FE|]. apply Nat.ltb_ge in L. apply nth_error_None in L. congruence.
  - destruct (IH x p x' k v TO (fun k v J => IO k v (or_intror J)) H) as (A & B & C & (v2 & D1 & D2) & E). split; [exact A|]. split; [exact B|]. split; [exact C|]. split; [exists v2; split; [right; exact D1|exact D2]|exact E].
Qed.
Lemma view_get : forall d c n l, pget d l = Some (c, n) -> In (d, c) (dep_view l).
Proof. intros d c n l H. apply pget_in in H. apply in_map_iff. exists (d, (c, n)). auto. Qed.
Lemma last_requiring_none : forall fuel x p k v ts t, table_ok (x_versions S V x) -> item_ok p k v -> fetched p v ts -> In t ts -> last_requiring S V O fuel x p (t_pkg t) (t_con t) (v_next S V v) None = None.
Proof.
  intros fuel x p k v ts t TO IO FE It. destruct fuel as [|fuel]; [reflexivity|]. destruct (v_next S V v) as [k'|] eqn:EN; [|reflexivity]. cbn [last_requiring].
  destruct (get_version S V x p k') as [nv|] eqn:EG; [|reflexivity]. destruct (v_deps S V nv) as [[|e l]|] eqn:ED; [reflexivity| |reflexivity]. destruct (pget (t_pkg t) (e :: l)) as [[c' n']|] eqn:EP; [|reflexivity].
  destruct k as [k|]; [|rewrite (it_table _ _ _ IO) in EN; discriminate].
  destruct (it_table _ _ _ IO) as (l0 & pv0 & B & N & R1 & R2 & R3 & R4). destruct (TO p k' nv EG) as (l0' & pv0' & B' & N' & Q1 & Q2 & Q3 & Q4). rewrite B in B'. injection B' as <-.
  destruct (built_facts p l0 B) as (F1 & F2 & F3). assert (NE : k' <> k) by (apply (F3 k pv0 k' N); congruence).
  destruct Q4 as [Q4|(us & l' & U1 & U2 & U3)]; [congruence|]. rewrite ED in U2. injection U2 as <-. apply view_get in EP. rewrite U3 in EP. apply in_map_iff in EP. destruct EP as (u & EU & IU). injection EU as EU1 EU2.
  rewrite <- EU2. rewrite (unshared_problem p (v_version S V v) (v_version S V nv) ts us t u); [reflexivity| | | |apply FE|exact U1|exact It|exact IU|symmetry; exact EU1].
  - rewrite <- F1, <- R1. apply in_map. exact (nth_error_In _ _ N).
  - rewrite <- F1, <- Q1. apply in_map. exact (nth_error_In _ _ N').
  - intro E. apply NE. apply (proj1 (NoDup_nth_error (p_versions P p)) (proj1 tidy_problem p)).
    + rewrite <- F1, map_length. apply nth_error_Some. congruence.
    + rewrite <- F1, !nth_error_map, N, N'. cbn. congruence.
Qed.
Lemma view_pset : forall d c n l, In (d, c) (dep_view l) -> NoDup (map fst (dep_view l)) -> dep_view (pset d (c, n) l) = dep_view l.
Proof.
  intros d c n l. induction l as [|[q [c' n']] l IH]; intros I N; [contradiction|]. cbn in I, N. inversion N as [|? ? N1 N2]; subst. cbn. destruct (d =? q)%N eqn:E.
  - apply N.eqb_eq in E. subst q. cbn. f_equal. destruct I as [I|I]; [congruence|]. exfalso. apply N1. apply in_map_iff. exists (d, c). auto.
  - cbn. f_equal. apply IH; [|exact N2]. destruct I as [I|I]; [injection I as -> ->; rewrite N.eqb_refl in E; discriminate|exact I].
Qed.
Lemma view_keys : forall l ts, dep_view l = term_view ts -> map fst l = map t_pkg ts.
Proof.
  intros l ts H. assert (X : map fst (dep_view l) = map fst l) by (unfold dep_view; rewrite map_map; reflexivity). rewrite <- X, H. unfold term_view. rewrite map_map. reflexivity.
Qed.
(** the incompatibility of one requirement *)
Definition dep_incompat (p : pkg) (v : pversion) (t : term) (i : incompat S) : Prop :=
  exists ts', dependency_terms S V O (T p (v_range S V v)) (T (t_pkg t) (t_con t)) = Ok ts' /\ i = I S ts' (Some (T p (v_range S V v), T (t_pkg t) (t_con t))) false.
Lemma compute_one_spec : forall x p k v ts t x' n, table_ok (x_versions S V x) -> item_ok p k v -> fetched p v ts -> current x p k ts -> In t ts ->
  compute_one S V O x p k v (t_pkg t) (t_con t) = Ok (x', n) ->
  table_ok (x_versions S V x') /\ current x' p k ts /\ x_sol S V x' = x_sol S V x /\ x_incs S V x' = x_incs S V x /\ n = length (x_heap S V x) /\
  exists i, dep_incompat p v t i /\ x_heap S V x' = x_heap S V x ++ [i].
Proof.
  intros x p k v ts t x' n TO IO FE CU It H. unfold compute_one in H. rewrite (last_requiring_none _ x p k v ts t TO IO FE It) in H.
  apply bind_ok in H. destruct H as (ts' & DT & H). cbn [new_inc] in H. injection H as <- <-.
  set (i := I S ts' (Some (T p (v_range S V v), T (t_pkg t) (t_con t))) false). set (x1 := with_heap S V x (x_heap S V x ++ [i])).
  match goal with |- context [set_version S V _ p k ?w] => set (w1 := w) end.
  assert (ND : NoDup (map t_pkg ts)) by (exact (proj2 tidy_problem p _ ts (proj1 FE))).
  assert (VW : forall l, dep_view l = term_view ts -> dep_view (pset (t_pkg t) (t_con t, Some (length (x_heap S V x))) l) = term_view ts).
  { intros l E. rewrite view_pset; [exact E|rewrite E; apply in_map_iff; exists t; auto|]. rewrite E. unfold term_view. rewrite map_map. exact ND. }
  assert (GV : forall j, get_version S V x1 p j = get_version S V x p j) by reflexivity.
  assert (IW : item_ok p k w1 /\ exists l, v_deps S V w1 = Some l /\ dep_view l = term_view ts).
  { destruct k as [k|].
    - unfold w1. rewrite GV. destruct (get_version S V x p k) as [w|] eqn:EG.
      + destruct (CU k w eq_refl EG) as (l & L1 & L2). rewrite L1. destruct (TO p k w EG) as (l0 & pv0 & B & N & R1 & R2 & R3 & R4).
        assert (PD : p_deps P p (v_version S V w) = Some ts).
        { destruct (it_table _ _ _ IO) as (l0' & pv0' & B' & N' & Q1 & _). rewrite B in B'. injection B' as <-. rewrite N in N'. injection N' as <-. rewrite <- R1, Q1. apply FE. }
        split; [|eexists; split; [reflexivity|exact (VW l L2)]]. apply (related_item p k l0 pv0); [exact B|exact N|]. split; [exact R1|]. split; [exact R2|]. split; [exact R3|]. right. exists ts. eexists. split; [exact PD|]. split; [reflexivity|exact (VW l L2)].
      + destruct FE as (F1 & l & F2 & F3). rewrite F2. split; [|eexists; split; [reflexivity|exact (VW l F3)]]. destruct (it_table _ _ _ IO) as (l0 & pv0 & B & N & R1 & R2 & R3 & R4). apply (related_item p k l0 pv0); [exact B|exact N|]. split; [exact R1|]. split; [exact R2|]. split; [exact R3|]. right. exists ts. eexists. split; [exact F1|]. split; [reflexivity|exact (VW l F3)].
    - unfold w1. destruct FE as (F1 & l & F2 & F3). rewrite F2. split; [|eexists; split; [reflexivity|exact (VW l F3)]]. destruct IO as [J1 J2 J3 J4]. constructor; auto. right. exists ts. eexists. split; [exact F1|]. split; [reflexivity|exact (VW l F3)]. }
  destruct IW as [IW (lw & W1 & W2)]. destruct (set_version_table x1 p k w1 TO IW) as [A (B1 & B2 & B3)]. split; [exact A|]. split; [|split; [exact B1|split; [exact B3|split; [reflexivity|]]]].
  - intros j w -> E. unfold get_version in E. cbn in E. rewrite plist_pset_same, nth_error_put, Nat.eqb_refl in E. cbn [andb] in E. destruct (j <? _) eqn:L; [injection E as <-; exists lw; auto|]. apply Nat.ltb_ge in L. apply nth_error_None in L. congruence.
  - exists i. split; [exists ts'; split; [exact DT|reflexivity]|]. rewrite B2. reflexivity.
Qed.
Lemma compute_spec : forall us x p k v ts x' ns l, table_ok (x_versions S V x) -> item_ok p k v -> fetched p v ts -> current x p k ts -> (forall t, In t us -> In t ts) -> dep_view l = term_view us ->
  compute_incompatibilities S V O x p k v l = Ok (x', ns) ->
  table_ok (x_versions S V x') /\ x_sol S V x' = x_sol S V x /\ x_incs S V x' = x_incs S V x /\
  exists is, x_heap S V x' = x_heap S V x ++ is /\ ns = seq (length (x_heap S V x)) (length is) /\ Forall2 (dep_incompat p v) us is.
Proof.
  intros us. induction us as [|u us IH]; intros x p k v ts x' ns l TO IO FE CU IN VW H; destruct l as [|[d [c n]] l]; try discriminate.
  - cbn in H. injection H as <- <-. split; [exact TO|]. split; [reflexivity|]. split; [reflexivity|]. exists []. rewrite app_nil_r. split; [reflexivity|]. split; [reflexivity|constructor].
  - cbn in VW. injection VW as -> -> VW. cbn [compute_incompatibilities] in H. apply bind_ok in H. destruct H as ([x1 n1] & C1 & H). apply bind_ok in H. destruct H as ([x2 ns2] & C2 & H). cbn [fst snd] in *. injection H as <- <-.
    destruct (compute_one_spec x p k v ts u x1 n1 TO IO FE CU (IN u (or_introl eq_refl)) C1) as (T1 & U1 & S1 & I1 & -> & i & DI & H1).
    destruct (IH x1 p k v ts x2 ns2 l T1 IO FE U1 (fun t J => IN t (or_intror J)) VW C2) as (T2 & S2 & I2 & is & H2 & N2 & F2).
    split; [exact T2|]. split; [congruence|]. split; [congruence|]. exists (i :: is). split; [rewrite H2, H1, <- app_assoc; reflexivity|]. split; [|constructor; assumption]. rewrite N2, H1, app_length. cbn. rewrite Nat.add_1_r. reflexivity.
Qed.

(** ** adding incompatibilities *)
Lemma add_list_spec : forall h n i ts incs, let incs' := fold_left (add_to_list S V O h n i) ts incs in
  (forall p m, In m (plist p incs) -> In m (plist p incs')) /\
  (forall t, In t ts -> exists m, In m (plist (t_pkg t) incs') /\ (m = n \/ terms_eqb S V O (nth m h (I S [] None false)) i = true)).
Proof.
  intros h n i ts. induction ts as [|t ts IH]; intros incs; cbn [fold_left]; [split; [auto|contradiction]|].
  assert (G : (forall p m, In m (plist p incs) -> In m (plist p (add_to_list S V O h n i incs t))) /\ exists m, In m (plist (t_pkg t) (add_to_list S V O h n i incs t)) /\ (m = n \/ terms_eqb S V O (nth m h (I S [] None false)) i = true)).
  { unfold add_to_list. destruct (existsb _ _) eqn:E.
    - split; [auto|]. apply existsb_exists in E. destruct E as (m & M & E). exists m. auto.
    - split.
      + intros p m M. destruct (N.eq_dec p (t_pkg t)) as [->|NE]; [rewrite plist_pset_same; apply in_or_app; left; exact M|rewrite plist_pset_other by exact NE; exact M].
      + exists n. split; [|left; reflexivity]. rewrite plist_pset_same. apply in_or_app. right. left. reflexivity. }
  destruct G as [G1 (m & G2 & G3)]. destruct (IH (add_to_list S V O h n i incs t)) as [A B]. split; [auto|]. intros u [<-|J]; [exists m; auto|exact (B u J)].
Qed.
(** the same incompatibilities, whatever their flags *)
Definition heap_sim (h h' : list (incompat S)) : Prop :=
  length h = length h' /\ forall m, i_terms S (nth m h' (I S [] None false)) = i_terms S (nth m h (I S [] None false)) /\ i_dep S (nth m h' (I S [] None false)) = i_dep S (nth m h (I S [] None false)).
Lemma nth_put_default : forall A (l : list A) k v j d, nth j (put k v l) d = if (j =? k) && (k <? length l) then v else nth j l d.
Proof.
  intros A l k v j d. pose proof (nth_error_put A l k v j) as H. destruct ((j =? k) && (k <? length l)) eqn:E.
  - apply nth_error_nth. exact H.
  - destruct (nth_error l j) as [y|] eqn:E2; [rewrite (nth_error_nth _ _ d H); symmetry; exact (nth_error_nth _ _ d E2)|]. apply nth_error_None in H. apply nth_error_None in E2. rewrite !nth_overflow by assumption. reflexivity.
Qed.
Lemma add_spec : forall x n, n < length (x_heap S V x) -> i_added S (inc S V x n) = false -> let x' := add_incompatibility S V O x n in
  x_sol S V x' = x_sol S V x /\ x_versions S V x' = x_versions S V x /\ heap_sim (x_heap S V x) (x_heap S V x') /\
  (forall m, m <> n -> i_added S (inc S V x' m) = i_added S (inc S V x m)) /\
  (forall p m, In m (plist p (x_incs S V x)) -> In m (plist p (x_incs S V x'))) /\
  (forall t, In t (i_terms S (inc S V x n)) -> exists m, In m (plist (t_pkg t) (x_incs S V x')) /\ (m = n \/ terms_eqb S V O (inc S V x' m) (inc S V x n) = true)).
Proof.
  intros x n L AD. cbv zeta. unfold add_incompatibility. rewrite AD, andb_false_r.
  destruct (is_some (i_dep S (inc S V x n))) eqn:ED; cbn [x_sol x_versions x_heap x_incs set_inc with_heap].
  - set (j := I S (i_terms S (inc S V x n)) (i_dep S (inc S V x n)) true). set (h := put n j (x_heap S V x)).
    destruct (add_list_spec h n (inc S V x n) (i_terms S (inc S V x n)) (x_incs S V x)) as [A B].
    split; [reflexivity|]. split; [reflexivity|]. split; [|split; [|split; [exact A|exact B]]].
    + split; [unfold h; rewrite put_length; reflexivity|]. intro m. unfold h. rewrite nth_put_default. destruct ((m =? n) && (n <? _)) eqn:E; [|auto]. apply andb_true_iff in E. destruct E as [E _]. apply Nat.eqb_eq in E. subst m. auto.
    + intros m NE. unfold inc. cbn. unfold h. rewrite nth_put_default. apply Nat.eqb_neq in NE. rewrite NE. reflexivity.
  - destruct (add_list_spec (x_heap S V x) n (inc S V x n) (i_terms S (inc S V x n)) (x_incs S V x)) as [A B].
    split; [reflexivity|]. split; [reflexivity|]. split; [split; [reflexivity|auto]|]. split; [auto|]. split; [exact A|exact B].
Qed.
Lemma sim_trans : forall a b c, heap_sim a b -> heap_sim b c -> heap_sim a c.
Proof. intros a b c [L1 H1] [L2 H2]. split; [congruence|]. intro m. destruct (H1 m) as [A B]. destruct (H2 m) as [C D]. split; congruence. Qed.
Lemma terms_eqb_terms : forall a b c d, i_terms S a = i_terms S c -> i_terms S b = i_terms S d -> terms_eqb S V O a b = terms_eqb S V O c d.
Proof. intros a b c d H1 H2. unfold terms_eqb. rewrite H1, H2. reflexivity. Qed.
Lemma add_all_spec : forall ns x, NoDup ns -> (forall n, In n ns -> n < length (x_heap S V x) /\ i_added S (inc S V x n) = false) -> let x' := fold_left (add_incompatibility S V O) ns x in
  x_sol S V x' = x_sol S V x /\ x_versions S V x' = x_versions S V x /\ heap_sim (x_heap S V x) (x_heap S V x') /\
  (forall p m, In m (plist p (x_incs S V x)) -> In m (plist p (x_incs S V x'))) /\
  (forall n t, In n ns -> In t (i_terms S (inc S V x n)) -> exists m, In m (plist (t_pkg t) (x_incs S V x')) /\ (m = n \/ terms_eqb S V O (inc S V x' m) (inc S V x n) = true)).
Proof.
  intros ns. induction ns as [|n ns IH]; intros x ND H; cbv zeta; cbn [fold_left].
  - split; [reflexivity|]. split; [reflexivity|]. split; [split; [reflexivity|auto]|]. split; [auto|contradiction].
  - inversion ND as [|? ? N1 N2]; subst. destruct (H n (or_introl eq_refl)) as [L AD]. destruct (add_spec x n L AD) as (A1 & A2 & A3 & A4 & A5 & A6). set (x1 := add_incompatibility S V O x n) in *.
    destruct (IH x1 N2) as (B1 & B2 & B3 & B4 & B5).
    { intros m J. destruct (H m (or_intror J)) as [L2 AD2]. split; [rewrite <- (proj1 A3); exact L2|]. rewrite A4; [exact AD2|]. intro E. subst m. exact (N1 J). }
    set (x2 := fold_left (add_incompatibility S V O) ns x1) in *. split; [congruence|]. split; [congruence|]. split; [exact (sim_trans _ _ _ A3 B3)|]. split; [auto|].
    intros m t [<-|J] It.
    + destruct (A6 t It) as (k & K1 & K2). exists k. split; [apply B4; exact K1|]. destruct K2 as [K2|K2]; [left; exact K2|right]. rewrite <- K2. apply terms_eqb_terms; [|reflexivity]. unfold inc. apply (proj2 B3 k).
    + destruct (B5 m t J) as (k & K1 & K2); [unfold inc; rewrite (proj1 (proj2 A3 m)); exact It|]. exists k. split; [exact K1|]. destruct K2 as [K2|K2]; [left; exact K2|right]. rewrite <- K2. apply terms_eqb_terms; [reflexivity|]. unfold inc. symmetry. apply (proj2 A3 m).
Qed.
Lemma dep_incompat_like : forall p v t i, dep_incompat p v t i -> allow (v_range S V v) (v_version S V v) ->
  dep_like i p (v_version S V v) (t_pkg t) (t_con t) /\ In (T p (v_range S V v)) (i_terms S i) /\ exists c, In (T (t_pkg t) c) (i_terms S i).
Proof.
  intros p v t i (ts' & DT & ->) AL. unfold dependency_terms in DT. apply bind_ok in DT. destruct DT as (nt & EN & DT). injection DT as <-. unfold negate in EN. apply bind_ok in EN. destruct EN as (c & EC & EN). injection EN as <-. cbn [t_pkg t_con] in *.
  assert (TS : sort_terms S [T (t_pkg t) c; T p (v_range S V v)] = [T p (v_range S V v); T (t_pkg t) c] \/ sort_terms S [T (t_pkg t) c; T p (v_range S V v)] = [T (t_pkg t) c; T p (v_range S V v)]).
  { unfold sort_terms. cbn. destruct (p <? t_pkg t)%N; auto. }
  cbn [i_terms]. split; [split|].
  - cbn [i_dep i_terms]. intros dt dd E. injection E as <- <-. destruct TS as [-> | ->]; [left; reflexivity|right; left; reflexivity].
  - exists (T p (v_range S V v)), (T (t_pkg t) c). cbn [t_pkg t_con i_terms]. split; [exact TS|]. split; [reflexivity|]. split; [exact AL|]. split; [reflexivity|]. intro w. exact (law_inverse O law _ _ w EC).
  - split; [|exists c]; destruct TS as [-> | ->]; cbn; auto.
Qed.
Lemma like_eqb : forall i j p v d c, dep_like i p v d c -> terms_eqb S V O j i = true -> (forall dt dd, i_dep S j = Some (dt, dd) -> In dt (i_terms S j)) -> dep_like j p v d c.
Proof.
  intros i j p v d c (_ & tp & td & HT & Hp & Hv & Hd & Hc) E HO. split; [exact HO|]. unfold terms_eqb in E.
  assert (TE : forall a b : term, term_eqb S V O a b = true -> t_pkg a = t_pkg b /\ forall w, o_allows O (t_con a) w = o_allows O (t_con b) w).
  { intros a b X. unfold term_eqb in X. apply andb_true_iff in X. destruct X as [X1 X2]. apply N.eqb_eq in X1. split; [exact X1|]. intro w. exact (law_eqb O law _ _ w X2). }
  destruct (i_terms S j) as [|a [|b [|z l]]]; destruct HT as [HT|HT]; rewrite HT in E; cbn in E; try discriminate; rewrite ?andb_false_r in E; try discriminate; apply andb_true_iff in E; destruct E as [E1 E2]; rewrite andb_true_r in E2; apply TE in E1; apply TE in E2.
  - exists a, b. split; [left; reflexivity|]. destruct E1 as [A1 A2], E2 as [B1 B2]. split; [congruence|]. split; [rewrite A2; exact Hv|]. split; [congruence|]. intro w. rewrite B2. apply Hc.
  - exists b, a. split; [right; reflexivity|]. destruct E1 as [A1 A2], E2 as [B1 B2]. split; [congruence|]. split; [rewrite B2; exact Hv|]. split; [congruence|]. intro w. rewrite A2. apply Hc.
Qed.

(** ** decisions *)
Lemma require_get : forall k ps (d : list (pkg * nat)) q, let d' := fold_left (fun req p => if is_none (pget p req) then pset p k req else req) ps d in
  (forall l, pget q d = Some l -> pget q d' = Some l) /\ (In q ps -> pget q d' <> None).
Proof.
  intros k ps. induction ps as [|p ps IH]; intros d q; cbv zeta; cbn [fold_left]; [split; [auto|contradiction]|].
  set (d1 := if is_none (pget p d) then pset p k d else d). destruct (IH d1 q) as [A B].
  assert (G : forall l, pget q d = Some l -> pget q d1 = Some l).
  { intros l E. unfold d1. destruct (pget p d) eqn:EP; cbn; [exact E|]. rewrite pget_pset_other; [exact E|congruence]. }
  split; [auto|]. intros [<-|J]; [|exact (B J)]. assert (X : exists l, pget p d1 = Some l).
  { unfold d1. destruct (pget p d) eqn:EP; cbn; [eauto|]. rewrite pget_pset_same. eauto. }
  destruct X as (l & X). rewrite (A l X). discriminate.
Qed.
Lemma decide_step : forall s p v ts a ds, inv s None -> pget p (s_decisions S s) = None -> (p = root <-> s_decisions S s = []) ->
  (In v (p_versions P p) \/ p_has P p v = true) -> p_deps P p v = Some ts -> (forall b, last_of (assignments S s p) = Some b -> allow (a_acc S b) v) ->
  make_assignment S V O root s (T p (o_match O v)) None = Ok a -> ds = map t_pkg ts ->
  let s' := require S (assign S s a) ds in
  inv s' (Some p) /\ (forall b, In (p, b) (s_decisions S s') -> b = a) /\ a_level S a = level S s' /\ dec_ok s' p a v ts.
Proof.
  intros s p v ts a ds IV ND RT LI PD AL MA DS. cbv zeta. assert (IV0 := IV). destruct IV as [A B C D E]. destruct (acc_narrower s _ _ a D MA) as (SN & AC & AB & AE). pose proof MA as MA2. apply make_assignment_spec in MA2. destruct MA2 as (ET & EC & EO & EL & _). cbn [t_pkg t_con] in *.
  assert (LEN : a_level S a = length (s_decisions S s)).
  { rewrite EL. cbn [is_none andb]. destruct (p =? root)%N eqn:X; cbn [negb].
    - apply N.eqb_eq in X. apply RT in X. unfold level. rewrite X. reflexivity.
    - apply N.eqb_neq in X. unfold level. destruct (s_decisions S s) as [|e l]; [exfalso; apply X, RT; reflexivity|]. cbn. lia. }
  assert (DD : s_decisions S (assign S s a) = s_decisions S s ++ [(p, a)]).
  { cbn. unfold is_decision. rewrite EC, ET. cbn. apply pset_new. exact ND. }
  assert (AS : forall q, assignments S (assign S s a) q = if (q =? p)%N then assignments S s q ++ [a] else assignments S s q) by (intro q; rewrite assign_lookup, ET; reflexivity).
  assert (LV1 : levels_ok S (assign S s a)) by (apply assign_levels; [exact A|intros _; rewrite ET; auto|congruence]).
  set (s' := require S (assign S s a) ds). assert (LV : levels_ok S s') by (apply require_levels; exact LV1).
  assert (DD' : s_decisions S s' = s_decisions S s ++ [(p, a)]) by exact DD.
  assert (AS' : forall q, assignments S s' q = if (q =? p)%N then assignments S s q ++ [a] else assignments S s q) by exact AS.
  assert (LEV : level S s' = a_level S a) by (unfold level; rewrite DD', app_length, LEN; cbn; lia).
  assert (RG : forall q l, pget q (s_required S s) = Some l -> pget q (s_required S s') = Some l) by (intros q l G; exact (proj1 (require_get _ ds (s_required S s) q) l G)).
  assert (SG : single (a_acc S a) v).
  { intro w. split.
    - intro W. apply (law_match O law). apply AC. exact W.
    - intros ->. destruct (last_of (assignments S s p)) as [b|] eqn:LB; [|apply last_of_none in LB; rewrite (AE LB); apply (law_match O law); reflexivity]. apply (AB v b eq_refl). split; [exact (AL b eq_refl)|apply (law_match O law); reflexivity]. }
  assert (DO : dec_ok s' p a v ts).
  { constructor; auto.
    - rewrite AS', N.eqb_refl. apply last_of_snoc.
    - intros t It. assert (G : pget (t_pkg t) (s_required S s') <> None) by (apply (require_get _ ds (s_required S s) (t_pkg t)); rewrite DS; apply in_map; exact It).
      destruct (pget (t_pkg t) (s_required S s')) as [l|] eqn:X; [|congruence]. exists l. split; [reflexivity|]. rewrite <- LEV. apply pget_in in X. exact (lv_required _ _ LV _ X). }
  split; [constructor|split; [|split; [symmetry; exact LEV|exact DO]]].
  - exact LV.
  - right. rewrite DD'. destruct B as [[B1 B2]|(a0 & rest & B)].
    + rewrite B1. cbn. assert (p = root) by (apply RT; exact B1). subst p. eauto.
    + rewrite B. cbn. eauto.
  - apply RG. exact C.
  - intro q. rewrite AS'. destruct (q =? p)%N eqn:X; [|apply D]. apply N.eqb_eq in X. subst q. exact SN.
  - intros q b J. rewrite DD' in J. apply in_app_iff in J. destruct J as [J|[J|[]]].
    + destruct (E q b J) as (w & us & [d1 d2 d3 d4 d5 d6] & X). exists w, us.
      assert (NE : (q =? p)%N = false). { apply N.eqb_neq. intro X'. subst q. rewrite (decided_get s None p b IV0 J) in ND. discriminate. }
      split.
      * constructor; auto; [rewrite AS', NE; exact d1|]. intros t It. destruct (d6 t It) as (l & G & K). exists l. split; [apply RG; exact G|exact K].
      * right. destruct X as [X|X]; [discriminate|]. intros t It. apply (settled_mono s); [|exact (X t It)]. intros r c K. rewrite AS'. destruct (r =? p)%N; [apply in_or_app; left; exact K|exact K].
    + injection J as <- <-. exists v, ts. auto.
  - intros b J. rewrite DD' in J. apply in_app_iff in J. destruct J as [J|[J|[]]]; [|congruence]. rewrite (decided_get s None p b IV0 J) in ND. discriminate.
Qed.

Lemma put_in : forall A (l : list A) k v i, In i (put k v l) -> i = v \/ In i l.
Proof.
  intros A l. induction l as [|x l IH]; intros k v i J; [unfold put in J; destruct k; contradiction|]. destruct k as [|k].
  - cbn in J. destruct J as [<-|J]; auto. right. right. exact J.
  - change (put (Datatypes.S k) v (x :: l)) with (x :: put k v l) in J. destruct J as [<-|J]; [right; left; reflexivity|]. destruct (IH k v i J) as [X|X]; auto. right. right. exact X.
Qed.
Lemma unavailable_spec : forall x p x', heap_ok x -> unavailable S V O x p = Ok x' -> x_sol S V x' = x_sol S V x /\ x_versions S V x' = x_versions S V x /\ heap_ok x'.
Proof.
  intros x p x' HO H. unfold unavailable in H. destruct (accumulated S (x_sol S V x) p) as [acc|]; [|discriminate]. destruct (pget p (x_avail S V x)) as [n|].
  - destruct (i_terms S (inc S V x n)) as [|t [|? ?]]; try discriminate. apply bind_ok in H. destruct H as (u & _ & H). injection H as <-. split; [reflexivity|]. split; [reflexivity|]. intros i J. cbn in J. apply put_in in J. destruct J as [->|J]; [discriminate|exact (HO i J)].
  - apply bind_ok in H. destruct H as (ts & _ & H). cbn [new_inc] in H. injection H as <-.
    match goal with |- context [add_incompatibility S V O ?y ?n] => set (x1 := y); set (n1 := n) end.
    assert (IN : i_dep S (inc S V x1 n1) = None).
    { unfold inc, x1, n1. cbn. rewrite app_nth2 by lia. rewrite Nat.sub_diag. reflexivity. }
    destruct (add_plain x1 n1 IN) as (A & B & C). split; [exact A|]. split; [exact C|]. intros i J. rewrite B in J. cbn in J. apply in_app_iff in J. destruct J as [J|[<-|[]]]; [exact (HO i J)|discriminate].
Qed.
Lemma sim_ok : forall h h', heap_sim h h' -> (forall i, In i h -> forall dt dd, i_dep S i = Some (dt, dd) -> In dt (i_terms S i)) -> forall i, In i h' -> forall dt dd, i_dep S i = Some (dt, dd) -> In dt (i_terms S i).
Proof.
  intros h h' [L H] HO i J dt dd E. apply In_nth with (d := I S [] None false) in J. destruct J as (m & M & <-). destruct (H m) as [A B]. rewrite B in E. rewrite A. apply (HO (nth m h (I S [] None false))) with (dd := dd); [apply nth_In; lia|exact E].
Qed.
Lemma undecided_in : forall s p, In p (undecided S s) <-> In p (map fst (s_required S s)) /\ pget p (s_decisions S s) = None.
Proof.
  intros s p. unfold undecided. rewrite filter_In. split; intros [A B]; split; auto.
  - destruct (pget p (s_decisions S s)); [discriminate|reflexivity].
  - rewrite B. reflexivity.
Qed.
Lemma decide_pend : forall x p v ts a s', inv s' (Some p) -> (forall b, In (p, b) (s_decisions S s') -> b = a) -> a_level S a = level S s' -> dec_ok s' p a (v_version S V v) ts ->
  (forall t, In t ts -> (exists m, In m (plist (t_pkg t) (x_incs S V x)) /\ dep_like (inc S V x m) p (v_version S V v) (t_pkg t) (t_con t)) /\ (exists m, In m (plist p (x_incs S V x)) /\ dep_like (inc S V x m) p (v_version S V v) (t_pkg t) (t_con t))) ->
  pend (with_sol S V x s') [] [p] p.
Proof.
  intros x p v ts a s' IV UN LV DO LK b J. cbn in J. rewrite (UN b J). split; [exact LV|]. exists (v_version S V v), ts. split; [exact DO|]. intros t It. destruct (LK t It) as [L1 L2]. split; [exact L1|]. right. right. left. split; [left; reflexivity|exact L2].
Qed.
Definition good (x : state) (q : pkg) (changed : list pkg) : Prop := inv (x_sol S V x) (Some q) /\ heap_ok x /\ table_ok (x_versions S V x) /\ pend x [] changed q.
Lemma make_next_spec : forall x q x' r, good x q [] -> make_next_decision S V O P root x = Ok (x', r) ->
  match r with None => inv (x_sol S V x') None /\ undecided S (x_sol S V x') = [] | Some p => good x' p [p] end.
Proof.
  intros x q x' r (IV & HO & TO & PE) H. unfold make_next_decision in H.
  assert (DEC : forall p, In p (map fst (s_required S (x_sol S V x))) -> pget p (s_decisions S (x_sol S V x)) <> None -> assignments S (x_sol S V x) p <> []).
  { intros p _ G. destruct (pget p (s_decisions S (x_sol S V x))) as [a|] eqn:E; [|congruence]. apply pget_in in E. destruct (n_dec _ _ IV p a E) as (v & ts & D & _). intro X. pose proof (d_last _ _ _ _ _ D) as Y. rewrite X in Y. discriminate. }
  destruct (undecided S (x_sol S V x)) as [|u0 us] eqn:EU.
  - injection H as <- <-. split; [|exact EU]. apply (all_enforced x q IV PE). intros p I0. apply DEC; [exact I0|]. intro G. assert (X : In p (undecided S (x_sol S V x))) by (apply undecided_in; auto). rewrite EU in X. contradiction.
  - apply bind_ok in H. destruct H as ([x1 ms] & MT & H). cbn [fst snd] in H. destruct (matching_spec _ x x1 ms TO MT) as (T1 & (S1 & H1 & I1) & AC & NE & MS).
    assert (IN0 : inv (x_sol S V x) None).
    { apply (all_enforced x q IV PE). intros p I0. destruct (pget p (s_decisions S (x_sol S V x))) as [a|] eqn:E; [apply DEC; [exact I0|congruence]|]. intro X. apply (AC p); [rewrite <- EU; apply undecided_in; auto|]. unfold accumulated. rewrite X. reflexivity. }
    destruct ms as [|e rest]; [specialize (NE eq_refl); discriminate|].
    destruct (best_package S V x1 rest e) as [p versions] eqn:EB. assert (BI := best_in x1 rest e). rewrite EB in BI. destruct (MS p versions BI) as (PU & acc & EA & ITS). rewrite <- EU in PU. apply undecided_in in PU. destruct PU as [PR PN].
    assert (HO1 : heap_ok x1) by (intros i J; rewrite H1 in J; exact (HO i J)).
    destruct (first_usable S V P x1 p versions) as [[x2 [k v]]|] eqn:EF.
    + destruct (first_usable_spec versions x1 p x2 k v T1 (fun k v J => proj1 (ITS k v J)) EF) as (T2 & (S2 & H2 & I2) & IO & (v0 & V1 & V2) & ts & FE & CU).
      assert (FE0 := FE). destruct FE0 as (PD & ld & VD & VW). rewrite VD in H. apply bind_ok in H. destruct H as ([x3 ns] & CI & H). cbn [fst snd] in H.
      destruct (compute_spec ts x2 p k v ts x3 ns ld T2 IO FE CU (fun t J => J) VW CI) as (T3 & S3 & I3 & is & H3 & N3 & F3).
      assert (HO2 : heap_ok x2) by (intros i J; rewrite H2 in J; exact (HO1 i J)).
      assert (ISP : forall j i, nth_error is j = Some i -> exists t, In t ts /\ dep_incompat p v t i).
      { clear -F3. revert is F3. induction ts as [|t ts IH]; intros is F j i E; inversion F as [|? i0 ? is' F1 F2]; subst; [destruct j; discriminate|]. destruct j as [|j]; cbn in E.
        - injection E as <-. exists t. split; [left; reflexivity|exact F1].
        - destruct (IH is' F2 j i E) as (t' & A & B). exists t'. split; [right; exact A|exact B]. }
      assert (NTH : forall j i, nth_error is j = Some i -> inc S V x3 (length (x_heap S V x2) + j) = i).
      { intros j i E. unfold inc. rewrite H3, app_nth2 by lia. replace (length (x_heap S V x2) + j - length (x_heap S V x2)) with j by lia. apply nth_error_nth. exact E. }
      assert (HO3 : heap_ok x3).
      { intros i J. rewrite H3 in J. apply in_app_iff in J. destruct J as [J|J]; [exact (HO2 i J)|]. apply In_nth_error in J. destruct J as (j & J). destruct (ISP j i J) as (t & _ & DI). intros dt dd E. exact (proj1 (proj1 (dep_incompat_like p v t i DI (it_range _ _ _ IO))) dt dd E). }
      destruct (add_all_spec ns x3) as (S4 & V4 & M4 & G4 & L4).
      { rewrite N3. apply seq_NoDup. }
      { intros n J. rewrite N3 in J. apply in_seq in J. split; [rewrite H3, app_length; lia|]. destruct (nth_error is (n - length (x_heap S V x2))) as [i|] eqn:E; [|apply nth_error_None in E; lia]. pose proof (NTH _ i E) as X. replace (length (x_heap S V x2) + (n - length (x_heap S V x2))) with n in X by lia. rewrite X. destruct (ISP _ i E) as (t & _ & ts' & _ & ->). reflexivity. }
      set (x4 := fold_left (add_incompatibility S V O) ns x3) in *.
      assert (HO4 : heap_ok x4) by (intros i J; exact (sim_ok _ _ M4 HO3 i J)).
      assert (LK : forall t, In t ts -> (exists m, In m (plist (t_pkg t) (x_incs S V x4)) /\ dep_like (inc S V x4 m) p (v_version S V v) (t_pkg t) (t_con t)) /\ (exists m, In m (plist p (x_incs S V x4)) /\ dep_like (inc S V x4 m) p (v_version S V v) (t_pkg t) (t_con t))).
      { intros t It. assert (X : exists j i, nth_error is j = Some i /\ dep_incompat p v t i).
        { clear -F3 It. revert is F3. induction ts as [|t' ts IH]; intros is F; [contradiction|]. inversion F as [|? i0 ? is' F1 F2]; subst. destruct It as [->|It]; [exists 0, i0; auto|]. destruct (IH It is' F2) as (j & i & A & B). exists (Datatypes.S j), i. auto. }
        destruct X as (j & i & EJ & DI). set (n := length (x_heap S V x2) + j). pose proof (NTH j i EJ) as EN. fold n in EN.
        assert (INN : In n ns) by (rewrite N3; apply in_seq; assert (j < length is) by (apply nth_error_Some; congruence); unfold n; lia).
        destruct (dep_incompat_like p v t i DI (it_range _ _ _ IO)) as (DL & TP & c & TD).
        assert (CONV : forall m, (m = n \/ terms_eqb S V O (inc S V x4 m) (inc S V x3 n) = true) -> dep_like (inc S V x4 m) p (v_version S V v) (t_pkg t) (t_con t)).
        { intros m [-> |E].
          - destruct DL as [D1 D2]. split; [intros dt dd; apply inc_heap_ok; exact HO4|]. destruct (proj2 M4 n) as [Q1 _]. unfold inc. rewrite Q1. fold (inc S V x3 n). rewrite EN. exact D2.
          - rewrite EN in E. apply (like_eqb i); [exact DL|exact E|intros dt dd; apply inc_heap_ok; exact HO4]. }
        rewrite <- EN in TP, TD. destruct (L4 n _ INN TP) as (m1 & A1 & A2). destruct (L4 n _ INN TD) as (m2 & B1 & B2). cbn [t_pkg] in *. split; [exists m2; auto|exists m1; auto]. }
      assert (SS : x_sol S V x4 = x_sol S V x) by congruence. rewrite SS in H.
      assert (TT4 : table_ok (x_versions S V x4)) by (rewrite V4; exact T3).
      assert (AV : allow acc (v_version S V v)) by (rewrite <- V2; apply (ITS k v0 V1)).
      assert (RT : p = root <-> s_decisions S (x_sol S V x) = []).
      { destruct (n_root _ _ IN0) as [[B1 B2]|(a0 & rst & B)].
        - split; [intros _; exact B1|]. intros _. apply B2. exact PR.
        - rewrite B. split; [|discriminate]. intros ->. rewrite B in PN. cbn in PN. rewrite N.eqb_refl in PN. discriminate. }
      apply bind_ok in H. destruct H as (a & MA & H). apply bind_ok in H. destruct H as (cs & _ & H).
      assert (FIN : forall s0 a0, inv s0 None -> pget p (s_decisions S s0) = None -> (p = root <-> s_decisions S s0 = []) -> (forall b, last_of (assignments S s0 p) = Some b -> allow (a_acc S b) (v_version S V v)) ->
        make_assignment S V O root s0 (T p (o_match O (v_version S V v))) None = Ok a0 -> good (with_sol S V x4 (require S (assign S s0 a0) (map fst ld))) p [p]).
      { intros s0 a0 J1 J2 J3 J4 J5. destruct (decide_step s0 p (v_version S V v) ts a0 (map fst ld) J1 J2 J3 (it_listed _ _ _ IO) PD J4 J5 (view_keys ld ts VW)) as (K1 & K2 & K3 & K4).
        split; [exact K1|]. split; [exact HO4|]. split; [exact TT4|]. exact (decide_pend x4 p v ts a0 _ K1 K2 K3 K4 LK). }
      assert (LAST : forall b, last_of (assignments S (x_sol S V x) p) = Some b -> allow (a_acc S b) (v_version S V v)).
      { intros b LB. unfold accumulated in EA. rewrite LB in EA. cbn in EA. injection EA as <-. exact AV. }
      assert (NODEC : good x4 p [p]).
      { split; [apply inv_weaken; rewrite SS; exact IN0|]. split; [exact HO4|]. split; [exact TT4|]. intros b J. rewrite SS in J. rewrite (decided_get _ _ _ _ IN0 J) in PN. discriminate. }
      destruct cs as [|c0 cs].
      * cbn [bind fst snd] in H. injection H as <- <-. rewrite SS. apply FIN; auto.
      * apply bind_ok in H. destruct H as ([x5 ok] & AT & H). cbn [fst snd] in H. unfold attempt_minor_adjustments in AT. apply bind_ok in AT. destruct AT as (lv & _ & AT).
        destruct lv as [l|]; [destruct (requirement_level S (x_sol S V x4) p <=? l)|]; injection AT as <- <-; cbn [bind fst snd] in H; [|injection H as <- <-; exact NODEC|injection H as <- <-; exact NODEC].
        apply bind_ok in H. destruct H as (a' & MA' & H). injection H as <- <-. cbn [x_sol with_sol] in *. rewrite SS in *.
        apply (FIN (backtrack S (x_sol S V x) l) a').
        -- apply inv_backtrack. exact IN0.
        -- apply pget_none. intro J. apply pget_none in PN. apply PN. cbn in J. apply in_map_iff in J. destruct J as (e' & <- & J). apply filter_In in J. apply in_map. apply J.
        -- split.
           ++ intro E. cbn. apply RT in E. rewrite E. reflexivity.
           ++ intro E. apply RT. destruct (n_root _ _ IN0) as [[B1 _]|(a0 & rst & B)]; [exact B1|]. exfalso. pose proof (lv_decisions _ _ (n_levels _ _ IN0)) as LD. rewrite B in LD. cbn in LD. injection LD as L0 _. cbn in E. rewrite B in E. cbn in E. rewrite L0 in E. discriminate.
        -- intros b LB. rewrite back_lookup in LB. assert (JB : In b (assignments S (x_sol S V x) p)).
           { apply last_of_some in LB. destruct LB as (l' & LB). assert (K : In b (filter (fun a0 => a_level S a0 <=? l) (assignments S (x_sol S V x) p))) by (rewrite LB; apply in_or_app; right; left; reflexivity). apply filter_In in K. apply K. }
           destruct (last_of (assignments S (x_sol S V x) p)) as [z|] eqn:LZ; [|apply last_of_none in LZ; rewrite LZ in JB; contradiction].
           destruct (sorted_last _ narrower _ z b (n_sorted _ _ IN0 p) LZ JB) as [->|NN]; [exact (LAST z eq_refl)|apply NN; exact (LAST z eq_refl)].
        -- exact MA'.
    + apply bind_ok in H. destruct H as (x2 & UN & H). injection H as <- <-. destruct (unavailable_spec x1 p x2 HO1 UN) as (S2 & V2 & HO2). assert (SS : x_sol S V x2 = x_sol S V x) by congruence.
      split; [apply inv_weaken; rewrite SS; exact IN0|]. split; [exact HO2|]. split; [rewrite V2; exact T1|]. intros b J. rewrite SS in J. rewrite (decided_get _ _ _ _ IN0 J) in PN. discriminate.
Qed.

(** ** solve *)
Lemma solve_loop_spec : forall pick fuel x q x', good x q [q] -> solve_loop S V O P root pick fuel x q = Ok x' -> inv (x_sol S V x') None /\ undecided S (x_sol S V x') = [].
Proof.
  intros pick fuel. induction fuel as [|fuel IH]; intros x q x' (IV & HO & TO & PE) H; [discriminate|]. cbn [solve_loop] in H. apply bind_ok in H. destruct H as (x1 & PR & H). apply bind_ok in H. destruct H as ([x2 r] & MN & H). cbn [fst snd] in H.
  destruct (propagate_spec pick (Datatypes.S fuel) x [q] x1 q IV HO PE PR) as (A & B & C & D).
  assert (G : good x1 q []) by (split; [exact A|split; [exact B|split; [rewrite D; exact TO|exact C]]]). pose proof (make_next_spec x1 q x2 r G MN) as X. destruct r as [p|]; [exact (IH x2 p x' X H)|]. injection H as <-. exact X.
Qed.
Lemma start_spec : forall x, start S V O P root = Ok x -> good x root [root].
Proof.
  intros x H. unfold start in H. apply bind_ok in H. destruct H as ([x0 l] & PV & H). cbn [fst snd] in H. destruct l as [|v l]; [discriminate|].
  assert (T0 : table_ok (x_versions S V (state0 S V))) by (intros p k pv E; destruct k; discriminate).
  destruct (package_versions_spec _ _ _ _ T0 PV) as (T1 & (S1 & H1 & I1) & _).
  apply bind_ok in H. destruct H as (n & _ & H). apply bind_ok in H. destruct H as (ts & _ & H). cbn [new_inc] in H. injection H as <-.
  match goal with |- context [add_incompatibility S V O ?y ?m] => set (x1 := y); set (n1 := m) end.
  assert (IN : i_dep S (inc S V x1 n1) = None). { unfold inc, x1, n1. cbn. rewrite app_nth2 by lia. rewrite Nat.sub_diag. reflexivity. }
  destruct (add_plain x1 n1 IN) as (A & B & C).
  assert (SX : x_sol S V (add_incompatibility S V O x1 n1) = psol0 S) by (rewrite A; unfold x1; cbn; rewrite S1; reflexivity).
  rewrite SX. split; [|split; [|split]].
  - cbn [x_sol with_sol]. constructor.
    + apply require_levels. apply levels0.
    + left. split; [reflexivity|]. intros p [E|[]]. symmetry. exact E.
    + cbn. rewrite N.eqb_refl. reflexivity.
    + intro p. cbn. constructor.
    + intros p a [].
  - intros i J. cbn in J. rewrite B in J. unfold x1 in J. cbn in J. rewrite H1 in J. destruct J as [<-|[]]. discriminate.
  - cbn. rewrite C. exact T1.
  - intros a [].
Qed.
Lemma solve_sound : forall pick fuel ds, solve S V O P root pick fuel = Ok ds -> is_solution O P root ds.
Proof.
  intros pick fuel ds H. unfold solve in H. apply bind_ok in H. destruct H as (x & ST & H). apply bind_ok in H. destruct H as (x1 & SL & H). injection H as <-.
  destruct (solve_loop_spec pick fuel x root x1 (start_spec x ST) SL) as [IV UN]. set (s := x_sol S V x1) in *.
  assert (DEC : forall p l, pget p (s_required S s) = Some l -> exists a, In (p, a) (s_decisions S s)).
  { intros p l G. destruct (pget p (s_decisions S s)) as [a|] eqn:E; [exists a; exact (pget_in _ _ _ _ E)|]. exfalso. assert (X : In p (undecided S s)) by (apply undecided_in; split; [apply pget_in in G; apply in_map_iff; exists (p, l); auto|exact E]). rewrite UN in X. contradiction. }
  assert (OUT : forall p a v ts, In (p, a) (s_decisions S s) -> dec_ok s p a v ts -> In (p, o_match O v) (decisions S s)).
  { intros p a v ts J D. unfold decisions. apply in_map_iff. exists (p, a). split; [|exact J]. cbn. rewrite (d_term _ _ _ _ _ D). reflexivity. }
  split; [|split].
  - unfold decisions. rewrite map_map. cbn. exact (lv_keys _ _ (n_levels _ _ IV)).
  - destruct (DEC root 0 (n_rootreq _ _ IV)) as (a & J). destruct (n_dec _ _ IV root a J) as (v & ts & D & _). exists v. exact (OUT _ _ _ _ J D).
  - intros p c J. unfold decisions in J. apply in_map_iff in J. destruct J as ([p' a] & E & J). cbn in E. injection E as <- <-. destruct (n_dec _ _ IV p' a J) as (v & ts & D & X). exists v, ts. split; [rewrite (d_term _ _ _ _ _ D); reflexivity|]. split; [exact (d_listed _ _ _ _ _ D)|]. split; [exact (d_deps _ _ _ _ _ D)|].
    destruct X as [X|X]; [discriminate|]. intros t It. destruct (d_req _ _ _ _ _ D t It) as (l & G & _). destruct (DEC _ _ G) as (b & JB). destruct (n_dec _ _ IV _ b JB) as (w & us & D' & _). exists w. split; [exact (OUT _ _ _ _ JB D')|].
    destruct (X t It) as (z & Z1 & _ & Z3). apply Z3. assert (AW : allow (a_acc S b) w) by (apply (d_single _ _ _ _ _ D'); reflexivity).
    destruct (sorted_last _ narrower _ b z (n_sorted _ _ IV (t_pkg t)) (d_last _ _ _ _ _ D') Z1) as [->|NN]; [exact AW|apply NN; exact AW].
Qed.
End Sound.
