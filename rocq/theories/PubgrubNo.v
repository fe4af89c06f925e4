(** C18: when no difference of specifiers is computed, and the versions of all packages that can be reached can be chosen
    so that all requirements are met, the resolver does not report that there is no solution. *)
From Coq Require Import String Ascii List Bool NArith Arith Lia Sorted Permutation.
From Verif Require Import Base PubgrubModel PubgrubSolution PubgrubLaws PubgrubSound.
Import ListNotations.
Open Scope nat_scope.
Open Scope list_scope.
Open Scope bool_scope.

(** the operations do not report a missing solution themselves *)
Record quiet {S V} (O : ops S V) : Prop := {
  qt_window : forall a b, o_window O a b <> Err UnsatError;
  qt_all : forall a b, o_all O a b <> Err UnsatError;
  qt_any : forall a b, o_any O a b <> Err UnsatError;
  qt_inter : forall a b, o_inter O a b <> Err UnsatError;
  qt_union : forall a b, o_union O a b <> Err UnsatError;
  qt_inverse : forall a, o_inverse O a <> Err UnsatError;
  qt_diff : forall a b, o_diff O a b <> Err UnsatError }.
(** the operations without differences *)
Definition without_difference {S V} (O : ops S V) : ops S V :=
  Ops (o_everything O) (o_nothing O) (o_is_nothing O) (o_match O) (o_window O) (o_allows O) (o_all O) (o_any O) (o_inter O) (o_union O) (o_inverse O)
      (fun _ _ => Err OtherErr) (o_eqb O) (o_special O) (o_vlt O).
(** a version of every package of [U], together meeting all of their requirements; [U] has the root and all that listed
    versions of its packages require *)
Record complete_choice {S V} (O : ops S V) (P : problem S V) (root : pkg) (U : pkg -> Prop) (sel : pkg -> V) : Prop := {
  cc_root : U root;
  cc_closed : forall p v ts t, U p -> In v (p_versions P p) \/ p_has P p v = true -> p_deps P p v = Some ts -> In t ts -> U (t_pkg t);
  cc_listed : forall p, U p -> In (sel p) (p_versions P p);
  cc_deps : forall p, U p -> exists ts, p_deps P p (sel p) = Some ts /\ forall t, In t ts -> o_allows O (t_con t) (sel (t_pkg t)) = true }.

(** ** errors *)
Definition noU {A} (r : res A) : Prop := r <> Err UnsatError.
Lemma noU_bind : forall A B (r : res A) (k : A -> res B), noU r -> (forall x, r = Ok x -> noU (k x)) -> noU (do x <- r; k x).
Proof. intros A B [x|e] k H K; [apply K; reflexivity|]. intro E. apply H. cbn in E. injection E as ->. reflexivity. Qed.
Lemma noU_ok : forall A (x : A), noU (Ok x).
Proof. discriminate. Qed.

Section No.
Variables S V : Type.
Variable O : ops S V.
Variable P : problem S V.
Variable root : pkg.
Hypothesis law : lawful O.
Hypothesis q : quiet O.
Notation psol := (psol S). Notation term := (term S). Notation assignment := (assignment S). Notation incompat := (incompat S). Notation state := (state S V).
Notation allow s w := (o_allows O s w = true).

Ltac quietly := first [apply noU_ok | apply (qt_window O q) | apply (qt_all O q) | apply (qt_any O q) | apply (qt_inter O q) | apply (qt_union O q) | apply (qt_inverse O q) | apply (qt_diff O q) | discriminate].
Lemma noU_find_in : forall t n l, noU (find_in S V O t n l).
Proof.
  intros t n l. induction l as [|a l IH]; cbn; [quietly|]. destruct n as [n|].
  - destruct (_ =? _); [quietly|]. apply noU_bind; [quietly|]. intros x _. apply noU_bind; [quietly|]. intros [|] _; [quietly|exact IH].
  - apply noU_bind; [quietly|]. intros [|] _; [quietly|exact IH].
Qed.
Lemma noU_find : forall s t n, noU (find_satisfier S V O s t n).
Proof. intros s t n. unfold find_satisfier. destruct (accumulated S s (t_pkg t)); [|quietly]. apply noU_bind; [quietly|]. intros [|] _; [apply noU_find_in|quietly]. Qed.
Lemma noU_more : forall s a ts acc, noU (more_satisfiers S V O s a ts acc).
Proof.
  intros s a ts. induction ts as [|t ts IH]; intros acc; cbn; [quietly|]. apply noU_bind.
  - unfold requiring_decision. destruct (pget (t_pkg t) (s_required S s)); [|quietly]. destruct (find _ _); cbn; quietly.
  - intros acc1 _. apply noU_bind; [|intros acc2 _; apply IH]. destruct (_ =? _)%N; [|quietly]. apply noU_bind; [apply noU_find|]. intros x _. quietly.
Qed.
Lemma noU_check : forall s i, noU (check_satisfaction S V O s i).
Proof.
  intros s i. assert (T : forall ts open sats, noU (check_terms S V O s i ts open sats)).
  { intros ts. induction ts as [|t ts IH]; intros open sats; cbn.
    - destruct open; [quietly|]. unfold create_full. destruct sats as [|a r]; [quietly|]. apply noU_bind; [apply noU_more|]. intros x _. quietly.
    - apply noU_bind; [apply noU_find|]. intros [a|] _; [apply IH|]. apply noU_bind.
      + destruct (accumulated S s (t_pkg t)); [|quietly]. apply noU_bind; [quietly|]. intros x _. quietly.
      + intros [|] _; [quietly|]. destruct open; [quietly|apply IH]. }
  assert (C : noU (check_plain S V O s i)) by (unfold check_plain; destruct (some_impossible _ _ _ _ _); [quietly|apply T]).
  unfold check_satisfaction. destruct (i_dep S i) as [[dt dd]|]; [|exact C]. destruct (accumulated S s (t_pkg dt)); [|quietly]. apply noU_bind; [quietly|]. intros [|] _; [exact C|]. destruct (o_is_nothing O _); [quietly|]. apply noU_bind; [quietly|]. intros [|] _; [exact C|quietly].
Qed.
Lemma noU_negate : forall t, noU (negate S V O t).
Proof. intros t. unfold negate. apply noU_bind; [quietly|]. intros c _. quietly. Qed.
Lemma noU_make : forall s t c, noU (make_assignment S V O root s t c).
Proof. intros s t c. unfold make_assignment. apply noU_bind; [destruct (accumulated S s (t_pkg t)); quietly|]. intros x _. quietly. Qed.
Lemma noU_assign : forall s t c, noU (assign_term S V O root s t c).
Proof. intros s t c. unfold assign_term. apply noU_bind; [apply noU_make|]. intros x _. quietly. Qed.
Lemma noU_join : forall ts c, noU (join_constraints S V O c ts).
Proof. intros ts. induction ts as [|t ts IH]; intros c; cbn; [quietly|]. apply noU_bind; [quietly|]. intros x _. apply IH. Qed.
Lemma noU_create : forall ts, noU (create_terms S V O ts).
Proof.
  intros ts. unfold create_terms. apply noU_bind; [|intros x _; quietly]. generalize (group_terms S ts []). intros g. induction g as [|[p [|t l]] g IH]; cbn; [quietly|exact IH|]. apply noU_bind; [apply noU_join|]. intros c _. apply noU_bind; [exact IH|]. intros r _. quietly.
Qed.
Lemma noU_dependency : forall a b, noU (dependency_terms S V O a b).
Proof. intros a b. unfold dependency_terms. apply noU_bind; [apply noU_negate|]. intros x _. quietly. Qed.
Lemma noU_versions : forall x p, noU (package_versions S V O P x p).
Proof.
  intros x p. unfold package_versions. destruct (plist p (x_versions S V x)); [|quietly]. apply noU_bind; [|intros l _; quietly]. generalize (sort_positions S V O (p_versions P p)). intros srt. generalize 0. induction (p_versions P p) as [|v vs IH]; intros n; cbn; [quietly|]. apply noU_bind.
  - unfold window_of. repeat match goal with |- noU (if ?b then _ else _) => destruct b end; quietly.
  - intros w _. apply noU_bind; [apply IH|]. intros r _. quietly.
Qed.
Lemma noU_matching : forall ps x, noU (matching S V O P x ps).
Proof.
  intros ps. induction ps as [|p ps IH]; intros x; cbn; [quietly|]. destruct (accumulated S (x_sol S V x) p) as [acc|]; [|quietly]. apply noU_bind.
  - destruct (o_special O acc); [quietly|]. apply noU_bind; [apply noU_versions|]. intros y _. quietly.
  - intros y _. apply noU_bind; [apply IH|]. intros z _. quietly.
Qed.
Lemma noU_compute : forall l x p k v, noU (compute_incompatibilities S V O x p k v l).
Proof.
  intros l. induction l as [|[d [c n]] l IH]; intros x p k v; cbn [compute_incompatibilities]; [quietly|]. apply noU_bind.
  - assert (F : forall f, noU (do ts <- dependency_terms S V O (T p (v_range S V v)) (T d c); Ok (f ts : state * nat))) by (intros f; apply noU_bind; [apply noU_dependency|]; intros ts _; quietly).
    unfold compute_one. destruct (last_requiring _ _ _ _ _ _ _ _ _ _) as [k'|]; [|apply F]. destruct (get_version _ _ _ _ _) as [nv|]; [|apply F]. destruct (match v_deps S V nv with Some deps => pget d deps | None => None end) as [[c' [m|]]|]; [|apply F|apply F]. destruct (i_dep S (inc S V x m)) as [[dt dd]|]; [|apply F].
    apply noU_bind; [quietly|]. intros u _. apply noU_bind; [apply noU_dependency|]. intros ts _. quietly.
  - intros y _. apply noU_bind; [apply IH|]. intros z _. quietly.
Qed.
Lemma noU_conflicting : forall ns s h, noU (conflicting S V O s h ns).
Proof. intros ns s h. induction ns as [|n ns IH]; cbn; [quietly|]. apply noU_bind; [apply noU_check|]. intros y _. apply noU_bind; [exact IH|]. intros z _. quietly. Qed.
Lemma noU_adjust : forall x p cs, noU (attempt_minor_adjustments S V O x p cs).
Proof.
  intros x p cs. unfold attempt_minor_adjustments. apply noU_bind.
  - generalize (@None nat). induction cs as [|n cs IH]; intros acc; cbn; [quietly|]. destruct (find _ _) as [t|]; [|quietly]. apply noU_bind; [quietly|]. intros rq _. destruct (rev _) as [|a [|b r]]; [apply IH|apply IH|]. destruct (is_decision S a); [|apply IH]. apply noU_bind; [quietly|]. intros [|] _; [apply IH|quietly].
  - intros [l|] _; [destruct (_ <=? _); quietly|quietly].
Qed.
Lemma noU_unavailable : forall x p, noU (unavailable S V O x p).
Proof.
  intros x p. unfold unavailable. destruct (accumulated S (x_sol S V x) p); [|quietly]. destruct (pget p (x_avail S V x)) as [n|].
  - destruct (i_terms S (inc S V x n)) as [|t [|? ?]]; [quietly| |quietly]. apply noU_bind; [quietly|]. intros u _. quietly.
  - apply noU_bind; [apply noU_create|]. intros ts _. cbn. quietly.
Qed.

(** ** the terms of incompatibilities *)
Lemma insert_perm : forall (t : term) l, Permutation (t :: l) (insert_term S t l).
Proof.
  intros t l. induction l as [|u l IH]; cbn; [apply Permutation_refl|]. destruct (_ <? _)%N; [apply Permutation_refl|]. eapply perm_trans; [apply perm_swap|]. apply perm_skip. exact IH.
Qed.
Lemma sort_perm : forall l : list term, Permutation l (sort_terms S l).
Proof.
  assert (G : forall l acc : list term, Permutation (acc ++ l) (fold_left (fun acc t => insert_term S t acc) l acc)).
  { intros l. induction l as [|t l IH]; intros acc; cbn; [rewrite app_nil_r; apply Permutation_refl|]. eapply perm_trans; [|apply IH]. eapply perm_trans; [apply Permutation_sym; apply Permutation_middle|]. change (t :: acc ++ l) with ((t :: acc) ++ l). apply Permutation_app_tail. apply insert_perm. }
  intro l. exact (G l []).
Qed.
(** [v] of [p] is in all terms about [p] *)
Definition agrees (p : pkg) (v : V) (ts : list term) : Prop := forall t, In t ts -> t_pkg t = p -> allow (t_con t) v.
Lemma join_spec : forall ts c c' v, join_constraints S V O c ts = Ok c' -> (allow c' v <-> allow c v /\ forall t, In t ts -> allow (t_con t) v).
Proof.
  intros ts. induction ts as [|t ts IH]; intros c c' v H; cbn in H; [injection H as <-; split; [intro A; split; [exact A|intros t []]|tauto]|]. apply bind_ok in H. destruct H as (c1 & E & H). rewrite (IH _ _ v H), (law_inter O law _ _ _ v E), andb_true_iff. split.
  - intros [[A B] C]. split; [exact A|]. intros u [<-|J]; auto.
  - intros [A B]. split; [split; [exact A|apply B; left; reflexivity]|]. intros u J. apply B. right. exact J.
Qed.
Lemma pset_keys : forall A p (v : A) d, NoDup (map fst d) -> NoDup (map fst (pset p v d)).
Proof.
  intros A p v d. induction d as [|[r w] d IH]; intro N; cbn; [repeat constructor; intros []|]. destruct (p =? r)%N eqn:E; [exact N|]. cbn in *. inversion N as [|? ? N1 N2]; subst. constructor; [|exact (IH N2)]. intro J. apply N1. apply N.eqb_neq in E.
  clear -J E. induction d as [|[r' w'] d IH]; cbn in *; [destruct J as [J|[]]; congruence|]. destruct (p =? r')%N eqn:E2; [exact J|]. cbn in J. destruct J as [J|J]; auto.
Qed.
Lemma group_spec : forall ts g, NoDup (map fst g) -> NoDup (map fst (group_terms S ts g)) /\ forall p t, In t (plist p (group_terms S ts g)) <-> In t (plist p g) \/ (In t ts /\ t_pkg t = p).
Proof.
  intros ts. induction ts as [|u ts IH]; intros g N; cbn [group_terms]; [split; [exact N|intros p t; cbn; tauto]|].
  destruct (IH (pset (t_pkg u) (plist (t_pkg u) g ++ [u]) g) (pset_keys _ _ _ _ N)) as [A B]. split; [exact A|]. intros p t. rewrite B. destruct (N.eq_dec p (t_pkg u)) as [->|NE].
  - rewrite plist_pset_same, in_app_iff. cbn. split; [intros [[X|[X|[]]]|[X Y]]; subst; auto|]. intros [X|[[X|X] Y]]; subst; auto.
  - rewrite plist_pset_other by exact NE. cbn. split; [intros [X|[X Y]]; auto|]. intros [X|[[X|X] Y]]; subst; auto. contradiction.
Qed.
Lemma join_groups_spec : forall g l, NoDup (map fst g) -> join_groups S V O g = Ok l ->
  NoDup (map t_pkg l) /\ (forall t, In t l -> In (t_pkg t) (map fst g)) /\ forall p v, agrees p v l <-> forall t, In t (plist p g) -> allow (t_con t) v.
Proof.
  intros g. induction g as [|[r ts] g IH]; intros l N H.
  - cbn in H. injection H as <-. split; [constructor|]. split; [intros t []|]. intros p v. split; [intros _ t []|intros _ t []].
  - cbn in N. inversion N as [|? ? N1 N2]; subst. assert (PL : forall p, plist p ((r, ts) :: g) = if (p =? r)%N then ts else plist p g) by (intro p; unfold plist; cbn; destruct (p =? r)%N; reflexivity).
    assert (PN : plist r g = []) by (unfold plist; rewrite (proj2 (pget_none _ r g) N1); reflexivity).
    destruct ts as [|t ts]; cbn [join_groups] in H.
    + destruct (IH l N2 H) as (A & B & C). split; [exact A|]. split; [intros u J; right; exact (B u J)|]. intros p v. rewrite C, PL. destruct (p =? r)%N eqn:E; [|tauto]. apply N.eqb_eq in E. subst p. rewrite PN. tauto.
    + apply bind_ok in H. destruct H as (c & EC & H). apply bind_ok in H. destruct H as (rest & ER & H). injection H as <-. destruct (IH rest N2 ER) as (A & B & C). split; [|split].
      * cbn. constructor; [|exact A]. intro J. apply in_map_iff in J. destruct J as (u & E & J). apply N1. rewrite <- E. exact (B u J).
      * intros u [<-|J]; [left; reflexivity|right; exact (B u J)].
      * intros p v. rewrite PL. destruct (p =? r)%N eqn:E.
        -- apply N.eqb_eq in E. subst p. split.
           ++ intros AG u J. assert (X : allow c v) by (exact (AG (T r c) (or_introl eq_refl) eq_refl)). apply (join_spec _ _ _ v EC) in X. destruct X as [X Y]. destruct J as [<-|J]; auto.
           ++ intros AG u [<-|J] EP; cbn [t_con]; [apply (join_spec _ _ _ v EC); split; [apply AG; left; reflexivity|intros z Jz; apply AG; right; exact Jz]|]. exfalso. apply N1. rewrite <- EP. exact (B u J).
        -- apply N.eqb_neq in E. rewrite <- C. split; intros AG u J EP; [apply AG; [right; exact J|exact EP]|]. destruct J as [<-|J]; [cbn in EP; congruence|exact (AG u J EP)].
Qed.
Lemma create_spec : forall ts l, create_terms S V O ts = Ok l -> NoDup (map t_pkg l) /\ forall p v, agrees p v l <-> agrees p v ts.
Proof.
  intros ts l H. unfold create_terms in H. apply bind_ok in H. destruct H as (l0 & J & H). injection H as <-. destruct (group_spec ts [] ltac:(constructor)) as [G1 G2]. destruct (join_groups_spec _ _ G1 J) as (A & _ & C). pose proof (sort_perm l0) as PM. split.
  - eapply Permutation_NoDup; [apply Permutation_map; exact PM|exact A].
  - intros p v. assert (X : agrees p v (sort_terms S l0) <-> agrees p v l0). { split; intros AG t I0; apply AG; [exact (Permutation_in _ PM I0)|exact (Permutation_in _ (Permutation_sym PM) I0)]. }
    rewrite X, C. split; intros AG t I0.
    + intro E. apply AG. apply G2. auto.
    + apply G2 in I0. destruct I0 as [[]|[I0 E]]. exact (AG t I0 E).
Qed.

(** ** checking *)
Lemma find_in_some : forall t l a, find_in S V O t None l = Ok (Some a) -> In a l.
Proof. intros t l a. induction l as [|b l IH]; cbn; intro H; [discriminate|]. apply bind_ok in H. destruct H as (ok & E & H). destruct ok; [injection H as ->; left; reflexivity|right; exact (IH H)]. Qed.
Lemma satisfier_some : forall s t a, find_satisfier S V O s t None = Ok (Some a) -> In a (assignments S s (t_pkg t)) /\ exists b, last_of (assignments S s (t_pkg t)) = Some b /\ o_all O (t_con t) (a_acc S b) = Ok true.
Proof.
  intros s t a H. unfold find_satisfier, accumulated in H. destruct (last_of (assignments S s (t_pkg t))) as [b|] eqn:L; cbn [option_map] in H; [|discriminate]. apply bind_ok in H. destruct H as (ok & E & H). destruct ok; [|discriminate]. split; [exact (find_in_some _ _ _ H)|]. exists b. auto.
Qed.
Definition met (s : psol) (t : term) : Prop := exists b, last_of (assignments S s (t_pkg t)) = Some b /\ o_all O (t_con t) (a_acc S b) = Ok true.
Lemma latest_in : forall l (a : assignment), In (latest S l a) (a :: l).
Proof. intros l. induction l as [|b l IH]; intros a; [left; reflexivity|]. cbn [latest]. set (z := if a_order S a <? a_order S b then b else a). destruct (IH z) as [X|X]; [|right; right; exact X]. rewrite <- X. unfold z. destruct (_ <? _); [right; left|left]; reflexivity. Qed.
Lemma check_terms_full : forall s i ts open sats a p, check_terms S V O s i ts open sats = Ok (Full S a p) ->
  open = None /\ (forall t, In t ts -> met s t) /\ (In a sats \/ exists t, In t ts /\ In a (assignments S s (t_pkg t))).
Proof.
  intros s i ts. induction ts as [|u ts IH]; intros open sats a p H; cbn in H.
  - destruct open; [discriminate|]. split; [reflexivity|]. split; [intros t []|]. destruct sats as [|b r]; [discriminate|]. unfold create_full in H. apply bind_ok in H. destruct H as (rest & _ & H). injection H as <- _. left. apply latest_in.
  - apply bind_ok in H. destruct H as (f & F & H). destruct f as [b|].
    + destruct (IH _ _ _ _ H) as (A & B & C). destruct (satisfier_some _ _ _ F) as [F1 F2]. split; [exact A|]. split; [intros t [<-|J]; [exact F2|exact (B t J)]|]. destruct C as [C|(t & J & C)]; [|right; exists t; split; [right; exact J|exact C]]. apply in_app_iff in C. destruct C as [C|[<-|[]]]; [left; exact C|]. right. exists u. split; [left; reflexivity|exact F1].
    + apply bind_ok in H. destruct H as (im & _ & H). destruct im; [discriminate|]. destruct open; [discriminate|]. destruct (IH _ _ _ _ H) as (A & _). discriminate.
Qed.
Lemma check_terms_others : forall s i ts open sats t, check_terms S V O s i ts open sats = Ok (Almost S t) -> (open = Some t /\ forall u, In u ts -> met s u) \/ (open = None /\ forall u, In u ts -> u = t \/ met s u).
Proof.
  intros s i ts. induction ts as [|u ts IH]; intros open sats t H; cbn in H.
  - destruct open as [x|]; [injection H as ->; left; split; [reflexivity|intros u []]|]. unfold create_full in H. destruct sats; [discriminate|]. apply bind_ok in H. destruct H as (r & _ & H). discriminate.
  - apply bind_ok in H. destruct H as (f & F & H). destruct f as [b|].
    + destruct (satisfier_some _ _ _ F) as [_ F2]. destruct (IH _ _ _ H) as [[A B]|[A B]]; [left|right]; (split; [exact A|]); intros z [<-|J]; auto.
    + apply bind_ok in H. destruct H as (im & _ & H). destruct im; [discriminate|]. destruct open; [discriminate|]. right. split; [reflexivity|]. destruct (IH _ _ _ H) as [[A B]|[A B]]; [|discriminate]. injection A as ->. intros z [<-|J]; auto.
Qed.
Lemma check_plain_of : forall s i r, r <> Unsat S -> check_satisfaction S V O s i = Ok r -> check_terms S V O s i (i_terms S i) None [] = Ok r.
Proof.
  intros s i r NU H. assert (G : check_plain S V O s i = Ok r).
  { unfold check_satisfaction in H. destruct (i_dep S i) as [[dt dd]|]; [|exact H]. destruct (accumulated S s (t_pkg dt)) as [acc|]; [|congruence]. apply bind_ok in H. destruct H as (any & _ & H). destruct any; [exact H|]. destruct (o_is_nothing O acc); [congruence|]. apply bind_ok in H. destruct H as (all & _ & H). destruct all; [exact H|congruence]. }
  unfold check_plain in G. destruct (some_impossible S V O s (i_terms S i)); [congruence|exact G].
Qed.
Lemma check_full : forall s i a p, check_satisfaction S V O s i = Ok (Full S a p) -> i_terms S i <> [] /\ (forall t, In t (i_terms S i) -> met s t) /\ exists t, In t (i_terms S i) /\ In a (assignments S s (t_pkg t)).
Proof.
  intros s i a p H. apply check_plain_of in H; [|discriminate]. destruct (check_terms_full _ _ _ _ _ _ _ H) as (_ & A & B). destruct B as [[]|B]. split; [|split; [exact A|exact B]]. intro E. rewrite E in B. destruct B as (t & [] & _).
Qed.
Lemma check_others : forall s i t u, check_satisfaction S V O s i = Ok (Almost S t) -> In u (i_terms S i) -> u = t \/ met s u.
Proof. intros s i t u H J. apply check_plain_of in H; [|discriminate]. destruct (check_terms_others _ _ _ _ _ _ H) as [[A _]|[_ B]]; [discriminate|exact (B u J)]. Qed.

(** ** what is known about a choice *)
Hypothesis no_diff : forall a b, exists e, o_diff O a b = Err e.
Variable U : pkg -> Prop.
Variable sel : pkg -> V.
Definition sat (t : term) : Prop := allow (t_con t) (sel (t_pkg t)).
Definition valid (i : incompat) : Prop := NoDup (map t_pkg (i_terms S i)) /\ ~ (forall t, In t (i_terms S i) -> sat t).
Definition terms_at (h : list incompat) (n : nat) : list term := i_terms S (nth n h (I S [] None false)).
(** what the cause of an assignment says about the choice *)
Definition follows (h : list incompat) (a : assignment) : Prop :=
  match a_cause S a with
  | None => True
  | Some c => c < length h /\ (exists t, In t (terms_at h c) /\ t_pkg t = t_pkg (a_term S a)) /\
      ((forall u, In u (terms_at h c) -> t_pkg u <> t_pkg (a_term S a) -> sat u) -> sat (a_term S a)) /\
      (forall u, In u (terms_at h c) -> t_pkg u <> t_pkg (a_term S a) -> t_pkg u = root -> sat u)
  end.
Definition rooted (s : psol) : Prop := assignments S s root <> [] /\ forall a, In a (assignments S s root) -> single S V O (a_acc S a) (sel root) /\ a_level S a = 0.
Record core (x : state) : Prop := {
  c_heap : forall i, In i (x_heap S V x) -> valid i;
  c_asn : forall p a, In a (assignments S (x_sol S V x) p) -> t_pkg (a_term S a) = p /\ follows (x_heap S V x) a;
  c_req : forall p, In p (map fst (s_required S (x_sol S V x))) -> U p;
  c_avail : forall p n, pget p (x_avail S V x) = Some n -> n < length (x_heap S V x) /\ exists c, terms_at (x_heap S V x) n = [T p c] }.
Definition firm (x : state) : Prop := core x /\ rooted (x_sol S V x).
Definition fresh (x : state) : Prop := core x /\ (forall p, assignments S (x_sol S V x) p = []) /\ s_decisions S (x_sol S V x) = [] /\
  exists nv, x_heap S V x = [I S [T root nv] None false] /\ forall w, allow nv w <-> w <> sel root.
(** incompatibilities stay, but for the constraint of a single term *)
Definition ext (h h' : list incompat) : Prop := length h <= length h' /\
  forall c, c < length h -> terms_at h' c = terms_at h c \/ exists p a b, terms_at h c = [T p a] /\ terms_at h' c = [T p b].
Lemma ext_refl : forall h, ext h h.
Proof. intro h. split; auto. Qed.
Lemma ext_app : forall h l, ext h (h ++ l).
Proof. intros h l. split; [rewrite app_length; lia|]. intros c L. left. unfold terms_at. rewrite app_nth1 by exact L. reflexivity. Qed.
Lemma follows_ext : forall h h' a, ext h h' -> follows h a -> follows h' a.
Proof.
  intros h h' a [L E] F. unfold follows in *. destruct (a_cause S a) as [c|]; [|exact Logic.I]. destruct F as (F1 & (t & F2 & F3) & F4 & F5). split; [lia|]. destruct (E c F1) as [->|(p & s1 & s2 & E1 & E2)]; [split; [exists t; auto|auto]|].
  rewrite E1 in *. rewrite E2. destruct F2 as [<-|[]]. cbn [t_pkg] in F3. split; [exists (T p s2); split; [left; reflexivity|exact F3]|]. split.
  - intros _. apply F4. intros u [<-|[]] NE. exfalso. apply NE. exact F3.
  - intros u [<-|[]] NE. exfalso. apply NE. exact F3.
Qed.
Lemma inc_valid : forall x n, core x -> n < length (x_heap S V x) -> valid (inc S V x n).
Proof. intros x n C L. apply (c_heap x C). apply nth_In. exact L. Qed.
Lemma met_root : forall s t, rooted s -> met s t -> t_pkg t = root -> sat t.
Proof.
  intros s t [_ R] (b & L & A) E. unfold sat. rewrite E in *. assert (J : In b (assignments S s root)) by (apply last_of_some in L; destruct L as (l & ->); apply in_or_app; right; left; reflexivity). destruct (R b J) as [SG _].
  apply (law_all O law) in A; [|exists (sel root); apply SG; reflexivity]. apply A; [reflexivity|]. apply SG. reflexivity.
Qed.
Lemma almost_root : forall s i t, rooted s -> check_satisfaction S V O s i = Ok (Almost S t) -> t_pkg t <> root.
Proof.
  intros s i t [NE R] H E. destruct (check_almost S V O s i t H) as (_ & F & AN). rewrite E in AN. destruct (last_of (assignments S s root)) as [b|] eqn:L; [|apply last_of_none in L; contradiction].
  assert (J : In b (assignments S s root)) by (pose proof L as L'; apply last_of_some in L'; destruct L' as (l & ->); apply in_or_app; right; left; reflexivity). destruct (R b J) as [SG _].
  rewrite <- E in L. pose proof (satisfier_none S V O s t F b L) as X. specialize (AN b eq_refl). apply (law_any O law) in AN. destruct (proj1 AN eq_refl) as (w & W1 & W2). apply SG in W1. subst w.
  apply (law_all O law) in X; [|exists (sel root); apply SG; reflexivity]. assert (false = true); [|discriminate]. apply X. intros w W. apply SG in W. subst w. exact W2.
Qed.
Lemma same_term : forall l (t u : term), NoDup (map t_pkg l) -> In t l -> In u l -> t_pkg t = t_pkg u -> t = u.
Proof.
  intros l t u. induction l as [|a l IH]; intros N A B E; [contradiction|]. cbn in N. inversion N as [|? ? N1 N2]; subst. destruct A as [<-|A], B as [<-|B]; auto.
  - exfalso. apply N1. rewrite E. apply in_map. exact B.
  - exfalso. apply N1. rewrite <- E. apply in_map. exact A.
Qed.
(** an almost satisfied incompatibility *)
Lemma derive_core : forall x n t nt s, core x -> n < length (x_heap S V x) -> check_satisfaction S V O (x_sol S V x) (inc S V x n) = Ok (Almost S t) ->
  (forall u, In u (i_terms S (inc S V x n)) -> u <> t -> t_pkg u = root -> sat u) ->
  negate S V O t = Ok nt -> assign_term S V O root (x_sol S V x) nt (Some n) = Ok s ->
  core (with_sol S V x s) /\ t_pkg nt = t_pkg t /\ exists a, s = assign S (x_sol S V x) a /\ make_assignment S V O root (x_sol S V x) nt (Some n) = Ok a.
Proof.
  intros x n t nt s C L CK HR EN ES. unfold negate in EN. apply bind_ok in EN. destruct EN as (c & EC & EN). injection EN as <-. unfold assign_term in ES. apply bind_ok in ES. destruct ES as (a & MA & ES). injection ES as <-.
  split; [|split; [reflexivity|exists a; auto]]. destruct (check_almost S V O _ _ _ CK) as (IT & _ & _). destruct (inc_valid x n C L) as [ND NS].
  apply make_assignment_spec in MA. destruct MA as (ET & EA & _). destruct C as [C1 C2 C3 C4]. constructor; cbn [x_heap x_sol x_avail with_sol]; auto.
  intros p b J. rewrite assign_lookup, ET in J. cbn [t_pkg] in J.
  assert (G : t_pkg (a_term S a) = t_pkg t /\ follows (x_heap S V x) a).
  { rewrite ET. split; [reflexivity|]. unfold follows. rewrite EA, ET. cbn [t_pkg]. split; [exact L|]. split; [exists t; auto|]. split.
    - intros OT. unfold sat. cbn [t_pkg t_con]. rewrite (law_inverse O law _ _ _ EC). destruct (o_allows O (t_con t) (sel (t_pkg t))) eqn:X; [|reflexivity]. exfalso. apply NS. intros u Iu. destruct (N.eq_dec (t_pkg u) (t_pkg t)) as [E|NE]; [|exact (OT u Iu NE)]. rewrite (same_term _ u t ND Iu IT E). exact X.
    - intros u Iu NE ER. apply HR; [exact Iu|congruence|exact ER]. }
  destruct (p =? t_pkg t)%N eqn:X; [|exact (C2 p b J)]. apply N.eqb_eq in X. subst p. apply in_app_iff in J. destruct J as [J|[<-|[]]]; [exact (C2 _ b J)|exact G].
Qed.
Lemma rooted_other : forall s a, rooted s -> t_pkg (a_term S a) <> root -> rooted (assign S s a).
Proof. intros s a [A B] NE. unfold rooted. rewrite assign_lookup. apply not_eq_sym in NE. apply N.eqb_neq in NE. rewrite NE. auto. Qed.
Lemma derive_firm : forall x n t nt s, firm x -> n < length (x_heap S V x) -> check_satisfaction S V O (x_sol S V x) (inc S V x n) = Ok (Almost S t) ->
  negate S V O t = Ok nt -> assign_term S V O root (x_sol S V x) nt (Some n) = Ok s -> firm (with_sol S V x s).
Proof.
  intros x n t nt s [C R] L CK EN ES. assert (HR : forall u, In u (i_terms S (inc S V x n)) -> u <> t -> t_pkg u = root -> sat u).
  { intros u Iu NE ER. apply (met_root (x_sol S V x)); auto. destruct (check_others _ _ _ u CK Iu) as [X|X]; [contradiction|exact X]. }
  destruct (derive_core x n t nt s C L CK HR EN ES) as (A & EP & a & -> & MA).
  split; [exact A|]. cbn [x_sol with_sol]. apply rooted_other; [exact R|]. apply make_assignment_spec in MA. destruct MA as (-> & _). rewrite EP. exact (almost_root _ _ _ R CK).
Qed.
Lemma core_back : forall x l, core x -> core (with_sol S V x (backtrack S (x_sol S V x) l)).
Proof.
  intros x l [C1 C2 C3 C4]. constructor; cbn [x_heap x_sol x_avail with_sol]; auto.
  - intros p a J. rewrite back_lookup in J. apply filter_In in J. apply C2. apply J.
  - intros p J. apply C3. cbn in J. apply in_map_iff in J. destruct J as (e & <- & J). apply filter_In in J. apply in_map. apply J.
Qed.
Lemma rooted_back : forall s l, rooted s -> rooted (backtrack S s l).
Proof.
  intros s l [A B]. unfold rooted. rewrite back_lookup. rewrite filter_all_true; [auto|]. intros a J. rewrite (proj2 (B a J)). reflexivity.
Qed.
Lemma firm_back : forall x l, firm x -> firm (with_sol S V x (backtrack S (x_sol S V x) l)).
Proof. intros x l [A B]. split; [apply core_back; exact A|apply rooted_back; exact B]. Qed.
(** other heaps *)
Lemma core_heap : forall x x', core x -> x_sol S V x' = x_sol S V x -> x_avail S V x' = x_avail S V x -> ext (x_heap S V x) (x_heap S V x') -> (forall i, In i (x_heap S V x') -> valid i) -> core x'.
Proof.
  intros x x' [C1 C2 C3 C4] ES EA EX NV. constructor; [exact NV| | |].
  - rewrite ES. intros p a J. destruct (C2 p a J) as [A B]. split; [exact A|]. exact (follows_ext _ _ _ EX B).
  - rewrite ES. exact C3.
  - rewrite EA. intros p n G. destruct (C4 p n G) as (L & c & E). destruct EX as [E1 E2]. split; [lia|]. destruct (E2 n L) as [->|(r & a & b & X1 & X2)]; [eauto|]. rewrite E in X1. injection X1 as <- <-. eauto.
Qed.
Lemma sim_ext : forall h h', heap_sim S h h' -> ext h h'.
Proof. intros h h' [L H]. split; [lia|]. intros c _. left. apply H. Qed.
Lemma sim_valid : forall h h', heap_sim S h h' -> (forall i, In i h -> valid i) -> forall i, In i h' -> valid i.
Proof.
  intros h h' [L H] NV i J. apply In_nth with (d := I S [] None false) in J. destruct J as (m & M & <-). unfold valid. rewrite (proj1 (H m)). apply NV. apply nth_In. lia.
Qed.
Lemma add_same : forall x n, heap_sim S (x_heap S V x) (x_heap S V (add_incompatibility S V O x n)) /\ x_sol S V (add_incompatibility S V O x n) = x_sol S V x /\ x_avail S V (add_incompatibility S V O x n) = x_avail S V x.
Proof.
  intros x n. unfold add_incompatibility. destruct (is_some (i_dep S (inc S V x n)) && i_added S (inc S V x n)); [split; [split; auto|auto]|]. destruct (is_some (i_dep S (inc S V x n))); cbn; [|split; [split; auto|auto]]. split; [|auto]. split; [rewrite put_length; reflexivity|].
  intro m. rewrite nth_put_default. destruct ((m =? n) && (n <? _)) eqn:E; [|auto]. apply andb_true_iff in E. destruct E as [E _]. apply Nat.eqb_eq in E. subst m. auto.
Qed.
Lemma core_add : forall x n, core x -> core (add_incompatibility S V O x n).
Proof. intros x n C. destruct (add_same x n) as (A & B & D). apply (core_heap x); auto; [apply sim_ext; exact A|]. exact (sim_valid _ _ A (c_heap x C)). Qed.
Lemma firm_add : forall x n, firm x -> firm (add_incompatibility S V O x n).
Proof. intros x n [C R]. split; [apply core_add; exact C|]. rewrite (proj1 (proj2 (add_same x n))). exact R. Qed.
Lemma inc_add : forall x n m, i_terms S (inc S V (add_incompatibility S V O x n) m) = i_terms S (inc S V x m).
Proof. intros x n m. exact (proj1 (proj2 (proj1 (add_same x n)) m)). Qed.
Lemma length_add : forall x n, length (x_heap S V (add_incompatibility S V O x n)) = length (x_heap S V x).
Proof. intros x n. symmetry. exact (proj1 (proj1 (add_same x n))). Qed.

(** ** conflicts *)
Lemma not_tautology : forall i, valid i -> (forall u, In u (i_terms S i) -> t_pkg u = root -> sat u) -> is_tautology S root i = false.
Proof.
  intros i [_ NS] HR. unfold is_tautology. destruct (i_terms S i) as [|t [|u l]]; [exfalso; apply NS; intros t []| |reflexivity]. destruct (t_pkg t =? root)%N eqn:E; [|reflexivity]. apply N.eqb_eq in E. exfalso. apply NS. intros u [<-|[]]. apply HR; [left; reflexivity|exact E].
Qed.
Definition prior_of (sp : pkg) (ts : list term) (acc : list term) : list term := fold_left (fun l u => if (t_pkg u =? sp)%N then l else add_term S V O u l) ts acc.
Lemma prior_sat : forall sp p v ts acc, agrees p v (prior_of sp ts acc) <-> agrees p v acc /\ forall u, In u ts -> t_pkg u <> sp -> t_pkg u = p -> allow (t_con u) v.
Proof.
  intros sp p v ts. induction ts as [|u ts IH]; intros acc; cbn [prior_of fold_left]; [split; [intro A; split; [exact A|intros u []]|tauto]|]. fold (prior_of sp ts (if (t_pkg u =? sp)%N then acc else add_term S V O u acc)). rewrite IH. destruct (t_pkg u =? sp)%N eqn:E.
  - apply N.eqb_eq in E. split; [intros [A B]; split; [exact A|]; intros z [<-|J] NE; [contradiction|apply B; auto]|]. intros [A B]. split; [exact A|]. intros z J. apply B. right. exact J.
  - apply N.eqb_neq in E. assert (G : agrees p v (add_term S V O u acc) <-> agrees p v acc /\ (t_pkg u = p -> allow (t_con u) v)).
    { unfold add_term. destruct (existsb (term_eqb S V O u) acc) eqn:X.
      - split; [|tauto]. intro A. split; [exact A|]. intro EP. apply existsb_exists in X. destruct X as (z & J & X). unfold term_eqb in X. apply andb_true_iff in X. destruct X as [X1 X2]. apply N.eqb_eq in X1. rewrite (law_eqb O law _ _ v X2). apply A; [exact J|congruence].
      - split.
        + intro A. split; [intros z J; apply A; apply in_or_app; left; exact J|]. apply A. apply in_or_app. right. left. reflexivity.
        + intros [A B] z J. apply in_app_iff in J. destruct J as [J|[<-|[]]]; [exact (A z J)|exact B]. }
    rewrite G. split.
    + intros [[A B] D]. split; [exact A|]. intros z [<-|J] NE EP; auto.
    + intros [A B]. split; [split; [exact A|intro EP; apply (B u); [left; reflexivity|exact E|exact EP]]|]. intros z J. apply B. right. exact J.
Qed.
Lemma resolve_no : forall fuel x n orig a p, firm x -> n < length (x_heap S V x) -> (forall u, In u (i_terms S (inc S V x n)) -> t_pkg u = root -> sat u) -> In a (assignments S (x_sol S V x) (t_pkg (a_term S a))) ->
  noU (resolve_conflict S V O root fuel x n orig a p) /\ forall x' r, resolve_conflict S V O root fuel x n orig a p = Ok (x', r) -> firm x'.
Proof.
  intros fuel. induction fuel as [|fuel IH]; intros x n orig a p F L HR IA; [split; [discriminate|discriminate]|]. cbn [resolve_conflict]. set (i := inc S V x n).
  rewrite (not_tautology i (inc_valid x n (proj1 F) L) HR). set (x0 := add_trouble S V x (i_terms S i)).
  assert (F0 : firm x0) by (destruct F as [[C1 C2 C3 C4] R]; split; [constructor; assumption|exact R]).
  destruct (is_decision S a || _).
  - match goal with |- context [if n =? orig then ?y else _] => set (x1 := y) end. assert (F1 : firm x1) by (apply firm_back; exact F0).
    set (x2 := if n =? orig then x1 else add_incompatibility S V O x1 n). assert (F2 : firm x2) by (unfold x2; destruct (n =? orig); [exact F1|apply firm_add; exact F1]).
    assert (L2 : n < length (x_heap S V x2)) by (unfold x2; destruct (n =? orig); [|rewrite length_add]; exact L). split.
    + apply noU_bind; [apply noU_check|]. intros [|t|? ?] CK; [discriminate| |discriminate]. apply noU_bind; [apply noU_negate|]. intros nt EN. apply noU_bind; [apply noU_assign|]. intros s _. discriminate.
    + intros x' r H. apply bind_ok in H. destruct H as (st & CK & H). destruct st as [|t|]; try discriminate. apply bind_ok in H. destruct H as (nt & EN & H). apply bind_ok in H. destruct H as (s & ES & H). injection H as <- <-. exact (derive_firm x2 n t nt s F2 L2 CK EN ES).
  - destruct (term_for S i (t_pkg (a_term S a))) as [t|] eqn:ET; [|split; discriminate]. destruct (a_cause S a) as [c|] eqn:EC; [|split; discriminate]. destruct (terms_eqb S V O (inc S V x0 c) i); [split; discriminate|].
    set (sp := t_pkg (a_term S a)) in *. fold (prior_of sp (i_terms S i ++ i_terms S (inc S V x0 c)) []). set (prior := prior_of sp (i_terms S i ++ i_terms S (inc S V x0 c)) []).
    unfold term_for in ET. apply List.find_some in ET. destruct ET as [IT ET]. apply N.eqb_eq in ET. destruct F as [C R]. destruct (c_asn x C sp a IA) as [_ FO]. unfold follows in FO. rewrite EC in FO. fold sp in FO. destruct FO as (LC & _ & FO1 & FO2). destruct (inc_valid x n C L) as [ND NS]. fold i in ND, NS.
    assert (OTHERS : forall u, In u (i_terms S i ++ i_terms S (inc S V x0 c)) -> In u (i_terms S i) \/ In u (terms_at (x_heap S V x) c)) by (intros u J; apply in_app_iff in J; exact J).
    assert (NEW : o_all O (t_con t) (t_con (a_term S a)) = Ok true -> forall ts, create_terms S V O prior = Ok ts -> valid (I S ts None false) /\ forall u, In u ts -> t_pkg u = root -> sat u).
    { intros AL ts EQ. destruct (create_spec _ _ EQ) as [N1 AG]. split; [split; [exact N1|]|].
      - cbn [i_terms]. intro ALL. assert (X : forall u, In u (i_terms S i ++ i_terms S (inc S V x0 c)) -> t_pkg u <> sp -> sat u).
        { intros u J NE. assert (Y : agrees (t_pkg u) (sel (t_pkg u)) prior) by (apply AG; intros z Jz EZ; rewrite <- EZ; exact (ALL z Jz)). apply prior_sat in Y. exact (proj2 Y u J NE eq_refl). }
        assert (SA : sat (a_term S a)) by (apply FO1; intros u J NE; apply X; [apply in_or_app; right; exact J|exact NE]).
        apply NS. intros u J. destruct (N.eq_dec (t_pkg u) sp) as [E|NE]; [|apply X; [apply in_or_app; left; exact J|exact NE]]. assert (u = t) by (apply (same_term _ u t ND J IT); congruence). subst u.
        unfold sat. rewrite E. apply (law_all O law) in AL; [|exists (sel sp); exact SA]. apply AL; [reflexivity|exact SA].
      - intros u J EU. assert (Y : agrees root (sel root) ts).
        { apply AG. apply prior_sat. split; [intros z []|]. intros z Jz NE EZ. rewrite <- EZ. apply OTHERS in Jz. destruct Jz as [Jz|Jz]; [exact (HR z Jz EZ)|exact (FO2 z Jz NE EZ)]. }
        unfold sat. rewrite EU. exact (Y u J EU). }
    destruct (o_all O (t_con t) (t_con (a_term S a))) as [[|]|e] eqn:EO; cbn [bind negb orb].
    2: { destruct (no_diff (a_acc S a) (t_con t)) as (e & E). pose proof (qt_diff O q (a_acc S a) (t_con t)) as Q. rewrite E in *. cbn. split; [intro X; apply Q; injection X as ->; reflexivity|discriminate]. }
    2: { pose proof (qt_all O q (t_con t) (t_con (a_term S a))) as Q. rewrite EO in Q. split; [intro X; apply Q; injection X as ->; reflexivity|discriminate]. }
    assert (EP : exists r, (if match prior with [] => true | _ => false end then do d <- o_diff O (a_acc S a) (t_con t); do d <- o_inverse O d; Ok (add_term S V O (T sp d) prior) else Ok prior) = r /\ noU r /\ forall l, r = Ok l -> l = prior).
    { eexists. split; [reflexivity|]. destruct prior as [|u l]; [|split; [discriminate|congruence]]. destruct (no_diff (a_acc S a) (t_con t)) as (e & E). pose proof (qt_diff O q (a_acc S a) (t_con t)) as Q. rewrite E in *. cbn. split; [intro X; apply Q; injection X as ->; reflexivity|discriminate]. }
    destruct EP as (r & -> & RU & RE).
    assert (STEP : forall ts, create_terms S V O prior = Ok ts -> let (x1, m) := new_inc S V x0 (I S ts None false) in
      firm x1 /\ m < length (x_heap S V x1) /\ (forall u, In u (i_terms S (inc S V x1 m)) -> t_pkg u = root -> sat u) /\ x_sol S V x1 = x_sol S V x).
    { intros ts EQ. destruct (NEW eq_refl ts EQ) as [N1 N2]. cbn [new_inc]. set (x1 := with_heap S V x0 (x_heap S V x0 ++ [I S ts None false])).
      assert (IM : inc S V x1 (length (x_heap S V x0)) = I S ts None false) by (unfold inc; cbn; rewrite app_nth2 by lia; rewrite Nat.sub_diag; reflexivity). split; [|split; [cbn; rewrite app_length; cbn; lia|split; [rewrite IM; exact N2|reflexivity]]].
      split; [|exact R]. apply (core_heap x0); [exact (proj1 F0)|reflexivity|reflexivity|apply ext_app|]. cbn. intros j J. apply in_app_iff in J. destruct J as [J|[<-|[]]]; [exact (c_heap x C j J)|exact N1]. }
    split.
    + apply noU_bind; [exact RU|]. intros l El. rewrite (RE l El). apply noU_bind; [apply noU_create|]. intros ts EQ. specialize (STEP ts EQ). destruct (new_inc S V x0 (I S ts None false)) as [x1 m]. destruct STEP as (F1 & L1 & H1 & S1).
      rewrite (not_tautology (inc S V x1 m) (inc_valid x1 m (proj1 F1) L1) H1). apply noU_bind; [apply noU_check|]. intros [|?|a' p'] CK; try discriminate. destruct (check_full _ _ _ _ CK) as (_ & _ & z & _ & Z). apply IH; auto. rewrite (proj1 (c_asn x1 (proj1 F1) _ _ Z)). exact Z.
    + intros x' r' H. apply bind_ok in H. destruct H as (l & El & H). rewrite (RE l El) in H. apply bind_ok in H. destruct H as (ts & EQ & H). specialize (STEP ts EQ). destruct (new_inc S V x0 (I S ts None false)) as [x1 m]. destruct STEP as (F1 & L1 & H1 & S1).
      rewrite (not_tautology (inc S V x1 m) (inc_valid x1 m (proj1 F1) L1) H1) in H. apply bind_ok in H. destruct H as (st & CK & H). destruct st as [|?|a' p']; try discriminate. destruct (check_full _ _ _ _ CK) as (_ & _ & z & _ & Z). refine (proj2 (IH x1 m orig a' p' F1 L1 H1 _) x' r' H). rewrite (proj1 (c_asn x1 (proj1 F1) _ _ Z)). exact Z.
Qed.
(** ** propagation *)
Lemma inc_in : forall x n, i_terms S (inc S V x n) <> [] -> n < length (x_heap S V x).
Proof. intros x n H. destruct (le_lt_dec (length (x_heap S V x)) n) as [L|L]; [|exact L]. exfalso. apply H. unfold inc. rewrite nth_overflow by exact L. reflexivity. Qed.
Lemma fresh_check : forall x n r, fresh x -> check_satisfaction S V O (x_sol S V x) (inc S V x n) = Ok r -> exists nv, n = 0 /\ r = Almost S (T root nv) /\ x_heap S V x = [I S [T root nv] None false] /\ forall w, allow nv w <-> w <> sel root.
Proof.
  intros x n r (C & A & D & nv & H & W) CK. unfold inc in CK. rewrite H in CK. assert (AC : accumulated S (x_sol S V x) root = None) by (unfold accumulated; rewrite A; reflexivity).
  destruct n as [|n]; [|exfalso; destruct n; cbn in CK; discriminate]. exists nv. split; [reflexivity|]. split; [|auto]. cbn in CK. unfold check_plain in CK. cbn in CK. unfold find_satisfier in CK. cbn in CK. rewrite AC in CK. cbn in CK. injection CK as <-. reflexivity.
Qed.
Lemma process_no : forall fuel todo x changed, firm x \/ fresh x ->
  noU (process S V O root fuel todo x changed) /\ forall x' ch, process S V O root fuel todo x changed = Ok (x', ch) -> firm x' \/ fresh x'.
Proof.
  intros fuel todo. induction todo as [|n todo IH]; intros x changed F; cbn [process]; [split; [discriminate|intros x' ch H; injection H as <- <-; exact F]|].
  assert (STEP : forall t nt s, check_satisfaction S V O (x_sol S V x) (inc S V x n) = Ok (Almost S t) -> negate S V O t = Ok nt -> assign_term S V O root (x_sol S V x) nt (Some n) = Ok s -> firm (with_sol S V x s)).
  { intros t nt s CK EN ES. destruct (check_almost S V O _ _ _ CK) as (IT & _ & _). assert (L : n < length (x_heap S V x)) by (apply inc_in; intro E; rewrite E in IT; contradiction). destruct F as [F|F]; [exact (derive_firm x n t nt s F L CK EN ES)|].
    destruct (fresh_check x n _ F CK) as (nv & -> & E & H & W). injection E as ->. destruct F as (C & A & D & _).
    assert (HR : forall u, In u (i_terms S (inc S V x 0)) -> u <> T root nv -> t_pkg u = root -> sat u) by (unfold inc; rewrite H; cbn; intros u [<-|[]] NE; contradiction).
    destruct (derive_core x 0 (T root nv) nt s C L CK HR EN ES) as (CC & EP & a & -> & MA). split; [exact CC|]. cbn [x_sol with_sol]. unfold rooted. apply make_assignment_spec in MA. destruct MA as (ET & _ & _ & LV & AC). cbn [t_pkg] in EP. rewrite assign_lookup, ET, EP, N.eqb_refl, A. cbn. split; [discriminate|]. intros b [<-|[]].
    unfold accumulated in AC. rewrite A in AC. cbn in AC. split; [|rewrite LV; unfold level; rewrite D; reflexivity]. intro w. rewrite AC. unfold negate in EN. apply bind_ok in EN. destruct EN as (c & EC & EN). injection EN as <-. cbn [t_con]. rewrite (law_inverse O law _ _ w EC), negb_true_iff. cbn [t_con]. split.
    - intro X. destruct (o_allows O nv w) eqn:Y; [discriminate|]. clear X.
      (* versions are compared by what is allowed *)
      apply (law_match O law). destruct (o_allows O (o_match O (sel root)) w) eqn:Z; [reflexivity|]. assert (w <> sel root) by (intro E; subst w; rewrite (proj2 (law_match O law _ _) eq_refl) in Z; discriminate). apply W in H0. congruence.
    - intros ->. destruct (o_allows O nv (sel root)) eqn:Y; [|reflexivity]. exfalso. apply W in Y. apply Y. reflexivity. }
  assert (FULL : forall a p, check_satisfaction S V O (x_sol S V x) (inc S V x n) = Ok (Full S a p) -> noU (resolve_conflict S V O root fuel x n n a p) /\ forall x' r, resolve_conflict S V O root fuel x n n a p = Ok (x', r) -> firm x').
  { intros a p CK. destruct F as [F|F]; [|destruct (fresh_check x n _ F CK) as (nv & _ & E & _); discriminate]. destruct (check_full _ _ _ _ CK) as (NE & MT & z & _ & Z). apply resolve_no; [exact F|apply inc_in; exact NE| |].
    - intros u J E. exact (met_root _ u (proj2 F) (MT u J) E).
    - rewrite (proj1 (c_asn x (proj1 F) _ _ Z)). exact Z. }
  split.
  - apply noU_bind; [apply noU_check|]. intros [|t|a p] CK; [apply IH; exact F| |].
    + apply noU_bind; [apply noU_negate|]. intros nt EN. apply noU_bind; [apply noU_assign|]. intros s ES. apply IH. left. exact (STEP t nt s CK EN ES).
    + destruct (FULL a p CK) as [A B]. apply noU_bind; [exact A|]. intros [x1 r] E. apply IH. left. exact (B x1 r E).
  - intros x' ch H. apply bind_ok in H. destruct H as (st & CK & H). destruct st as [|t|a p].
    + exact (proj2 (IH x changed F) x' ch H).
    + apply bind_ok in H. destruct H as (nt & EN & H). apply bind_ok in H. destruct H as (s & ES & H). exact (proj2 (IH _ _ (or_introl (STEP t nt s CK EN ES))) x' ch H).
    + apply bind_ok in H. destruct H as ([x1 r] & E & H). exact (proj2 (IH _ _ (or_introl (proj2 (FULL a p CK) x1 r E))) x' ch H).
Qed.
Lemma propagate_no : forall pick fuel x changed, firm x \/ fresh x -> noU (propagate S V O root pick fuel x changed) /\ forall x', propagate S V O root pick fuel x changed = Ok x' -> firm x' \/ fresh x'.
Proof.
  intros pick fuel. induction fuel as [|fuel IH]; intros x changed F; destruct changed as [|c r]; cbn [propagate]; try (split; [discriminate|intros x' H; injection H as <-; exact F]); [split; discriminate|].
  match goal with |- noU (do xc <- process S V O root ?f ?l ?y ?z; _) /\ _ => destruct (process_no f l y z F) as [A B] end. split.
  - apply noU_bind; [exact A|]. intros [x1 ch] E. apply IH. exact (B x1 ch E).
  - intros x' H. apply bind_ok in H. destruct H as ([x1 ch] & E & H). exact (proj2 (IH x1 ch (B x1 ch E)) x' H).
Qed.

(** ** decisions *)
Hypothesis tidy_problem : tidy P.
Hypothesis unshared_problem : unshared O P.
Hypothesis choice : complete_choice O P root U sel.
Hypothesis selfless : forall p v ts t, p_deps P p v = Some ts -> In t ts -> t_pkg t <> p.
Hypothesis special : forall p a v w, o_special O a = Some v -> allow a w -> ~ In w (p_versions P p).
Notation pversion := (pversion S V).
Notation table_ok := (table_ok S V O P). Notation built := (built S V O P). Notation item_ok := (item_ok S V O P).
Definition tables (vs : list (pkg * list pversion)) : Prop := forall p, plist p vs = [] \/ length (plist p vs) = length (p_versions P p).
Lemma built_own : forall p l0 k pv w, built p = Ok l0 -> nth_error l0 k = Some pv -> In w (p_versions P p) -> allow (v_range S V pv) w -> w = v_version S V pv.
Proof.
  intros p l0 k pv w H EK IW AW. destruct tidy_problem as [ND _].
  assert (TR : forall u v w : V, In u (p_versions P p) -> In v (p_versions P p) -> In w (p_versions P p) -> o_vlt O u v = true -> o_vlt O v w = true -> o_vlt O u w = true) by (intros u v z _ _ _; apply (law_lt_trans O law)).
  assert (TT : forall i j v w, nth_error (p_versions P p) i = Some v -> nth_error (p_versions P p) j = Some w -> o_vlt O v w = false -> o_vlt O w v = false -> i = j).
  { intros i j v z Hi Hj A B. pose proof (law_total O law _ _ A B) as E. subst z. apply (proj1 (NoDup_nth_error (p_versions P p)) (ND p)); [apply nth_error_Some; congruence|congruence]. }
  destruct (windows_partition S V O (p_versions P p)) with (K := fun _ : V => True) (out := l0) as (A & B & C & _).
  - intros v z _ _. apply (law_lt O law).
  - exact TR.
  - exact TT.
  - auto.
  - intros v z _ _. apply (law_lt O law).
  - intros u v z _ _ _. apply (law_lt_trans O law).
  - intros z _. apply (law_everything O law).
  - intros a b s z _ _ _ _ _ E. apply (law_window O law). exact E.
  - exact H.
  - rewrite <- A in IW. apply in_map_iff in IW. destruct IW as (b & EB & IB). apply In_nth_error in IB. destruct IB as (j & EJ). pose proof (B j b EJ) as AB. rewrite EB in AB. assert (k = j) by (exact (C k j pv b w Logic.I EK EJ AW AB)). subst j. rewrite EK in EJ. injection EJ as ->. symmetry. exact EB.
Qed.
Lemma versions_more : forall x p x' l, table_ok (x_versions S V x) -> tables (x_versions S V x) -> package_versions S V O P x p = Ok (x', l) ->
  tables (x_versions S V x') /\ x_avail S V x' = x_avail S V x /\ forall w, In w (p_versions P p) -> exists k pv, nth_error l k = Some pv /\ v_version S V pv = w.
Proof.
  intros x p x' l TO TB H. unfold package_versions in H. destruct (plist p (x_versions S V x)) as [|y r] eqn:E.
  - apply bind_ok in H. destruct H as (l1 & B & H). injection H as <- <-. destruct (built_facts S V O P law tidy_problem p l1 B) as (F1 & _). split; [|split; [reflexivity|]].
    + cbn. intro r. destruct (N.eq_dec r p) as [->|NE]; [rewrite plist_pset_same; right; rewrite <- F1, map_length; reflexivity|rewrite plist_pset_other by exact NE; apply TB].
    + intros w J. rewrite <- F1 in J. apply in_map_iff in J. destruct J as (pv & EV & J). apply In_nth_error in J. destruct J as (k & J). exists k, pv. auto.
  - injection H as <- <-. split; [exact TB|]. split; [reflexivity|]. intros w J. apply In_nth_error in J. destruct J as (k & J). destruct (TB p) as [X|X]; [congruence|]. rewrite E in X. destruct (nth_error (y :: r) k) as [pv|] eqn:EN.
    + exists k, pv. split; [exact EN|]. rewrite <- E in EN. destruct (TO p k pv EN) as (l0 & pv0 & B & N0 & R). destruct (built_facts S V O P law tidy_problem p l0 B) as (F1 & _). rewrite <- F1, nth_error_map, N0 in J. cbn in J. injection J as <-. symmetry. apply R.
    + apply nth_error_None in EN. assert (k < length (p_versions P p)) by (apply nth_error_Some; congruence). lia.
Qed.
Lemma combine_nth : forall (l : list pversion) n k pv, nth_error l k = Some pv -> In (Some (n + k), pv) (combine (map Some (seq n (length l))) l).
Proof.
  intros l. induction l as [|y l IH]; intros n k pv H; [destruct k; discriminate|]. cbn. destruct k as [|k]; cbn in H; [injection H as ->; left; rewrite Nat.add_0_r; reflexivity|]. right. rewrite Nat.add_succ_r. exact (IH (Datatypes.S n) k pv H).
Qed.
Lemma matching_more : forall ps x x' ms, table_ok (x_versions S V x) -> tables (x_versions S V x) -> matching S V O P x ps = Ok (x', ms) ->
  tables (x_versions S V x') /\ x_avail S V x' = x_avail S V x /\
  forall p l, In (p, l) ms -> (forall v, In (None, v) l -> o_special O (v_range S V v) = Some (v_version S V v)) /\
    forall acc w, accumulated S (x_sol S V x) p = Some acc -> In w (p_versions P p) -> allow acc w -> exists k v, In (k, v) l /\ v_version S V v = w.
Proof.
  intros ps. induction ps as [|p ps IH]; intros x x' ms TO TB H; cbn [matching] in H; [injection H as <- <-; split; [exact TB|split; [reflexivity|intros p l []]]|].
  destruct (accumulated S (x_sol S V x) p) as [acc|] eqn:EA; [|discriminate]. apply bind_ok in H. destruct H as ([x1 l1] & H1 & H). apply bind_ok in H. destruct H as ([x2 ms2] & H2 & H). cbn [fst snd] in *. injection H as <- <-.
  assert (G : table_ok (x_versions S V x1) /\ tables (x_versions S V x1) /\ x_sol S V x1 = x_sol S V x /\ x_avail S V x1 = x_avail S V x /\ (forall v, In (None, v) l1 -> o_special O (v_range S V v) = Some (v_version S V v)) /\
    forall w, In w (p_versions P p) -> allow acc w -> exists k v, In (k, v) l1 /\ v_version S V v = w).
  { destruct (o_special O acc) as [v|] eqn:ES.
    - injection H1 as <- <-. split; [exact TO|]. split; [exact TB|]. split; [reflexivity|]. split; [reflexivity|]. split; [|intros w J A; exfalso; exact (special p acc v w ES A J)]. intros u J. destruct (p_has P p v); [|contradiction]. destruct J as [J|[]]. injection J as <-. exact ES.
    - apply bind_ok in H1. destruct H1 as ([x0 l] & PV & H1). cbn [fst snd] in H1. injection H1 as <- <-. destruct (package_versions_spec S V O P law tidy_problem x p x0 l TO PV) as (A & (B & _) & _). destruct (versions_more x p x0 l TO TB PV) as (D & E & F).
      split; [exact A|]. split; [exact D|]. split; [exact B|]. split; [exact E|]. split.
      + intros v J. apply filter_In in J. destruct J as [J _]. apply combine_items in J. destruct J as (j & X & _). discriminate.
      + intros w J AW. destruct (F w J) as (k & pv & EN & <-). exists (Some k), pv. split; [|reflexivity]. apply filter_In. split; [exact (combine_nth l 0 k pv EN)|exact AW]. }
  destruct G as (T1 & B1 & S1 & A1 & G1 & G2). destruct (IH x1 x2 ms2 T1 B1 H2) as (B2 & A2 & G3). rewrite S1 in G3. split; [exact B2|]. split; [congruence|]. intros r l [E|J]; [|exact (G3 r l J)]. injection E as <- <-. split; [exact G1|]. intros acc' w E. rewrite EA in E. injection E as <-. apply G2.
Qed.
Lemma set_version_more : forall x p k v, tables (x_versions S V x) -> tables (x_versions S V (set_version S V x p k v)) /\ x_avail S V (set_version S V x p k v) = x_avail S V x.
Proof.
  intros x p k v TB. destruct k as [k|]; [|auto]. split; [|reflexivity]. cbn. intro r. destruct (N.eq_dec r p) as [->|NE]; [|rewrite plist_pset_other by exact NE; apply TB]. rewrite plist_pset_same, put_length. destruct (TB p) as [X|X]; [left; rewrite X; unfold put; destruct k; reflexivity|right; exact X].
Qed.
Lemma first_more : forall l x p x' k v, tables (x_versions S V x) -> first_usable S V P x p l = Some (x', (k, v)) ->
  tables (x_versions S V x') /\ x_avail S V x' = x_avail S V x /\ exists v0, In (k, v0) l /\ v_range S V v = v_range S V v0 /\ v_version S V v = v_version S V v0.
Proof.
  intros l. induction l as [|[k0 v0] l IH]; intros x p x' k v TB H; cbn in H; [discriminate|]. destruct (fetch S V P p v0) as [v1|] eqn:EF.
  - injection H as <- <- <-. destruct (set_version_more x p k0 v1 TB) as [A B]. split; [exact A|]. split; [exact B|]. exists v0. split; [left; reflexivity|]. unfold fetch in EF. destruct (v_deps S V v0) as [[|? ?]|]; try (destruct (p_deps P p (v_version S V v0)); [|discriminate]); injection EF as <-; auto.
  - destruct (IH x p x' k v TB H) as (A & B & v' & J & C). split; [exact A|]. split; [exact B|]. exists v'. split; [right; exact J|exact C].
Qed.
Lemma first_none : forall l x p, first_usable S V P x p l = None -> forall k v, In (k, v) l -> p_deps P p (v_version S V v) = None.
Proof.
  intros l x p. induction l as [|[k0 v0] l IH]; intros H k v J; [contradiction|]. cbn in H. destruct (fetch S V P p v0) as [v1|] eqn:EF; [discriminate|]. destruct J as [J|J]; [|exact (IH H k v J)]. injection J as <- <-. unfold fetch in EF. destruct (v_deps S V v0) as [[|? ?]|]; try discriminate; destruct (p_deps P p (v_version S V v0)); congruence.
Qed.
Lemma compute_more : forall l x p k v x' ns, tables (x_versions S V x) -> compute_incompatibilities S V O x p k v l = Ok (x', ns) -> tables (x_versions S V x') /\ x_avail S V x' = x_avail S V x.
Proof.
  intros l. induction l as [|[d [c n]] l IH]; intros x p k v x' ns TB H; cbn [compute_incompatibilities] in H; [injection H as <- <-; auto|]. apply bind_ok in H. destruct H as ([x1 n1] & C1 & H). apply bind_ok in H. destruct H as ([x2 ns2] & C2 & H). cbn [fst snd] in *. injection H as <- <-.
  assert (G : tables (x_versions S V x1) /\ x_avail S V x1 = x_avail S V x).
  { assert (F : forall r, (do ts <- dependency_terms S V O (T p (v_range S V v)) (T d c);
        (let (x, n) := new_inc S V x (I S ts (Some (T p (v_range S V v), T d c)) false) in
         let v := match k with Some k => match get_version S V x p k with Some w => w | None => v end | None => v end in
         Ok (set_version S V x p k (PV S V (v_version S V v) (v_range S V v) (Some (pset d (c, Some n) (match v_deps S V v with Some l => l | None => [] end))) (v_next S V v)), n))) = Ok r ->
        tables (x_versions S V (fst r)) /\ x_avail S V (fst r) = x_avail S V x).
    { intros r H. apply bind_ok in H. destruct H as (ts & _ & H). cbn [new_inc] in H. injection H as <-. cbn [fst]. match goal with |- context [set_version S V ?y p k ?w] => exact (set_version_more y p k w TB) end. }
    unfold compute_one in C1. destruct (last_requiring _ _ _ _ _ _ _ _ _ _) as [k'|]; [|exact (F _ C1)]. destruct (get_version S V x p k') as [nv|]; [|exact (F _ C1)]. destruct (match v_deps S V nv with Some deps => pget d deps | None => None end) as [[c' [m|]]|]; [|exact (F _ C1)|exact (F _ C1)]. destruct (i_dep S (inc S V x m)) as [[dt dd]|]; [|exact (F _ C1)].
    apply bind_ok in C1. destruct C1 as (u & _ & C1). apply bind_ok in C1. destruct C1 as (ts & _ & C1). injection C1 as <- <-. cbn. auto. }
  destruct G as [G1 G2]. destruct (IH x1 p k v x2 ns2 G1 C2) as [A B]. split; [exact A|congruence].
Qed.
Lemma dep_valid : forall p k v ts t i, U p -> item_ok p k v -> (k = None -> o_special O (v_range S V v) = Some (v_version S V v)) -> p_deps P p (v_version S V v) = Some ts -> In t ts -> dep_incompat S V O p v t i -> valid i.
Proof.
  intros p k v ts t i UP IO SP PD It (ts' & DT & ->). unfold dependency_terms in DT. apply bind_ok in DT. destruct DT as (nt & EN & DT). injection DT as <-. unfold negate in EN. apply bind_ok in EN. destruct EN as (c & EC & EN). injection EN as <-. cbn [t_pkg t_con] in *.
  pose proof (sort_perm [T (t_pkg t) c; T p (v_range S V v)]) as PM. pose proof (selfless p _ ts t PD It) as NE. unfold valid. cbn [i_terms]. split.
  - eapply Permutation_NoDup; [apply Permutation_map; exact PM|]. cbn. constructor; [intros [X|[]]; congruence|]. constructor; [intros []|constructor].
  - intro ALL. assert (A1 : sat (T p (v_range S V v))) by (apply ALL; apply (Permutation_in _ PM); right; left; reflexivity). assert (A2 : sat (T (t_pkg t) c)) by (apply ALL; apply (Permutation_in _ PM); left; reflexivity).
    unfold sat in *. cbn [t_pkg t_con] in *. pose proof (cc_listed _ _ _ _ _ choice p UP) as LI.
    assert (E : sel p = v_version S V v).
    { destruct k as [k|]; [|exfalso; exact (special p _ _ _ (SP eq_refl) A1 LI)]. destruct (it_table _ _ _ _ _ _ _ IO) as (l0 & pv0 & B & N0 & R1 & R2 & _). rewrite <- R1. apply (built_own p l0 k pv0); [exact B|exact N0|exact LI|rewrite R2; exact A1]. }
    destruct (cc_deps _ _ _ _ _ choice p UP) as (us & PD' & AL). rewrite E, PD in PD'. injection PD' as <-. specialize (AL t It). rewrite (law_inverse O law _ _ _ EC), AL in A2. discriminate.
Qed.
Lemma unavailable_no : forall x p acc x', firm x -> U p -> accumulated S (x_sol S V x) p = Some acc -> ~ allow acc (sel p) -> unavailable S V O x p = Ok x' -> firm x' /\ x_versions S V x' = x_versions S V x.
Proof.
  intros x p acc x' [C R] UP EA NA H. unfold unavailable in H. rewrite EA in H. destruct (pget p (x_avail S V x)) as [n|] eqn:EG.
  - destruct (c_avail x C p n EG) as (L & c & ET). unfold terms_at in ET. fold (inc S V x n) in ET. rewrite ET in H. apply bind_ok in H. destruct H as (u & EU & H). injection H as <-. split; [|reflexivity]. split; [|exact R]. cbn [t_pkg].
    pose proof (inc_valid x n C L) as [_ NS]. rewrite ET in NS.
    apply (core_heap x); [exact C|reflexivity|reflexivity| |].
    + split; [cbn; rewrite put_length; lia|]. intros m Lm. unfold terms_at. cbn. rewrite nth_put_default. destruct ((m =? n) && (n <? _)) eqn:E; [|left; reflexivity]. right. apply andb_true_iff in E. destruct E as [E _]. apply Nat.eqb_eq in E. subst m. exists p, c, u. split; [exact ET|reflexivity].
    + cbn. intros i J. apply put_in in J. destruct J as [->|J]; [|exact (c_heap x C i J)]. split; cbn; [constructor; [intros []|constructor]|]. intro ALL. specialize (ALL _ (or_introl eq_refl)). unfold sat in ALL. cbn in ALL. rewrite (law_union O law _ _ _ _ EU) in ALL. apply orb_true_iff in ALL. destruct ALL as [X|X]; [|exact (NA X)]. apply NS. intros z [<-|[]]. exact X.
  - apply bind_ok in H. destruct H as (ts & CT & H). cbn [new_inc] in H. injection H as <-. cbn in CT. injection CT as <-. cbn [sort_terms fold_left insert_term].
    match goal with |- firm (add_incompatibility S V O ?y ?m) /\ _ => set (x1 := y) end. assert (F1 : firm x1).
    { split; [|exact R]. destruct C as [C1 C2 C3 C4]. constructor; cbn.
      - intros i J. apply in_app_iff in J. destruct J as [J|[<-|[]]]; [exact (C1 i J)|]. split; cbn; [constructor; [intros []|constructor]|]. intro ALL. exact (NA (ALL _ (or_introl eq_refl))).
      - intros r a J. destruct (C2 r a J) as [A B]. split; [exact A|]. exact (follows_ext _ _ _ (ext_app _ _) B).
      - exact C3.
      - intros r n G. rewrite app_length. cbn. destruct (N.eq_dec r p) as [->|NE].
        + rewrite pget_pset_same in G. injection G as <-. split; [lia|]. exists acc. unfold terms_at. rewrite app_nth2 by lia. rewrite Nat.sub_diag. reflexivity.
        + rewrite pget_pset_other in G by exact NE. destruct (C4 r n G) as (L & c & E). split; [lia|]. exists c. unfold terms_at in *. rewrite app_nth1 by exact L. exact E. }
    split; [apply firm_add; exact F1|]. unfold add_incompatibility. destruct (_ && _); [reflexivity|]. destruct (is_some _); reflexivity.
Qed.

Notation good := (good S V O P root).
Lemma add_all_more : forall ns x, x_avail S V (fold_left (add_incompatibility S V O) ns x) = x_avail S V x.
Proof. intros ns. induction ns as [|n ns IH]; intros x; [reflexivity|]. cbn. rewrite IH. apply add_same. Qed.
Lemma require_in : forall k ps (d : list (pkg * nat)) r, In r (map fst (fold_left (fun req p => if is_none (pget p req) then pset p k req else req) ps d)) -> In r ps \/ In r (map fst d).
Proof.
  intros k ps. induction ps as [|p ps IH]; intros d r J; [right; exact J|]. cbn in J. apply IH in J. destruct J as [J|J]; [left; right; exact J|]. destruct (pget p d) eqn:E; cbn in J; [right; exact J|]. rewrite pset_new, map_app, in_app_iff in J by exact E. cbn in J. destruct J as [J|[J|[]]]; [right; exact J|left; left; exact J].
Qed.
(** the assignment of a decision *)
Lemma decide_firm : forall x p v a ds, firm x -> make_assignment S V O root (x_sol S V x) (T p (o_match O v)) None = Ok a -> (p = root -> s_decisions S (x_sol S V x) = []) ->
  (forall b, last_of (assignments S (x_sol S V x) p) = Some b -> allow (a_acc S b) v) -> (forall d, In d ds -> U d) ->
  firm (with_sol S V x (require S (assign S (x_sol S V x) a) ds)).
Proof.
  intros x p v a ds [C R] MA RT AL UD. apply make_assignment_spec in MA. destruct MA as (ET & EC & _ & EL & EA). cbn [t_pkg t_con] in *.
  assert (LK : forall r, assignments S (require S (assign S (x_sol S V x) a) ds) r = if (r =? p)%N then assignments S (x_sol S V x) r ++ [a] else assignments S (x_sol S V x) r).
  { intro r. change (assignments S (require S (assign S (x_sol S V x) a) ds) r) with (assignments S (assign S (x_sol S V x) a) r). rewrite assign_lookup, ET. reflexivity. }
  split.
  - destruct C as [C1 C2 C3 C4]. constructor; cbn [x_heap x_sol x_avail with_sol]; auto.
    + intros r b J. rewrite LK in J. destruct (r =? p)%N eqn:E; [|exact (C2 r b J)]. apply N.eqb_eq in E. subst r. apply in_app_iff in J. destruct J as [J|[<-|[]]]; [exact (C2 p b J)|]. rewrite ET. split; [reflexivity|]. unfold follows. rewrite EC. exact Logic.I.
    + intros r J. cbn in J. apply require_in in J. destruct J as [J|J]; [exact (UD r J)|exact (C3 r J)].
  - cbn [x_sol with_sol]. unfold rooted. rewrite LK. destruct (root =? p)%N eqn:E; [|exact R]. apply N.eqb_eq in E. subst p. destruct R as [R1 R2]. split; [destruct (assignments S (x_sol S V x) root); discriminate|].
    intros b J. apply in_app_iff in J. destruct J as [J|[<-|[]]]; [exact (R2 b J)|]. split.
    + unfold accumulated in EA. destruct (last_of (assignments S (x_sol S V x) root)) as [z|] eqn:LZ; [|apply last_of_none in LZ; contradiction]. cbn in EA. assert (JZ : In z (assignments S (x_sol S V x) root)) by (apply last_of_some in LZ; destruct LZ as (l & ->); apply in_or_app; right; left; reflexivity).
      destruct (R2 z JZ) as [SG _]. specialize (AL z eq_refl). apply SG in AL. subst v. intro w. rewrite (law_inter O law _ _ _ w EA), andb_true_iff, (SG w), (law_match O law). tauto.
    + rewrite EL, N.eqb_refl. cbn. unfold level. rewrite (RT eq_refl). reflexivity.
Qed.
Lemma make_next_no : forall x qq, good x qq [] -> tables (x_versions S V x) -> firm x \/ fresh x ->
  noU (make_next_decision S V O P root x) /\ forall x' p, make_next_decision S V O P root x = Ok (x', Some p) -> firm x' /\ tables (x_versions S V x').
Proof.
  intros x qq (IV & HO & TO & PE) TB F. unfold make_next_decision. destruct (undecided S (x_sol S V x)) as [|u0 us] eqn:EU; [split; discriminate|].
  assert (MTU := noU_matching (u0 :: us) x). destruct (matching S V O P x (u0 :: us)) as [[x1 ms]|e] eqn:MT; [|split; [intro E; apply MTU; cbn in E; injection E as ->; reflexivity|discriminate]]. cbn [bind fst snd]. clear MTU.
  destruct (matching_spec S V O P law tidy_problem _ x x1 ms TO MT) as (T1 & (S1 & H1 & I1) & AC & NE & MS). destruct (matching_more _ x x1 ms TO TB MT) as (B1 & A1 & MM).
  assert (FM : firm x).
  { destruct F as [F|(_ & A & _)]; [exact F|]. exfalso. apply (AC u0); [left; reflexivity|]. unfold accumulated. rewrite A. reflexivity. }
  assert (F1 : firm x1).
  { destruct FM as [C R]. split; [|rewrite S1; exact R]. apply (core_heap x); [exact C|exact S1|exact A1|rewrite H1; apply ext_refl|]. rewrite H1. exact (c_heap x C). }
  destruct ms as [|e rest]; [split; discriminate|]. destruct (best_package S V x1 rest e) as [p versions] eqn:EB. assert (BI := best_in S V x1 rest e). rewrite EB in BI. destruct (MS p versions BI) as (PU & acc & EA & ITS). destruct (MM p versions BI) as [SPC COV]. rewrite <- EU in PU. apply undecided_in in PU. destruct PU as [PR PN].
  assert (UP : U p) by (apply (c_req x (proj1 FM)); exact PR).
  destruct (first_usable S V P x1 p versions) as [[x2 [k v]]|] eqn:EF.
  - destruct (first_usable_spec S V O P tidy_problem versions x1 p x2 k v T1 (fun k v J => proj1 (ITS k v J)) EF) as (T2 & (S2 & H2 & I2) & IO & (v0 & V1 & V2) & ts & FE & CU). destruct (first_more versions x1 p x2 k v B1 EF) as (B2 & A2 & w0 & W1 & W2 & W3).
    assert (FE0 := FE). destruct FE0 as (PD & ld & VD & VW). rewrite VD.
    assert (F2 : firm x2).
    { destruct F1 as [C R]. split; [|rewrite S2; exact R]. apply (core_heap x1); [exact C|exact S2|exact A2|rewrite H2; apply ext_refl|]. rewrite H2. exact (c_heap x1 C). }
    assert (CIU := noU_compute ld x2 p k v). destruct (compute_incompatibilities S V O x2 p k v ld) as [[x3 ns]|e'] eqn:CI; [|split; [intro E; apply CIU; cbn in E; injection E as ->; reflexivity|discriminate]]. cbn [bind fst snd]. clear CIU.
    destruct (compute_spec S V O P law tidy_problem unshared_problem ts x2 p k v ts x3 ns ld T2 IO FE CU (fun t J => J) VW CI) as (T3 & S3 & I3 & is & H3 & N3 & F3). destruct (compute_more _ _ _ _ _ _ _ B2 CI) as [B3 A3].
    assert (SP : k = None -> o_special O (v_range S V v) = Some (v_version S V v)) by (intros ->; rewrite W2, W3; apply SPC; exact W1).
    assert (IV3 : forall i, In i is -> valid i).
    { intros i J. assert (X : exists t, In t ts /\ dep_incompat S V O p v t i).
      { clear -F3 J. revert F3 J. revert ts. induction is as [|i0 is IH]; intros ts F J; [contradiction|]. inversion F as [|t ? ts' ? F1 F2]; subst. destruct J as [<-|J]; [exists t; split; [left; reflexivity|exact F1]|]. destruct (IH ts' F2 J) as (t' & A & B). exists t'. split; [right; exact A|exact B]. }
      destruct X as (t & It & DI). exact (dep_valid p k v ts t i UP IO SP PD It DI). }
    assert (F3' : firm x3).
    { destruct F2 as [C R]. split; [|rewrite S3; exact R]. apply (core_heap x2); [exact C|exact S3|exact A3|rewrite H3; apply ext_app|]. rewrite H3. intros i J. apply in_app_iff in J. destruct J as [J|J]; [exact (c_heap x2 C i J)|exact (IV3 i J)]. }
    set (x4 := fold_left (add_incompatibility S V O) ns x3).
    assert (F4 : firm x4 /\ x_sol S V x4 = x_sol S V x3 /\ x_versions S V x4 = x_versions S V x3).
    { unfold x4. clear -F3' law. revert x3 F3'. induction ns as [|n ns IH]; intros x3 F; [auto|]. cbn. destruct (IH _ (firm_add x3 n F)) as (A & B & D). split; [exact A|]. rewrite B, D. split; [apply add_same|]. unfold add_incompatibility. destruct (_ && _); [reflexivity|]. destruct (is_some _); reflexivity. }
    destruct F4 as (F4 & S4 & V4). assert (B4 : tables (x_versions S V x4)) by (rewrite V4; exact B3). assert (SS : x_sol S V x4 = x_sol S V x) by congruence.
    assert (AV : allow acc (v_version S V v)) by (rewrite <- V2; apply (ITS k v0 V1)).
    assert (RT : p = root -> s_decisions S (x_sol S V x) = []).
    { intros ->. destruct (n_root _ _ _ _ _ _ _ IV) as [[X _]|(a0 & rst & X)]; [exact X|]. rewrite X in PN. cbn in PN. rewrite N.eqb_refl in PN. discriminate. }
    assert (UD : forall d, In d (map fst ld) -> U d).
    { intros d J. rewrite (view_keys S ld ts VW) in J. apply in_map_iff in J. destruct J as (t & <- & J). exact (cc_closed _ _ _ _ _ choice p _ ts t UP (it_listed _ _ _ _ _ _ _ IO) PD J). }
    assert (LAST : forall b, last_of (assignments S (x_sol S V x) p) = Some b -> allow (a_acc S b) (v_version S V v)).
    { intros b LB. unfold accumulated in EA. rewrite LB in EA. cbn in EA. injection EA as <-. exact AV. }
    split.
    + apply noU_bind; [apply noU_make|]. intros a MA. apply noU_bind; [apply noU_conflicting|]. intros cs _. apply noU_bind; [destruct cs; [discriminate|apply noU_adjust]|]. intros [x5 ok] _. cbn [fst snd]. destruct ok; [|discriminate]. apply noU_bind; [destruct cs; [discriminate|apply noU_make]|]. intros a' _. discriminate.
    + intros x' r H. apply bind_ok in H. destruct H as (a & MA & H). apply bind_ok in H. destruct H as (cs & _ & H). rewrite SS in MA.
      assert (FIN : forall l a', a' = a /\ l = None \/ (exists n, l = Some n /\ make_assignment S V O root (backtrack S (x_sol S V x) n) (T p (o_match O (v_version S V v))) None = Ok a') ->
        firm (with_sol S V x4 (require S (assign S (match l with None => x_sol S V x | Some n => backtrack S (x_sol S V x) n end) a') (map fst ld)))).
      { intros l a' [[-> ->]|(n & -> & MA')].
        - rewrite <- SS in MA |- *. apply (decide_firm x4 p (v_version S V v)); [exact F4|exact MA|rewrite SS; exact RT|rewrite SS; exact LAST|exact UD].
        - rewrite <- SS in MA' |- *. refine (decide_firm (with_sol S V x4 (backtrack S (x_sol S V x4) n)) p (v_version S V v) a' (map fst ld) (firm_back x4 n F4) MA' _ _ UD).
          + intro E. cbn. rewrite SS, (RT E). reflexivity.
          + cbn [x_sol with_sol]. rewrite SS. intros b LB. rewrite back_lookup in LB. assert (JB : In b (assignments S (x_sol S V x) p)).
            { apply last_of_some in LB. destruct LB as (l' & LB). assert (K : In b (filter (fun a0 => a_level S a0 <=? n) (assignments S (x_sol S V x) p))) by (rewrite LB; apply in_or_app; right; left; reflexivity). apply filter_In in K. apply K. }
            destruct (last_of (assignments S (x_sol S V x) p)) as [z|] eqn:LZ; [|apply last_of_none in LZ; rewrite LZ in JB; contradiction].
            destruct (sorted_last _ (narrower S V O) _ z b (n_sorted _ _ _ _ _ _ _ IV p) LZ JB) as [->|NN]; [exact (LAST z eq_refl)|apply NN; exact (LAST z eq_refl)]. }
      destruct cs as [|c0 cs].
      * cbn [bind fst snd] in H. injection H as <- <-. rewrite SS. split; [exact (FIN None a (or_introl (conj eq_refl eq_refl)))|exact B4].
      * apply bind_ok in H. destruct H as ([x5 ok] & AT & H). cbn [fst snd] in H. unfold attempt_minor_adjustments in AT. apply bind_ok in AT. destruct AT as (lv & _ & AT).
        destruct lv as [l|]; [destruct (requirement_level S (x_sol S V x4) p <=? l)|]; injection AT as <- <-; cbn [bind fst snd] in H; [|injection H as <- <-; auto|injection H as <- <-; auto].
        apply bind_ok in H. destruct H as (a' & MA' & H). injection H as <- <-. cbn [x_sol with_sol] in *. rewrite SS in *. split; [|exact B4]. exact (FIN (Some l) a' (or_intror (ex_intro _ l (conj eq_refl MA')))).
  - split.
    + apply noU_bind; [apply noU_unavailable|]. intros x2 _. discriminate.
    + intros x' r H. apply bind_ok in H. destruct H as (x2 & UN & H). injection H as <- <-.
      assert (NA : ~ allow acc (sel p)).
      { intro A. destruct (COV acc (sel p) EA (cc_listed _ _ _ _ _ choice p UP) A) as (k & v & J & E). pose proof (first_none _ _ _ EF k v J) as X. rewrite E in X. destruct (cc_deps _ _ _ _ _ choice p UP) as (ts & Y & _). congruence. }
      destruct (unavailable_no x1 p acc x2 F1 UP ltac:(rewrite S1; exact EA) NA UN) as [A B]. split; [exact A|]. rewrite B. exact B1.
Qed.

(** ** solve *)
Lemma solve_loop_no : forall pick fuel x qq, good x qq [qq] -> tables (x_versions S V x) -> firm x \/ fresh x -> noU (solve_loop S V O P root pick fuel x qq).
Proof.
  intros pick fuel. induction fuel as [|fuel IH]; intros x qq (IV & HO & TO & PE) TB F; [discriminate|]. cbn [solve_loop]. destruct (propagate_no pick (Datatypes.S fuel) x [qq] F) as [A B]. apply noU_bind; [exact A|]. intros x1 PR. specialize (B x1 PR).
  destruct (propagate_spec S V O P root law pick (Datatypes.S fuel) x [qq] x1 qq IV HO PE PR) as (J1 & J2 & J3 & J4). assert (G : good x1 qq []) by (split; [exact J1|split; [exact J2|split; [rewrite J4; exact TO|exact J3]]]).
  assert (TB1 : tables (x_versions S V x1)) by (rewrite J4; exact TB). destruct (make_next_no x1 qq G TB1 B) as [M1 M2]. apply noU_bind; [exact M1|]. intros [x2 r] MN. cbn [fst snd]. destruct r as [p|]; [|discriminate]. destruct (M2 x2 p MN) as [F2 TB2].
  apply IH; [exact (make_next_spec S V O P root law tidy_problem unshared_problem x1 qq x2 (Some p) G MN)|exact TB2|left; exact F2].
Qed.
Lemma start_no : forall x, p_versions P root = [sel root] -> start S V O P root = Ok x -> fresh x /\ tables (x_versions S V x).
Proof.
  intros x RV H. unfold start in H. apply bind_ok in H. destruct H as ([x0 l] & PV & H). cbn [fst snd] in H. destruct l as [|v l]; [discriminate|].
  assert (T0 : table_ok (x_versions S V (state0 S V))) by (intros p k pv E; destruct k; discriminate). assert (TB0 : tables (x_versions S V (state0 S V))) by (intro p; left; reflexivity).
  destruct (package_versions_spec S V O P law tidy_problem _ _ _ _ T0 PV) as (T1 & (S1 & H1 & I1) & IT). destruct (versions_more _ _ _ _ T0 TB0 PV) as (TB1 & A1 & _).
  assert (EV : v_version S V v = sel root).
  { destruct (IT 0 v eq_refl) as [_ _ _ (l0 & pv0 & B & N0 & R1 & _)]. destruct (built_facts S V O P law tidy_problem root l0 B) as (F1 & _). rewrite RV in F1. destruct l0 as [|b [|? ?]]; try discriminate. cbn in N0, F1. injection N0 as <-. injection F1 as F1. congruence. }
  apply bind_ok in H. destruct H as (n & EN & H). apply bind_ok in H. destruct H as (ts & CT & H). cbn [new_inc] in H. injection H as <-. unfold negate in EN. apply bind_ok in EN. destruct EN as (c & EC & EN). injection EN as <-. cbn in CT. injection CT as <-. cbn [t_pkg t_con] in *.
  match goal with |- context [add_incompatibility S V O ?y ?m] => set (x1 := y); set (n1 := m) end. assert (X1 : x_heap S V x1 = [I S [T root c] None false]) by (unfold x1; cbn; rewrite H1; reflexivity).
  assert (IN : i_dep S (inc S V x1 n1) = None). { unfold inc, x1, n1. cbn. rewrite app_nth2 by lia. rewrite Nat.sub_diag. reflexivity. }
  destruct (add_plain S V O x1 n1 IN) as (A & B & C). destruct (add_same x1 n1) as (_ & _ & D).
  assert (W : forall w, allow c w <-> w <> sel root).
  { intro w. rewrite (law_inverse O law _ _ w EC), negb_true_iff, EV. split.
    - intros X E. subst w. rewrite (proj2 (law_match O law _ _) eq_refl) in X. discriminate.
    - intro NE. destruct (o_allows O (o_match O (sel root)) w) eqn:X; [|reflexivity]. apply (law_match O law) in X. contradiction. }
  assert (SX : x_sol S V (add_incompatibility S V O x1 n1) = psol0 S) by (rewrite A; unfold x1; cbn; rewrite S1; reflexivity). rewrite SX.
  split; [|cbn; rewrite C; exact TB1]. split; [constructor; cbn [x_heap x_sol x_avail with_sol]|].
  - rewrite B, X1. intros i [<-|[]]. split; cbn; [constructor; [intros []|constructor]|]. intro ALL. specialize (ALL _ (or_introl eq_refl)). unfold sat in ALL. cbn in ALL. apply W in ALL. apply ALL. reflexivity.
  - intros p a [].
  - intros p [<-|[]]. exact (cc_root _ _ _ _ _ choice).
  - rewrite D. unfold x1. cbn. rewrite A1. discriminate.
  - split; [reflexivity|]. split; [reflexivity|]. exists c. cbn [x_heap with_sol]. rewrite B. auto.
Qed.
Lemma solve_no : forall pick fuel, p_versions P root = [sel root] -> solve S V O P root pick fuel <> Err UnsatError.
Proof.
  intros pick fuel RV. change (noU (solve S V O P root pick fuel)). unfold solve. apply noU_bind.
  - unfold start. apply noU_bind; [apply noU_versions|]. intros [x l] _. cbn [fst snd]. destruct l; [discriminate|]. apply noU_bind; [apply noU_negate|]. intros n _. apply noU_bind; [apply noU_create|]. intros ts _. cbn. discriminate.
  - intros x ST. destruct (start_no x RV ST) as [F TB]. apply noU_bind; [|discriminate]. apply solve_loop_no; [exact (start_spec S V O P root law tidy_problem x ST)|exact TB|right; exact F].
Qed.
End No.

(** ** runs that compute no difference *)
Section Without.
Variables S V : Type.
Variable O : ops S V.
Notation W := (without_difference O).
Lemma without_lawful : lawful O -> lawful W.
Proof. intros [A1 A2 A3 A4 A5 A6 A7 A8 A9 A10 A11 A12 A13 A14]. constructor; assumption. Qed.
Lemma without_quiet : quiet O -> quiet W.
Proof. intros [A1 A2 A3 A4 A5 A6 A7]. constructor; try assumption. discriminate. Qed.
(** [a] is the result without differences, [b] the one with them *)
Definition up_to {A} (a b : res A) : Prop := a = Err OtherErr \/ b = a.
Lemma up_to_bind : forall A B (a b : res A) (f g : A -> res B), up_to a b -> (forall x, up_to (f x) (g x)) -> up_to (do x <- a; f x) (do x <- b; g x).
Proof. intros A B a b f g [->| ->] H; [left; reflexivity|]. destruct a as [x|e]; [exact (H x)|right; reflexivity]. Qed.
Lemma up_to_refl : forall A (a : res A), up_to a a.
Proof. intros A a. right. reflexivity. Qed.
Lemma resolve_up : forall root fuel x n orig a p, up_to (resolve_conflict S V W root fuel x n orig a p) (resolve_conflict S V O root fuel x n orig a p).
Proof.
  intros root fuel. induction fuel as [|fuel IH]; intros x n orig a p; [apply up_to_refl|]. cbn [resolve_conflict]. destruct (is_tautology S root (inc S V x n)); [apply up_to_refl|]. destruct (is_decision S a || _); [apply up_to_refl|].
  destruct (term_for S (inc S V x n) (t_pkg (a_term S a))) as [t|]; [|apply up_to_refl]. destruct (a_cause S a) as [c|]; [|apply up_to_refl].
  match goal with |- up_to (if ?b then _ else _) (if ?b' then _ else _) => change b with b'; destruct b'; [apply up_to_refl|] end.
  apply up_to_bind; [apply up_to_refl|]. intro ins. apply up_to_bind.
  - match goal with |- up_to (if ?b then _ else _) (if ?b' then _ else _) => change b with b'; destruct b'; [left; reflexivity|apply up_to_refl] end.
  - intro prior. apply up_to_bind; [apply up_to_refl|]. intro ts. cbn [new_inc]. destruct (is_tautology S root _); [apply IH|]. apply up_to_bind; [apply up_to_refl|]. intros [|?|a' p']; [apply up_to_refl|apply up_to_refl|apply IH].
Qed.
Lemma process_up : forall root fuel todo x changed, up_to (process S V W root fuel todo x changed) (process S V O root fuel todo x changed).
Proof.
  intros root fuel todo. induction todo as [|n todo IH]; intros x changed; cbn [process]; [apply up_to_refl|]. apply up_to_bind; [apply up_to_refl|]. intros [|t|a p]; [apply IH| |].
  - apply up_to_bind; [apply up_to_refl|]. intro nt. apply up_to_bind; [apply up_to_refl|]. intro s. apply IH.
  - apply up_to_bind; [apply resolve_up|]. intro xp. apply IH.
Qed.
Lemma propagate_up : forall root pick fuel x changed, up_to (propagate S V W root pick fuel x changed) (propagate S V O root pick fuel x changed).
Proof.
  intros root pick fuel. induction fuel as [|fuel IH]; intros x changed; destruct changed as [|c r]; cbn [propagate]; try apply up_to_refl. apply up_to_bind; [apply process_up|]. intro xc. apply IH.
Qed.
Lemma solve_up : forall P root pick fuel, up_to (solve S V W P root pick fuel) (solve S V O P root pick fuel).
Proof.
  intros P root pick fuel. unfold solve. apply up_to_bind; [apply up_to_refl|]. intro x0. apply up_to_bind; [|intro x; apply up_to_refl]. generalize root at 2 4. revert x0. induction fuel as [|fuel IH]; intros x0 r; cbn [solve_loop]; [apply up_to_refl|].
  apply up_to_bind; [apply propagate_up|]. intro x1. apply up_to_bind; [apply up_to_refl|]. intros [x2 [p|]]; cbn [fst snd]; [apply IH|apply up_to_refl].
Qed.
End Without.
Lemma wrong_difference : forall S V (O : ops S V) (P : problem S V) root U sel pick fuel, lawful O -> quiet O -> tidy P -> unshared O P ->
  (forall p v ts t, p_deps P p v = Some ts -> In t ts -> t_pkg t <> p) -> (forall p a v w, o_special O a = Some v -> o_allows O a w = true -> ~ In w (p_versions P p)) ->
  p_versions P root = [sel root] -> complete_choice O P root U sel -> solve S V (without_difference O) P root pick fuel <> Err UnsatError.
Proof.
  intros S V O P root U sel pick fuel LW QT TD US SL SP RV [C1 C2 C3 C4]. apply (solve_no S V (without_difference O) P root (without_lawful S V O LW) (without_quiet S V O QT)) with (U := U) (sel := sel); auto.
  - intros a b. exists OtherErr. reflexivity.
  - constructor; assumption.
Qed.
