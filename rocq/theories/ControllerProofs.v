(** Lemmas about ControllerModel. *)
From Coq Require Import String Ascii List Bool NArith Arith Lia.
From Verif Require Import Base BaseFacts FsModel FsFacts NamesModel VersionModel SpecifierModel DependencyModel ProjectModel PlanModel PlanProps ControllerModel.
Import ListNotations.
Open Scope string_scope.
Open Scope nat_scope.
Open Scope list_scope.
Open Scope bool_scope.

Lemma get_put : forall g l c, get_list g (put_list g l c) = l.
Proof. intros g l c. unfold get_list, put_list. destruct (the_group g) as [n|]; cbn; [|reflexivity]. rewrite dict_get_set_same. reflexivity. Qed.
Lemma get_put_other : forall g h l c, the_group h <> the_group g -> get_list h (put_list g l c) = get_list h c.
Proof.
  intros g h l c N. unfold get_list, put_list. destruct (the_group g) as [n|], (the_group h) as [k|]; cbn; try reflexivity; [|congruence].
  rewrite dict_get_set_other; [reflexivity|congruence].
Qed.
Lemma filter_app_none : forall {A} (f : A -> bool) l r, (forall x, In x l -> f x = false) -> filter f (l ++ r) = filter f r.
Proof. intros A f l r H. induction l as [|x l IH]; [reflexivity|]. cbn. rewrite (H x (or_introl eq_refl)). apply IH. intros y I. apply H. right. exact I. Qed.

(** what is written down for a requirement *)
Definition written {Env} (installed : Env -> str -> option (str * version)) (env : Env) (d n : dep) : Prop :=
  (d_spec d <> AllowAll /\ n = d) \/ (d_spec d = AllowAll /\ exists m v, installed env (d_name d) = Some (m, v) /\ generalized m v = Ok n).

Lemma index_of_skip : forall f l x r, (forall y, In y l -> f y = false) -> f x = true -> index_of f (l ++ x :: r) = Some (length l).
Proof. intros f l x r H X. induction l as [|a l IH]; cbn; [rewrite X; reflexivity|]. rewrite (H a (or_introl eq_refl)), IH; [reflexivity|]. intros y I. apply H. right. exact I. Qed.
Lemma replace_skip : forall l x y r, replace_at (length l) y (l ++ x :: r) = l ++ y :: r.
Proof. intros l x y r. induction l as [|a l IH]; [reflexivity|]. cbn. rewrite IH. reflexivity. Qed.

Lemma generalized_name : forall m v n, generalized m v = Ok n -> d_name n = m.
Proof. intros m v n H. destruct (C160_self m v) as (d & G & N & _). congruence. Qed.

Lemma refine_all_written : forall {Env} (installed : Env -> str -> option (str * version)) env,
  (forall n m v, installed env n = Some (m, v) -> package_name_key m = package_name_key n) ->
  (forall n, installed env n <> None -> is_ok (package_name_key n) = true) ->
  forall ds pre done l, NoDup (map dep_key ds) -> (forall x, In x (pre ++ done) -> ~ In (dep_key x) (map dep_key ds)) ->
  refine_all Env installed env (pre ++ done ++ ds) ds = Ok l -> exists news, l = pre ++ done ++ news /\ Forall2 (written installed env) ds news.
Proof.
  intros Env installed env K KO ds. induction ds as [|d ds IH]; intros pre done l ND P H.
  - cbn in H. injection H as <-. exists []. split; [reflexivity|constructor].
  - cbn [refine_all] in H. inversion ND as [|? ? N ND2]; subst.
    assert (STEP : forall n, dep_key n = dep_key d -> refine Env installed env (pre ++ done ++ d :: ds) d = Ok (pre ++ done ++ n :: ds) -> written installed env d n ->
      exists news, l = pre ++ done ++ news /\ Forall2 (written installed env) (d :: ds) news).
    { intros n NK R W. rewrite R in H. cbn [bind] in H. destruct (IH pre (done ++ [n]) l ND2) as (news & E & F).
      - intros x I. rewrite app_assoc in I. apply in_app_iff in I. destruct I as [I|[<-|[]]]; [intro J; apply (P x I); right; exact J|]. rewrite NK. exact N.
      - rewrite <- app_assoc. exact H.
      - exists (n :: news). split; [rewrite E, <- !app_assoc; reflexivity|]. constructor; assumption. }
    destruct (d_spec d) eqn:S; try (apply (STEP d eq_refl); [unfold refine; rewrite S; reflexivity|left; split; [rewrite S; discriminate|reflexivity]]).
    unfold refine in H, STEP. rewrite S in H, STEP. destruct (installed env (d_name d)) as [[m v]|] eqn:I; [|discriminate].
    rewrite app_assoc, (index_of_skip _ (pre ++ done) d ds), <- app_assoc in H.
    + destruct (generalized m v) as [g|] eqn:G; [|discriminate]. apply (STEP g).
      * unfold dep_key. rewrite (generalized_name _ _ _ G), (K _ _ _ I). pose proof (KO (d_name d)) as O. destruct (package_name_key (d_name d)); [reflexivity|]. discriminate O. rewrite I. discriminate.
      * rewrite app_assoc, (index_of_skip _ (pre ++ done) d ds); [cbn [bind]; rewrite replace_skip, <- app_assoc; reflexivity| |apply str_eqb_refl].
        intros y J. destruct (str_eqb (dep_key y) (dep_key d)) eqn:E; [|reflexivity]. apply str_eqb_eq in E. destruct (P y J). left. symmetry. exact E.
      * right. split; [exact S|]. exists m, v. auto.
    + intros y J. destruct (str_eqb (dep_key y) (dep_key d)) eqn:E; [|reflexivity]. apply str_eqb_eq in E. destruct (P y J). left. symmetry. exact E.
    + apply str_eqb_refl.
Qed.
