(** C18: when the resolver reports that there is no solution. *)
From Coq Require Import String Ascii List Bool NArith Arith Lia.
From Verif Require Import Base VersionModel SpecifierModel PubgrubModel PubgrubLaws PubgrubIdeal PubgrubProps PubgrubNo.
Import ListNotations.
Open Scope nat_scope.
Open Scope list_scope.
Open Scope bool_scope.

(** [sel]: a version of every package that can be reached from the root ([U]), such that all of their requirements are met.
    If the resolver says that there is no solution all the same, it has computed a difference of specifiers on its way:
    with an error in place of the difference the search ends with this error. *)
Theorem C18_difference_partial : forall S V (O : ops S V) (P : problem S V) root (U : pkg -> Prop) (sel : pkg -> V) pick fuel,
  lawful O -> quiet O -> tidy P -> unshared O P ->
  (forall p v ts t, p_deps P p v = Some ts -> In t ts -> t_pkg t <> p) ->
  (forall p a v w, o_special O a = Some v -> o_allows O a w = true -> ~ In w (p_versions P p)) ->
  p_versions P root = [sel root] -> U root ->
  (forall p v ts t, U p -> In v (p_versions P p) \/ p_has P p v = true -> p_deps P p v = Some ts -> In t ts -> U (t_pkg t)) ->
  (forall p, U p -> In (sel p) (p_versions P p) /\ exists ts, p_deps P p (sel p) = Some ts /\ forall t, In t ts -> o_allows O (t_con t) (sel (t_pkg t)) = true) ->
  solve S V O P root pick fuel = Err UnsatError -> solve S V (without_difference O) P root pick fuel = Err OtherErr.
Proof.
  intros S V O P root U sel pick fuel LW QT TD US SL SP RV UR UC US2 H. destruct (solve_up S V O P root pick fuel) as [E|E]; [exact E|]. exfalso.
  apply (wrong_difference S V O P root U sel pick fuel LW QT TD US SL SP RV); [|congruence]. constructor; [exact UR|exact UC|intros p J; apply US2; exact J|intros p J; apply US2; exact J].
Qed.
Print Assumptions C18_difference_partial.
(** with differences it is wrong: 1 in version 1, 2 and 4 are a solution, and there is no other package *)
Definition plain_table : table :=
  [(0, [(1, [req 1 None None; req 2 None None; req 4 None None])]); (1, [(2, [req 2 (Some 2) None]); (1, [])]); (2, [(1, [])]); (4, [(1, [req 2 None (Some 4)])])]%N.
Definition plain_solution : list (pkg * fset) := [(0, (false, [1])); (1, (false, [1])); (2, (false, [1])); (4, (false, [1]))]%N.
Theorem C18_complete_refuted : exists P fuel ds, lawful ideal /\ tidy P /\ unshared ideal P /\ solve fset N ideal P 0%N (fun _ => 0) fuel = Err UnsatError /\ is_solution ideal P 0%N ds /\
  forall p, p_versions P p <> [] -> In p (map fst ds).
Proof.
  exists (problem_of plain_table), 60, plain_solution. split; [exact ideal_lawful|]. split; [apply tidy_b_ok; vm_compute; reflexivity|]. split; [apply unshared_b_ok; vm_compute; reflexivity|]. split; [vm_compute; reflexivity|]. split.
  - apply solution_b_sound; [apply nodup_b_ok; vm_compute; reflexivity|vm_compute; reflexivity].
  - intros p NE. cbn in NE. unfold plist in NE. cbn in NE. cbn. destruct (p =? 0)%N eqn:E0; [apply N.eqb_eq in E0; auto|]. destruct (p =? 1)%N eqn:E1; [apply N.eqb_eq in E1; auto|]. destruct (p =? 2)%N eqn:E2; [apply N.eqb_eq in E2; auto|]. destruct (p =? 4)%N eqn:E4; [apply N.eqb_eq in E4; auto 6|]. exfalso. apply NE. reflexivity.
Qed.
Print Assumptions C18_complete_refuted.
(** the same with the specifiers of pkm, whatever element [changed.pop()] takes first: a, b and d are wanted, a 2 wants b >= 2, d wants b < 4;
    a 1, b 1, d 1 is a solution *)
Definition plain_real : real_table :=
  [(0, [(1, [need 1 None None; need 2 None None; need 4 None None])]); (1, [(2, [need 2 (Some 2) None]); (1, [])]); (2, [(1, [])]); (4, [(1, [need 2 None (Some 4)])])]%N.
Theorem C18_complete_real_refuted : exists ds, solve spec version real_ops (real_problem plain_real) 0%N (fun _ => 0) 60 = Err UnsatError /\
  is_solution real_ops (real_problem plain_real) 0%N ds.
Proof.
  set (one := Match (VStd (rel [1%N])) true). exists [(0%N, one); (1%N, one); (2%N, one); (4%N, one)]. split; [vm_compute; reflexivity|].
  split; [apply nodup_b_ok; vm_compute; reflexivity|]. split; [exists (VStd (rel [1%N])); left; reflexivity|].
  intros p c [E|[E|[E|[E|[]]]]]; injection E as <- <-; eexists (VStd (rel [1%N])), _; (split; [reflexivity|]); (split; [left; cbn; auto|]); (split; [reflexivity|]); cbn.
  - intros t [<-|[<-|[<-|[]]]]; exists (VStd (rel [1%N])); (split; [cbn; auto 6|vm_compute; reflexivity]).
  - intros t [].
  - intros t [].
  - intros t [<-|[]]. exists (VStd (rel [1%N])). split; [cbn; auto|vm_compute; reflexivity].
Qed.
Print Assumptions C18_complete_real_refuted.
(** the hypotheses of C18_difference_partial, for the problem above *)
Lemma ideal_quiet : quiet ideal.
Proof. constructor; intros; cbn; try discriminate. unfold fall. destruct (fnothing a); [discriminate|]. destruct (feverything a); discriminate. Qed.
Definition selfless_b (t : table) : bool := forallb (fun e => forallb (fun d => forallb (fun r => negb (t_pkg r =? fst e)%N) (snd d)) (snd e)) t.
Lemma selfless_b_ok : forall t, selfless_b t = true -> forall p v ts r, p_deps (problem_of t) p v = Some ts -> In r ts -> t_pkg r <> p.
Proof.
  intros t H p v ts r D I E. cbn in D. apply dep_get_in in D. unfold selfless_b in H. rewrite forallb_forall in H. specialize (H _ (plist_in t p _ D)). cbn in H. rewrite forallb_forall in H. specialize (H _ D). rewrite forallb_forall in H. specialize (H _ I). subst p. rewrite N.eqb_refl in H. discriminate.
Qed.
Definition closed_b (t : table) (u : list N) : bool := forallb (fun e => forallb (fun d => forallb (fun r => mem (t_pkg r) u) (snd d)) (snd e)) t.
Lemma closed_b_ok : forall t u, closed_b t u = true -> forall p v ts r, p_deps (problem_of t) p v = Some ts -> In r ts -> In (t_pkg r) u.
Proof.
  intros t u H p v ts r D I. cbn in D. apply dep_get_in in D. unfold closed_b in H. rewrite forallb_forall in H. specialize (H _ (plist_in t p _ D)). cbn in H. rewrite forallb_forall in H. specialize (H _ D). rewrite forallb_forall in H. apply mem_in. exact (H _ I).
Qed.
Example C18_difference_example : solve fset N (without_difference ideal) (problem_of plain_table) 0%N (fun _ => 0) 60 = Err OtherErr.
Proof.
  apply (C18_difference_partial fset N ideal (problem_of plain_table) 0%N (fun p => In p [0; 1; 2; 4]%N) (fun _ => 1%N)); try (vm_compute; reflexivity).
  - exact ideal_lawful.
  - exact ideal_quiet.
  - apply tidy_b_ok. vm_compute. reflexivity.
  - apply unshared_b_ok. vm_compute. reflexivity.
  - apply selfless_b_ok. vm_compute. reflexivity.
  - discriminate.
  - left. reflexivity.
  - intros p v ts t _ _ D I. apply (closed_b_ok plain_table [0; 1; 2; 4]%N) with (2 := D) (3 := I). vm_compute. reflexivity.
  - intros p [<-|[<-|[<-|[<-|[]]]]]; (split; [cbn; auto|]); eexists; (split; [reflexivity|]); cbn; intros t I.
    + destruct I as [<-|[<-|[<-|[]]]]; vm_compute; reflexivity.
    + destruct I.
    + destruct I.
    + destruct I as [<-|[]]; vm_compute; reflexivity.
Qed.
(** a resolver without differences is not silent: a problem without solution is still reported as such, and one with a solution can still be solved *)
Example C18_difference_reports : solve fset N (without_difference ideal) (problem_of [(0, [(1, [req 1 (Some 3) None])]); (1, [(2, []); (1, [])])]%N) 0%N (fun _ => 0) 60 = Err UnsatError /\
  exists ds, solve fset N (without_difference ideal) (problem_of [(0, [(1, [req 1 None None])]); (1, [(2, [req 3 (Some 3) None]); (1, [])]); (3, [(1, [])])]%N) 0%N (fun _ => 0) 60 = Ok ds.
Proof. split; [vm_compute; reflexivity|]. eexists. vm_compute. reflexivity. Qed.
