(** C268: the end of the resolution. *)
From Coq Require Import List Bool NArith Arith Lia.
From Verif Require Import Base VersionModel SpecifierModel PubgrubModel PubgrubSolution PubgrubLaws PubgrubReal PubgrubSound PubgrubIdeal PubgrubFuel PubgrubProps.
Import ListNotations.
Open Scope nat_scope.
Open Scope list_scope.
Open Scope bool_scope.

(** the application requires [a] (1) and [b] (2); version 2 of [a] requires a [b] from version 2 on that does not exist;
    [b] requires [c] (3), which requires [b] below version 3 *)
Definition circle : table :=
  [(0, [(1, [req 1 None None; req 2 None None])]); (1, [(2, [req 2 (Some 2) None]); (1, [])]); (2, [(1, [req 3 None None])]); (3, [(1, [req 2 None (Some 3)])])]%N.
Definition real_circle : real_table :=
  [(0, [(1, [need 1 None None; need 2 None None])]); (1, [(2, [need 2 (Some 2) None]); (1, [])]); (2, [(1, [need 3 None None])]); (3, [(1, [need 2 None (Some 3)])])]%N.

(** ** C268 *)
(** the number of rounds that are granted does not matter once it suffices: [Err RecursionErr] is the only answer that may change *)
Theorem C268_answer_is_final : forall S V (O : ops S V) (P : problem S V) (root : pkg) (pick : list pkg -> nat) n m, n <= m ->
  solve S V O P root pick n <> Err RecursionErr -> solve S V O P root pick m = solve S V O P root pick n.
Proof. exact @solve_more. Qed.
Print Assumptions C268_answer_is_final.
Example C268_final_example : exists ds, run_ideal [(0, [(1, [req 1 None None])]); (1, [(2, [req 2 (Some 2) None]); (1, [])]); (2, [(1, [])])]%N 9 = Ok ds /\
  run_ideal [(0, [(1, [req 1 None None])]); (1, [(2, [req 2 (Some 2) None]); (1, [])]); (2, [(1, [])])]%N 2 = Err RecursionErr /\ map fst ds = [0; 1]%N.
Proof. eexists. split; [vm_compute; reflexivity|]. split; vm_compute; reflexivity. Qed.

(** a problem with a solution on which the resolver runs for ever, whatever [changed.pop()] takes *)
Theorem C268_endless_refuted : exists P ds, lawful ideal /\ tidy P /\ unshared ideal P /\ is_solution ideal P 0%N ds /\
  forall pick fuel, solve fset N ideal P 0%N pick fuel = Err RecursionErr.
Proof.
  exists (problem_of circle), [(0, (false, [1])); (1, (false, [1])); (2, (false, [1])); (3, (false, [1]))]%N. split; [exact ideal_lawful|]. split; [apply tidy_b_ok; vm_compute; reflexivity|]. split; [apply unshared_b_ok; vm_compute; reflexivity|].
  split; [apply solution_b_sound; [apply nodup_b_ok; vm_compute; reflexivity|vm_compute; reflexivity]|].
  destruct (start fset N ideal (problem_of circle) 0%N) as [x|e] eqn:E; [|vm_compute in E; discriminate].
  apply (endless ideal (problem_of circle) 0%N (state_dec fset_dec N.eq_dec) 12 40 x E). vm_compute in E. injection E as <-. vm_compute. reflexivity.
Qed.
Print Assumptions C268_endless_refuted.
(** the same with the specifiers of pkm *)
Theorem C268_endless_real_refuted : exists ds, is_solution real_ops (real_problem real_circle) 0%N ds /\
  forall pick fuel, solve spec version real_ops (real_problem real_circle) 0%N pick fuel = Err RecursionErr.
Proof.
  exists (map (fun p => (p, Match (VStd (rel [1%N])) true)) [0; 1; 2; 3]%N). split.
  - split; [apply nodup_b_ok; vm_compute; reflexivity|]. split; [exists (VStd (rel [1%N])); left; reflexivity|].
    intros p c [E|[E|[E|[E|[]]]]]; injection E as <- <-; eexists (VStd (rel [1%N])), _; (split; [reflexivity|]); (split; [left; cbn; auto|]); (split; [reflexivity|]); cbn.
    + intros t [<-|[<-|[]]]; exists (VStd (rel [1%N])); (split; [cbn; auto|vm_compute; reflexivity]).
    + intros t [].
    + intros t [<-|[]]; exists (VStd (rel [1%N])); (split; [cbn; auto|vm_compute; reflexivity]).
    + intros t [<-|[]]; exists (VStd (rel [1%N])); (split; [cbn; auto|vm_compute; reflexivity]).
  - destruct (start spec version real_ops (real_problem real_circle) 0%N) as [x|e] eqn:E; [|vm_compute in E; discriminate].
    apply (endless real_ops (real_problem real_circle) 0%N (state_dec spec_dec version_dec) 12 40 x E). vm_compute in E. injection E as <-. vm_compute. reflexivity.
Qed.
Print Assumptions C268_endless_real_refuted.
