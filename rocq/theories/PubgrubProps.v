(** C15-C18: the dependency resolver. *)
From Coq Require Import String Ascii List Bool NArith Arith Lia.
From Verif Require Import Base VersionModel VersionSpec SpecifierModel SpecifierSpec PubgrubModel PubgrubSolution PubgrubLaws PubgrubReal PubgrubSound PubgrubIdeal.
Import ListNotations.
Open Scope nat_scope.
Open Scope list_scope.
Open Scope bool_scope.

(** ** C15: what the resolver returns is a solution *)
(** for specifier operations that compute the sets they should, problems in which each version is listed once and
    requires each package once, and no two versions of a package put equal constraints on a package *)
Theorem C15_resolution_is_solution_partial : forall S V (O : ops S V) (P : problem S V) (root : pkg) (pick : list pkg -> nat) (fuel : nat) ds,
  lawful O -> tidy P -> unshared O P -> solve S V O P root pick fuel = Ok ds -> is_solution O P root ds.
Proof. intros S V O P root pick fuel ds L T U H. exact (solve_sound S V O P root L T U pick fuel ds H). Qed.
Print Assumptions C15_resolution_is_solution_partial.
(** the newest version of package 1 does not fit *)
Definition sample_table : table :=
  [(0, [(1, [req 1 None None; req 2 None None])]); (1, [(3, [req 2 None (Some 2)]); (2, [req 2 (Some 2) (Some 3)]); (1, [])]);
   (2, [(3, [req 3 (Some 2) None]); (2, [req 3 (Some 1) None]); (1, [req 1 None (Some 3)])]); (3, [(1, [])])]%N.
Example C15_sample : lawful ideal /\ tidy (problem_of sample_table) /\ unshared ideal (problem_of sample_table) /\
  run_ideal sample_table 60 = Ok [(0, (false, [1])); (1, (false, [2])); (2, (false, [2])); (3, (false, [1]))]%N.
Proof. split; [exact ideal_lawful|]. split; [apply tidy_b_ok; vm_compute; reflexivity|]. split; [apply unshared_b_ok; vm_compute; reflexivity|vm_compute; reflexivity]. Qed.

Lemma not_solution : forall t ds, solution_b t 0%N ds = false -> ~ is_solution ideal (problem_of t) 0%N ds.
Proof. intros t ds H X. apply solution_b_complete in X. congruence. Qed.
(** a package required twice by one version: the first requirement is dropped *)
Definition twice_table : table := [(0, [(1, [req 1 None (Some 2); req 1 (Some 1) None])]); (1, [(2, []); (1, [])])]%N.
Theorem C15_required_twice_refuted : exists P fuel ds, lawful ideal /\ unshared ideal P /\ (forall p, NoDup (p_versions P p)) /\
  solve fset N ideal P 0%N (fun _ => 0) fuel = Ok ds /\ ~ is_solution ideal P 0%N ds.
Proof.
  exists (problem_of twice_table), 60, [(0, (false, [1])); (1, (false, [2]))]%N. split; [exact ideal_lawful|]. split; [apply unshared_b_ok; vm_compute; reflexivity|]. split; [|split; [vm_compute; reflexivity|apply not_solution; vm_compute; reflexivity]].
  intros p. cbn. destruct (plist p twice_table) as [|x l] eqn:E; [constructor|]. unfold plist, twice_table in E. cbn in E.
  destruct (p =? 0)%N; [injection E as <- <-; apply nodup_b_ok; vm_compute; reflexivity|]. destruct (p =? 1)%N; [injection E as <- <-; apply nodup_b_ok; vm_compute; reflexivity|discriminate].
Qed.
Print Assumptions C15_required_twice_refuted.
(** versions with equal requirements share one incompatibility, which is widened while it is in use *)
Definition shared_table : table :=
  [(0, [(1, [req 1 None None; req 2 None None; req 3 None None])]); (1, [(3, []); (2, []); (1, [req 2 None None])]);
   (2, [(3, [req 3 (Some 3) None]); (2, [req 3 None (Some 2)]); (1, [])]);
   (3, [(2, [req 1 (Some 2) (Some 3)]); (1, [req 1 (Some 2) (Some 3)])])]%N.
Theorem C15_shared_requirements_refuted : exists P fuel ds, lawful ideal /\ tidy P /\
  solve fset N ideal P 0%N (fun _ => 0) fuel = Ok ds /\ ~ is_solution ideal P 0%N ds.
Proof.
  exists (problem_of shared_table), 60, [(0, (false, [1])); (2, (false, [2])); (3, (false, [1])); (1, (false, [3]))]%N.
  split; [exact ideal_lawful|]. split; [apply tidy_b_ok; vm_compute; reflexivity|]. split; [vm_compute; reflexivity|apply not_solution; vm_compute; reflexivity].
Qed.
Print Assumptions C15_shared_requirements_refuted.
(** with the specifiers of pkm: a post release is not in its own window, so its requirements are ignored *)
Definition std (r : list N) (post : option N) : version := VStd (SV r None None post None None).
Definition post_versions (p : pkg) : list version :=
  (if p =? 0 then [std [1] None] else if p =? 1 then [std [1; 0] (Some 1); std [1; 0] None] else if p =? 2 then [std [2] None; std [1] None] else [])%N.
Definition below_two : spec := Range None (Some (SV [2]%N None None None None None)) false false.
Definition post_deps (p : pkg) (v : version) : option (list (term spec)) :=
  (if p =? 0 then Some [T 1 AllowAll; T 2 AllowAll] else if (p =? 1) && match v with VStd s => is_some (post_release s) | _ => false end then Some [T 2 below_two] else Some [])%N.
Definition post_problem : problem spec version := Problem post_versions post_deps (fun _ _ => false).
Theorem C15_post_release_refuted : exists ds, tidy post_problem /\ unshared real_ops post_problem /\
  solve spec version real_ops post_problem 0%N (fun _ => 0) 60 = Ok ds /\ ~ is_solution real_ops post_problem 0%N ds.
Proof.
  exists [(0%N, Match (std [1%N] None) true); (1%N, Match (std [1; 0]%N (Some 1%N)) true); (2%N, Match (std [2%N] None) true)]. split; [split|split; [|split]].
  - intro p. cbn. unfold post_versions. destruct (p =? 0)%N; [repeat constructor; intros []|]. destruct (p =? 1)%N; [|destruct (p =? 2)%N; [|constructor]]; (constructor; [intros [E|[]]; discriminate|]); (constructor; [intros []|constructor]).
  - intros p v ts H. cbn in H. unfold post_deps in H. destruct (p =? 0)%N; [injection H as <-; cbn; constructor; [intros [E|[]]; discriminate|]; constructor; [intros []|constructor]|]. destruct ((p =? 1)%N && _); injection H as <-; cbn; repeat constructor. intros [].
  - intros p v w ts us t u Iv Iw NE D1 D2 I1 I2 EP. cbn in *. unfold post_versions, post_deps in *. destruct (p =? 0)%N; [destruct Iv as [<-|[]]; destruct Iw as [<-|[]]; congruence|]. destruct (p =? 1)%N; [|injection D1 as <-; contradiction].
    destruct Iv as [<-|[<-|[]]], Iw as [<-|[<-|[]]]; try congruence; cbn in D1, D2; injection D1 as <-; injection D2 as <-; contradiction.
  - vm_compute. reflexivity.
  - intros (_ & _ & H). destruct (H 1%N (Match (std [1; 0]%N (Some 1%N)) true)) as (v & ts & E & _ & D & X); [right; left; reflexivity|]. cbn in E. injection E as <-. cbn in D. injection D as <-.
    destruct (X _ (or_introl eq_refl)) as (w & W1 & W2). cbn [t_pkg] in W1. destruct W1 as [W1|[W1|[W1|[]]]]; try discriminate. cbn in W1. injection W1 as <-. vm_compute in W2. discriminate.
Qed.
Print Assumptions C15_post_release_refuted.

(** ** C16: the windows of the versions *)
Definition windows (vs : list version) : res (list (pversion spec version)) :=
  build_versions spec version real_ops vs 0 (sort_positions spec version real_ops vs).
(** for final, pre- and development releases, in any order: every version is in its own window, every version number is in
    exactly one *)
Theorem C16_windows_partition_partial : forall vs : list sv, Forall candidate vs ->
  (forall i j a b, nth_error vs i = Some a -> nth_error vs j = Some b -> same_version a b -> i = j) ->
  exists out, windows (map VStd vs) = Ok out /\ map (v_version spec version) out = map VStd vs /\
  (forall j pv, nth_error out j = Some pv -> allows (v_range spec version pv) (v_version spec version pv) = true) /\
  (forall w, vs <> [] -> candidate w -> exists j, forall i pv, nth_error out i = Some pv -> (allows (v_range spec version pv) (VStd w) = true <-> i = j)).
Proof.
  intros vs C D. destruct (real_build vs C D) as (out & B). exists out. split; [exact B|]. destruct (real_windows vs C D out B) as (A1 & A2 & A3 & A4). split; [exact A1|]. split; [exact A2|].
  intros w NE Cw. destruct (A4 w NE Cw) as (j & pv & E & AL). exists j. intros i pv' E'. split.
  - intro AL'. exact (A3 i j pv' pv w Cw E' E AL' AL).
  - intros ->. rewrite E in E'. injection E' as <-. exact AL.
Qed.
Print Assumptions C16_windows_partition_partial.
Definition rel (r : list N) : sv := SV r None None None None None.
Example C16_sample : Forall candidate [rel [2]%N; rel [1; 5]%N; rel [1]%N] /\
  match windows (map VStd [rel [2]%N; rel [1; 5]%N; rel [1]%N]) with
  | Ok l => map (fun pv => map (allows (v_range spec version pv)) [VStd (rel [0]%N); VStd (rel [1]%N); VStd (rel [1; 3]%N); VStd (rel [2]%N); VStd (rel [7]%N)]) l
  | Err _ => [] end = [[false; false; false; true; true]; [false; false; true; false; false]; [true; true; false; false; false]].
Proof.
  split; [|vm_compute; reflexivity]. assert (G : forall n r, candidate (rel (n :: r))) by (intros n r; unfold candidate, plain, rel; cbn; intuition congruence).
  constructor; [apply G|]. constructor; [apply G|]. constructor; [apply G|constructor].
Qed.
(** a post release is in no window, not even in its own *)
Theorem C16_post_release_refuted : exists vs out j pv, windows vs = Ok out /\ NoDup vs /\ nth_error out j = Some pv /\
  In (v_version spec version pv) vs /\ allows (v_range spec version pv) (v_version spec version pv) = false.
Proof.
  destruct (windows [std [1; 0]%N (Some 1%N); std [1; 0]%N None]) as [out|] eqn:E; [|vm_compute in E; discriminate]. vm_compute in E. injection E as <-.
  eexists [std [1; 0]%N (Some 1%N); std [1; 0]%N None], _, 0, _. split; [vm_compute; reflexivity|]. split; [constructor; [intros [E|[]]; discriminate|constructor; [intros []|constructor]]|]. split; [reflexivity|]. split; [left; reflexivity|vm_compute; reflexivity].
Qed.
Print Assumptions C16_post_release_refuted.

(** ** C17: backtracking *)
(** any partial solution that the search can reach, by assignments and backtracking, comes from a sequence of events without
    backtracking; going back to a level gives the result of its first events, up to the last one of that level *)
Theorem C17_backtrack_replays : forall S V (O : ops S V) (root : pkg) s l, reached S V O root s ->
  exists below above s0 s1, run S V O root (below ++ above) s0 /\ same S s s0 /\ run S V O root below s1 /\ same S (backtrack S s l) s1 /\
  (forall e, In e below -> fst e <= l) /\ (forall e, In e above -> l < fst e).
Proof.
  intros S V O root s l R. destruct (reached_run S V O root s R) as (es & s0 & R0 & SM). destruct (backtrack_replay S V O root es s0 R0 l) as (es1 & es2 & s1 & -> & R1 & SB & L1 & L2).
  exists es1, es2, s0, s1. split; [exact R0|]. split; [exact SM|]. split; [exact R1|]. split; [exact (same_trans _ _ _ _ (back_same S s s0 l SM) SB)|]. split; assumption.
Qed.
Print Assumptions C17_backtrack_replays.
(** nothing above the level survives, nothing at or below it is lost *)
Theorem C17_backtrack_exact : forall S V (O : ops S V) (root : pkg) s l, reached S V O root s ->
  (forall p a, In a (assignments S (backtrack S s l) p) <-> In a (assignments S s p) /\ a_level S a <= l) /\
  (forall e, In e (s_decisions S (backtrack S s l)) <-> In e (s_decisions S s) /\ a_level S (snd e) <= l).
Proof.
  intros S V O root s l _. split.
  - intros p a. rewrite back_lookup, filter_In, Nat.leb_le. reflexivity.
  - intros e. cbn. rewrite filter_In, Nat.leb_le. reflexivity.
Qed.
Print Assumptions C17_backtrack_exact.
Definition history : list (event fset) :=
  [Decide _ (T 0 (false, [1])); Require _ [1; 2]; Derive _ (T 1 (true, [3])) 0; Decide _ (T 1 (false, [2])); Derive _ (T 2 (false, [1; 2])) 1]%N%nat.
Fixpoint replay (es : list (event fset)) (s : psol fset) : res (psol fset) :=
  match es with [] => Ok s | e :: r => do s <- step fset N ideal 0%N s e; replay r s end.
Example C17_sample : exists s, reached fset N ideal 0%N s /\ length (assignments fset s 1%N) = 2 /\ length (assignments fset s 2%N) = 1 /\
  length (assignments fset (backtrack fset s 0) 1%N) = 1 /\ assignments fset (backtrack fset s 0) 2%N = [] /\ map fst (s_required fset (backtrack fset s 0)) = [1; 2]%N.
Proof.
  destruct (replay history (psol0 fset)) as [s|] eqn:E; [|vm_compute in E; discriminate]. exists s. split.
  - unfold history in E. cbn [replay] in E.
    assert (G : forall a e f, reached fset N ideal 0%N a -> legal fset 0%N a e -> bind (step fset N ideal 0%N a e) f = Ok s -> exists b, reached fset N ideal 0%N b /\ step fset N ideal 0%N a e = Ok b /\ f b = Ok s).
    { intros a e f R L H. destruct (step fset N ideal 0%N a e) as [b|] eqn:X; [|discriminate]. exists b. split; [exact (reached_step _ _ _ _ a e b R L X)|]. split; [reflexivity|exact H]. }
    apply G in E; [|constructor|split; [reflexivity|split; reflexivity]]. destruct E as (s1 & R1 & X1 & E). vm_compute in X1. injection X1 as <-.
    apply G in E; [|exact R1|exact Logic.I]. destruct E as (s2 & R2 & X2 & E). vm_compute in X2. injection X2 as <-.
    apply G in E; [|exact R2|exact Logic.I]. destruct E as (s3 & R3 & X3 & E). vm_compute in X3. injection X3 as <-.
    apply G in E; [|exact R3|split; [reflexivity|split; discriminate]]. destruct E as (s4 & R4 & X4 & E). vm_compute in X4. injection X4 as <-.
    apply G in E; [|exact R4|exact Logic.I]. destruct E as (s5 & R5 & X5 & E). injection E as <-. exact R5.
  - vm_compute in E. injection E as <-. vm_compute. repeat split; reflexivity.
Qed.

(** ** C18: "no solution" *)
(** the resolver says that there is no solution although there is one: package 3 in version 1 *)
Definition unsat_table : table :=
  [(0, [(1, [req 3 None None])]); (1, [(2, [req 2 (Some 2) None]); (1, [req 3 (Some 3) None])]); (2, [(1, [])]); (3, [(2, [req 1 None (Some 3)]); (1, [])])]%N.
Theorem C18_no_solution_refuted : exists P fuel ds, lawful ideal /\ tidy P /\ unshared ideal P /\
  solve fset N ideal P 0%N (fun _ => 0) fuel = Err UnsatError /\ is_solution ideal P 0%N ds.
Proof.
  exists (problem_of unsat_table), 60, [(0, (false, [1])); (3, (false, [1]))]%N. split; [exact ideal_lawful|]. split; [apply tidy_b_ok; vm_compute; reflexivity|]. split; [apply unshared_b_ok; vm_compute; reflexivity|]. split; [vm_compute; reflexivity|].
  split; [cbn; constructor; [intros [E|[]]; discriminate|constructor; [intros []|constructor]]|]. split; [exists 1%N; left; reflexivity|].
  intros p c [E|[E|[]]]; injection E as <- <-.
  - eexists 1%N, _. split; [reflexivity|]. split; [left; left; reflexivity|]. split; [reflexivity|]. intros t [<-|[]]. exists 1%N. split; [right; left; reflexivity|reflexivity].
  - eexists 1%N, _. split; [reflexivity|]. split; [left; right; left; reflexivity|]. split; [reflexivity|]. intros t [].
Qed.
Print Assumptions C18_no_solution_refuted.
(** the same with the specifiers of pkm *)
Definition range_of (lo hi : option N) : spec :=
  match create_range (option_map (fun n => rel [n]) lo) (option_map (fun n => rel [n]) hi) (is_some lo) false with Ok s => s | Err _ => RestrictAll end.
Definition need (d : pkg) (lo hi : option N) : term spec := T d (match lo, hi with None, None => AllowAll | _, _ => range_of lo hi end).
Definition number (v : version) : N := match v with VStd s => hd 0%N (release s) | _ => 0%N end.
Definition real_table := list (pkg * list (N * list (term spec))).
Definition real_problem (t : real_table) : problem spec version :=
  Problem (fun p => map (fun e => VStd (rel [fst e])) (plist p t)) (fun p v => pget (number v) (plist p t)) (fun _ _ => false).
Definition real_unsat_table : real_table :=
  [(0, [(1, [need 3 None None])]); (1, [(1, [need 3 (Some 2) None])]); (2, [(3, [need 1 (Some 3) None; need 3 None (Some 3)]); (2, [need 1 None (Some 4)]); (1, [])]);
   (3, [(1, [need 2 None None])]); (4, [(1, [need 1 None None])])]%N.
Theorem C18_no_solution_real_refuted : exists ds, solve spec version real_ops (real_problem real_unsat_table) 0%N (fun _ => 0) 60 = Err UnsatError /\
  is_solution real_ops (real_problem real_unsat_table) 0%N ds.
Proof.
  exists [(0%N, Match (VStd (rel [1%N])) true); (3%N, Match (VStd (rel [1%N])) true); (2%N, Match (VStd (rel [1%N])) true)]. split; [vm_compute; reflexivity|].
  split; [cbn; constructor; [intros [E|[E|[]]]; discriminate|constructor; [intros [E|[]]; discriminate|constructor; [intros []|constructor]]]|]. split; [exists (VStd (rel [1%N])); left; reflexivity|].
  intros p c [E|[E|[E|[]]]]; injection E as <- <-; eexists (VStd (rel [1%N])), _; (split; [reflexivity|]); (split; [left; cbn; auto|]); (split; [reflexivity|]); cbn.
  - intros t [<-|[]]. exists (VStd (rel [1%N])). split; [right; left; reflexivity|vm_compute; reflexivity].
  - intros t [<-|[]]. exists (VStd (rel [1%N])). split; [right; right; left; reflexivity|vm_compute; reflexivity].
  - intros t [].
Qed.
Print Assumptions C18_no_solution_real_refuted.

(** ** C61: internal errors of the resolver *)
(** solvable problems on which the resolver fails with an AssertionError, and with an IndexError *)
Definition assert_table : table :=
  [(0, [(1, [req 2 None (Some 4)])]); (1, [(2, [req 3 (Some 2) None]); (1, [])]);
   (2, [(3, [req 1 (Some 2) (Some 4); req 3 None (Some 3)]); (2, [req 1 (Some 3) None; req 3 None (Some 4)]); (1, [])]); (3, [(1, [req 2 None None])])]%N.
Definition index_table : table :=
  [(0, [(1, [req 1 (Some 1) (Some 4); req 3 None None])]);
   (1, [(3, [req 2 None (Some 2); req 3 (Some 2) None]); (2, [req 2 (Some 2) (Some 3); req 3 None (Some 4)]); (1, [req 2 (Some 2) (Some 4)])]);
   (2, [(2, []); (1, [req 3 None (Some 3)])]); (3, [(3, [req 2 (Some 2) None]); (2, [req 1 None None; req 2 (Some 3) (Some 4)]); (1, [])])]%N.
Lemma solution_b_sound : forall t root ds, NoDup (map fst ds) -> solution_b t root ds = true -> is_solution ideal (problem_of t) root ds.
Proof.
  intros t root ds ND H. unfold solution_b in H. apply andb_true_iff in H. destruct H as [H1 H2]. rewrite forallb_forall in H2.
  assert (G : forall p w, sol_get p ds = Some w -> In (p, o_match ideal w) ds).
  { intros p w E. unfold sol_get in E. destruct (pget p ds) as [[[|] [|v [|]]]|] eqn:X; try discriminate. injection E as <-. exact (pget_in _ _ _ _ X). }
  split; [exact ND|]. split; [destruct (sol_get root ds) as [v|] eqn:E; [exists v; auto|discriminate]|].
  intros p c I. specialize (H2 _ I). cbn [fst snd] in H2. destruct c as [[|] [|v [|]]]; try discriminate. destruct (dep_get v (plist p t)) as [ts|] eqn:D; [|discriminate]. exists v, ts. split; [reflexivity|].
  split; [left; apply dep_get_in in D; cbn; apply in_map_iff; exists (v, ts); auto|]. split; [exact D|]. rewrite forallb_forall in H2. intros r J. specialize (H2 r J). destruct (sol_get (t_pkg r) ds) as [w|] eqn:E; [|discriminate]. exists w. split; [apply G; exact E|exact H2].
Qed.
Theorem C61_assertion_error_refuted : exists P fuel ds, lawful ideal /\ tidy P /\ unshared ideal P /\
  solve fset N ideal P 0%N (fun _ => 0) fuel = Err AssertionError /\ is_solution ideal P 0%N ds.
Proof.
  exists (problem_of assert_table), 60, [(0, (false, [1])); (2, (false, [1]))]%N. split; [exact ideal_lawful|]. split; [apply tidy_b_ok; vm_compute; reflexivity|]. split; [apply unshared_b_ok; vm_compute; reflexivity|]. split; [vm_compute; reflexivity|].
  apply solution_b_sound; [apply nodup_b_ok; vm_compute; reflexivity|vm_compute; reflexivity].
Qed.
Print Assumptions C61_assertion_error_refuted.
Theorem C61_index_error_refuted : exists P fuel ds, lawful ideal /\ tidy P /\ unshared ideal P /\
  solve fset N ideal P 0%N (fun _ => 0) fuel = Err IndexError /\ is_solution ideal P 0%N ds.
Proof.
  exists (problem_of index_table), 60, [(0, (false, [1])); (1, (false, [1])); (2, (false, [2])); (3, (false, [3]))]%N. split; [exact ideal_lawful|]. split; [apply tidy_b_ok; vm_compute; reflexivity|]. split; [apply unshared_b_ok; vm_compute; reflexivity|]. split; [vm_compute; reflexivity|].
  apply solution_b_sound; [apply nodup_b_ok; vm_compute; reflexivity|vm_compute; reflexivity].
Qed.
Print Assumptions C61_index_error_refuted.
