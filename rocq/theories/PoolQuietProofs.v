(** Proofs about PoolModel: pools in which nothing goes on, and closed pools. *)
From Coq Require Import List Bool Arith Lia.
From Verif Require Import Base PoolModel PoolProofs.
Import ListNotations.
Open Scope nat_scope.
Open Scope list_scope.
Open Scope bool_scope.

(** an instruction that is not plain is the first of its thread *)
Lemma tot_head : forall f p, inv p -> ignores f -> 1 <= tot f (threads p) ->
  exists i a rest, nth i (threads p) [] = a :: rest /\ 1 <= f a.
Proof.
  intros f p I G H. destruct (tot_in _ _ H) as (i & a & rest & [pre E] & F). exists i.
  destruct pre as [|b pre]; [eauto|]. exfalso. pose proof (nth_tail p i b _ I E) as P.
  apply Forall_app in P. destruct P as [_ P]. inversion P as [|x y Hx Hy]; subst. rewrite (G a Hx) in F. lia.
Qed.
Lemma b2n_one : forall b, 1 <= b2n b -> b = true.
Proof. intros []; cbn; auto; lia. Qed.
(** an instruction that waits *)
Lemma act_waits : forall p a, act p a Go = None ->
  (exists w, a = IGet w /\ queue p = []) \/
  (exists w t, a = IWait w t /\ answer (process (worker_of p w)) = None /\ alive (process (worker_of p w)) = true) \/
  (exists w, a = IJoin w).
Proof.
  intros p a H. destruct a; cbn [act] in H;
    repeat match type of H with context [match ?x with _ => _ end] => destruct x eqn:?; try discriminate end; try discriminate; eauto 10.
Qed.
Lemma quiet_head : forall p i a rest, quiet p -> nth i (threads p) [] = a :: rest -> act p a Go = None.
Proof.
  intros p i a rest Q E. specialize (Q i). unfold waits in Q. rewrite E in Q. destruct (act p a Go); auto. discriminate.
Qed.
Lemma waits_runs : forall p i w t rest, inv p -> nth i (threads p) [] = IWait w t :: rest ->
  answer (process (worker_of p w)) = None -> alive (process (worker_of p w)) = true -> runs_in p t w.
Proof.
  intros p i w t rest I E A L. pose proof (head_waiting _ _ _ _ _ E) as W.
  destruct (i_wait _ I _ _ W L) as [R|R]; [|rewrite A in R; discriminate].
  split; [|split]; auto. eapply running_registered; eauto.
Qed.
Lemma list_sum_le : forall (l : list nat) f, (forall x, In x l -> 1 <= f x) -> length l <= list_sum (map f l).
Proof.
  intros l f. induction l as [|x r IH]; intros H; [cbn; lia|].
  change (S (length r) <= f x + list_sum (map f r)). specialize (IH (fun y Y => H y (or_intror Y))).
  specialize (H x (or_introl eq_refl)). lia.
Qed.
Lemma tot_swap : forall (f : nat -> instr -> nat) ws ths,
  tot (fun a => list_sum (map (fun w => f w a) ws)) ths = list_sum (map (fun w => tot (f w) ths) ws).
Proof.
  intros f ws ths. induction ws as [|w r IH].
  - cbn [map]. change (list_sum []) with 0. induction ths as [|th l IHl]; [reflexivity|]. rewrite tot_cons, IHl.
    induction th as [|a k IHk]; [reflexivity|]. rewrite sumi_cons. exact IHk.
  - cbn [map]. change (list_sum (tot (f w) ths :: map (fun w0 => tot (f w0) ths) r))
      with (tot (f w) ths + list_sum (map (fun w0 => tot (f w0) ths) r)).
    rewrite <- IH, <- tot_plus. reflexivity.
Qed.
Definition works (w : nat) (a : instr) : nat := owner w a * busy a.
Lemma works_busy : forall ws a, NoDup ws -> list_sum (map (fun w => works w a) ws) <= busy a.
Proof.
  intros ws a. induction 1 as [|w r N D IH]; [cbn; lia|].
  change (works w a + list_sum (map (fun w0 => works w0 a) r) <= busy a).
  destruct (Nat.eq_dec (works w a) 0) as [Z|Z]; [lia|].
  assert (list_sum (map (fun w0 => works w0 a) r) = 0) as Z2.
  { clear IH D. induction r as [|x k IHk]; [reflexivity|].
    change (works x a + list_sum (map (fun w0 => works w0 a) k) = 0).
    rewrite IHk by (intros Y; apply N; right; exact Y).
    assert (works x a = 0); [|lia]. assert (x <> w) as X by (intros ->; apply N; left; reflexivity).
    unfold works in *. destruct a; cbn in *; try lia; destruct (Nat.eqb_spec w0 w), (Nat.eqb_spec w0 x); cbn in *; try lia; congruence. }
  rewrite Z2. unfold works in *. destruct a; cbn in *; try lia; destruct (_ =? _); cbn; lia.
Qed.
Lemma names_length : forall p, length (names p) = n_workers p.
Proof.
  intros p. unfold names, n_workers, worker_of. generalize (workers p) as l. intros l.
  assert (forall k d, length (filter (fun w => registered (nth (w - k) l d)) (seq k (length l))) = length (filter registered l)) as G.
  { induction l as [|x r IH]; intros k d; [reflexivity|]. cbn [length seq filter].
    replace (registered (nth (k - k) (x :: r) d)) with (registered x) by (rewrite Nat.sub_diag; reflexivity).
    assert (length (filter (fun w => registered (nth (w - k) (x :: r) d)) (seq (S k) (length r)))
            = length (filter registered r)) as E.
    { rewrite <- (IH (S k) d). f_equal. apply filter_ext_in. intros w W. apply in_seq in W.
      replace (w - k) with (S (w - S k)) by lia. reflexivity. }
    destruct (registered x); cbn [length]; lia. }
  rewrite <- (G 0 gone). f_equal. apply filter_ext. intros w. rewrite Nat.sub_0_r. reflexivity.
Qed.
Lemma names_nodup : forall p, NoDup (names p).
Proof. intros p. apply NoDup_filter, seq_NoDup. Qed.

Lemma quiet_queue : forall p, inv p -> manned p -> quiet p -> queue p <> [] ->
  n_workers p = max p /\ forall w, registered (worker_of p w) = true -> exists u, runs_in p u w.
Proof.
  intros p I M Q NE.
  assert (forall w, registered (worker_of p w) = true ->
    exists i u rest, nth i (threads p) [] = IWait w u :: rest /\ runs_in p u w) as ALL.
  { intros w R. apply M in R. destruct (tot_head _ _ I (ig_owner w) R) as (i & a & rest & E & F).
    pose proof (quiet_head _ _ _ _ Q E) as N.
    destruct (act_waits _ _ N) as [(v & -> & Z)|[(v & u & -> & Y1 & Y2)|(v & ->)]]; [congruence| |cbn in F; lia].
    cbn in F. apply b2n_one in F. apply Nat.eqb_eq in F. subst v. exists i, u, rest. split; auto.
    eapply waits_runs; eauto. }
  split.
  - pose proof (i_bound _ I) as B. pose proof (i_spawn _ I) as SP. pose proof (i_unfinished _ I) as U.
    assert (tot spawning (threads p) = 0) as Z.
    { destruct (Nat.eq_dec (tot spawning (threads p)) 0) as [Z|Z]; auto. exfalso.
      destruct (tot_head _ _ I ig_spawning ltac:(lia)) as (i & a & rest & E & F).
      pose proof (quiet_head _ _ _ _ Q E) as N.
      destruct (act_waits _ _ N) as [(v & -> & _)|[(v & u & -> & _)|(v & ->)]]; cbn in F; lia. }
    assert (n_workers p <= tot busy (threads p)) as NB.
    { rewrite <- names_length. etransitivity.
      - apply (list_sum_le _ (fun w => tot (works w) (threads p))). intros w W. apply filter_In in W. destruct W as [_ W].
        destruct (ALL w W) as (i & u & rest & E & _). pose proof (head_le_tot (works w) _ _ _ _ E) as L.
        unfold works at 1 in L. cbn in L. rewrite b2n_refl in L. lia.
      - rewrite <- tot_swap. apply tot_le. intros a. apply works_busy. apply names_nodup. }
    destruct (queue p); [congruence|]. cbn [length] in U. lia.
  - intros w R. destruct (ALL w R) as (i & u & rest & _ & X). eauto.
Qed.
Lemma quiet_task : forall p t, inv p -> quiet p -> t < length (tasks p) ->
  settled p t = true \/ (exists w, runs_in p t w) \/ In t (queue p).
Proof.
  intros p t I Q L. pose proof (i_tasks _ I t) as B. apply Nat.ltb_lt in L. rewrite L in B. cbn [b2n] in B.
  destruct (Nat.eq_dec (cnt t (map fst (settles p))) 0) as [Z|Z].
  - destruct (Nat.eq_dec (cnt t (queue p)) 0) as [Z2|Z2].
    + right. left. destruct (tot_head _ _ I (ig_held t) ltac:(lia)) as (i & a & rest & E & F).
      pose proof (quiet_head _ _ _ _ Q E) as N.
      destruct (act_waits _ _ N) as [(v & -> & _)|[(v & u & -> & Y1 & Y2)|(v & ->)]]; cbn in F; try lia.
      apply b2n_one in F. apply Nat.eqb_eq in F. subst u. exists v. eapply waits_runs; eauto.
    + right. right. apply cnt_in. lia.
  - left. pose proof (i_promise _ I t) as P. unfold settled. destruct (promise (task_of p t)); auto.
Qed.

(** ** Closed pools *)
Definition getting (a : instr) : nat := match a with IGet _ => 1 | _ => 0 end.
Lemma ig_getting : ignores getting. Proof. ig. Qed.
Lemma step_closed : forall p e, inv p -> closed p = true -> tot getting (threads p) = 0 ->
  closed (step p e) = true /\ tot getting (threads (step p e)) = 0 /\ exists more, queue (step p e) = queue p ++ more.
Proof.
  intros p [c|i ch|w o|w] I C G.
  - cbn [step]. projs. rewrite tot_app, G. destruct c; (split; [exact C|]); (split; [reflexivity|]); exists []; rewrite app_nil_r; reflexivity.
  - cbn [step]. destruct (nth i (threads p) []) as [|a rest] eqn:E; [split; auto; split; auto; exists []; rewrite app_nil_r; auto|].
    destruct (act p a ch) as [[[p' more] r]|] eqn:A; [|split; auto; split; auto; exists []; rewrite app_nil_r; auto].
    assert (takes p i a rest ch p' more r) as S by (exact (conj I (conj E A))).
    pose proof (tn_takes _ _ _ _ _ _ _ _ _ S ig_getting) as N. unfold next in N.
    set (X := tot getting (threads (with_threads p' (set_nth (threads p') i (more ++ (if r then [] else rest)))))) in *. clearbody X.
    pose proof (head_le_tot getting _ _ _ _ E) as H0.
    change (closed (with_threads p' (set_nth (threads p') i (more ++ (if r then [] else rest))))) with (closed p').
    change (queue (with_threads p' (set_nth (threads p') i (more ++ (if r then [] else rest))))) with (queue p').
    pose proof (takes_clean _ _ _ _ _ _ _ _ S) as (C1 & D1 & D2 & R). clear S E.
    assert (getting a = 0) as Ga by lia.
    destruct a; try discriminate; cbn [act] in A; try rewrite C in A; acts C1 D1 D2 R A;
      try rewrite (IClose_none _ _ ig_getting) in N; try (cbn [spawned] in N);
      rewrite ?tot_cons, ?sumi_cons, ?sumi_nil, ?tot_nil in N; cbn [getting] in N; projs; by_attached; projs;
      (split; [auto | split; [try lia|]]); try (exists []; rewrite app_nil_r; reflexivity); try (eexists; reflexivity);
      try discriminate.
  - cbn [step]. destruct (running _); [destruct (alive _)|]; projs; (split; auto; split; auto; exists []; rewrite app_nil_r; auto).
  - cbn [step]. destruct (running _); projs; (split; auto; split; auto; exists []; rewrite app_nil_r; auto).
Qed.
Lemma run_from : forall n s s', run (run (init n) s) s' = run (init n) (s ++ s').
Proof. intros. unfold run. rewrite fold_left_app. reflexivity. Qed.
Lemma closed_forever : forall n s s', closed (run (init n) s) = true -> tot getting (threads (run (init n) s)) = 0 ->
  let p := run (init n) s in let q := run p s' in
  closed q = true /\ tot getting (threads q) = 0 /\ exists more, queue q = queue p ++ more.
Proof.
  intros n s s' C G p q. subst q. induction s' as [|e s' IH] using rev_ind.
  - split; [exact C | split; [exact G|]]. exists []. rewrite app_nil_r. reflexivity.
  - rewrite run_app. destruct IH as (C1 & G1 & m & Q).
    destruct (step_closed (run p s') e) as (C2 & G2 & m' & Q2); auto.
    + unfold p. rewrite run_from. apply run_inv.
    + split; auto. split; auto. exists (m ++ m'). rewrite Q2, Q, app_assoc. reflexivity.
Qed.

(** ** [close] and a worker that was busy *)
Definition cancels (a : instr) : nat := match a with ICancel _ | IKill _ => 1 | _ => 0 end.
Lemma ig_cancels : ignores cancels. Proof. ig. Qed.
Definition no_cancel (e : event) : Prop := match e with Call (RCancel _) => False | _ => True end.
Definition hangs (p : pool) (i w : nat) : Prop :=
  w < length (workers p) /\ registered (worker_of p w) = false /\ alive (process (worker_of p w)) = true /\
  running (process (worker_of p w)) = None /\ thread (worker_of p w) <> None /\
  (exists rest, nth i (threads p) [] = IJoin w :: rest) /\ tot cancels (threads p) = 0.
Lemma act_thread : forall p i a rest ch p' more r, takes p i a rest ch p' more r ->
  (length (workers p) <= length (workers p')) /\
  forall v, v < length (workers p) -> (forall w, a = IStart w -> v <> w) ->
  thread (worker_of p' v) = thread (worker_of p v).
Proof.
  intros p i a rest ch p' more r S.
  assert (forall p w x v, thread (worker_of (set_process p w x) v) = thread (worker_of p v)) as TS.
  { clear. intros p w x v. unfold set_process. destruct (Nat.lt_ge_cases w (length (workers p))) as [L|L].
    - rewrite worker_of_set by auto. destruct (v =? w) eqn:E; auto. apply Nat.eqb_eq in E. subst. reflexivity.
    - unfold worker_of. cbn. rewrite set_nth_out by auto. reflexivity. }
  pose proof (takes_clean _ _ _ _ _ _ _ _ S) as (C & D1 & D2 & R). destruct S as (I & E & A). clear E.
  split.
  - destruct a; acts C D1 D2 R A; projs; by_attached; projs; rewrite ?app_length, ?set_nth_length; lia.
  - intros v L N. destruct a; acts C D1 D2 R A; strip worker_of; auto; unfold kill; rewrite ?TS; auto.
    + rewrite worker_add. destruct (v =? length (workers p)) eqn:X; auto. apply Nat.eqb_eq in X. lia.
    + destruct (Nat.lt_ge_cases w (length (workers p))) as [Lw|Lw].
      * rewrite worker_of_set by auto. destruct (v =? w) eqn:X; auto. apply Nat.eqb_eq in X. destruct (N w eq_refl X).
      * unfold worker_of. cbn. rewrite set_nth_out by auto. reflexivity.
    + destruct (Nat.lt_ge_cases w (length (workers p))) as [Lw|Lw].
      * rewrite worker_of_set by auto. destruct (v =? w) eqn:X; auto. apply Nat.eqb_eq in X. destruct (N w eq_refl X).
      * unfold worker_of. cbn. rewrite set_nth_out by auto. reflexivity.
    + destruct (Nat.lt_ge_cases w (length (workers p))) as [Lw|Lw].
      * rewrite worker_of_set by auto. destruct (v =? w) eqn:X; auto. apply Nat.eqb_eq in X. destruct (N w eq_refl X).
      * unfold worker_of. cbn. rewrite set_nth_out by auto. reflexivity.
    + destruct (Nat.lt_ge_cases w (length (workers p))) as [Lw|Lw].
      * rewrite worker_of_set by auto. destruct (v =? w) eqn:X; auto. apply Nat.eqb_eq in X. destruct (N w eq_refl X).
      * unfold worker_of. cbn. rewrite set_nth_out by auto. reflexivity.
    + rewrite worker_of_set by (apply worker_in; auto). destruct (v =? w) eqn:X; auto.
      apply Nat.eqb_eq in X. subst. reflexivity.
    + destruct (attached (task_of p t)); rewrite ?TS; reflexivity.
Qed.
Lemma step_hangs : forall p e i w, inv p -> hangs p i w -> no_cancel e -> hangs (step p e) i w.
Proof.
  intros p e i w I (L & G & AL & RN & TH & (rest & E) & CA) N.
  assert (i < length (threads p)) as Li by (apply nth_default_out with (d := []); congruence).
  destruct e as [c|j ch|v o|v].
  - cbn [step]. unfold hangs. projs. repeat (split; [assumption|]). split.
    + exists rest. rewrite app_nth1 by auto. exact E.
    + rewrite tot_app, CA. destruct c; [reflexivity | destruct N | reflexivity].
  - cbn [step]. destruct (nth j (threads p) []) as [|a rest'] eqn:Ej; [unfold hangs; eauto 10|].
    destruct (act p a ch) as [[[p' more] r]|] eqn:A; [|unfold hangs; eauto 10].
    assert (takes p j a rest' ch p' more r) as S by (exact (conj I (conj Ej A))).
    assert (forall v, owner v a = 1 -> v <> w) as O.
    { intros v Ov ->. rewrite (head_registered _ _ _ _ w I Ej Ov) in G. discriminate. }
    destruct (act_thread _ _ _ _ _ _ _ _ S) as (LW & T).
    pose proof (head_le_tot cancels _ _ _ _ Ej) as HC.
    assert (process (worker_of p' w) = process (worker_of p w)) as PR.
    { destruct (act_process _ _ _ _ _ _ _ _ S w) as [F|[(v & -> & -> & F)|[(v & [->|[t ->]] & F)|[(u & -> & _)|[(u & -> & _)|(-> & F)]]]]]; auto.
      - destruct (O v (b2n_refl v) eq_refl). - destruct (O w (b2n_refl w) eq_refl). - cbn [cancels] in HC. lia.
      - destruct (O w (b2n_refl w) eq_refl). - destruct (O w (b2n_refl w) eq_refl). - lia. }
    change (hangs (next p' j more rest' r) i w). unfold hangs.
    change (worker_of (next p' j more rest' r) w) with (worker_of p' w).
    change (workers (next p' j more rest' r)) with (workers p'). rewrite PR.
    split; [lia|]. split.
    { rewrite (act_registered _ _ _ _ _ _ _ _ S). destruct a; auto.
      - destruct (w =? length (workers p)) eqn:X; [apply Nat.eqb_eq in X; lia|]. rewrite andb_false_r. exact G.
      - destruct (w =? w0); auto. }
    split; [exact AL|]. split; [exact RN|]. split.
    { rewrite T; auto. intros v -> X. exact (O v (b2n_refl v) (eq_sym X)). }
    split.
    + exists rest. cbn [next threads with_threads]. pose proof (act_threads _ _ _ _ _ _ A) as TT.
      assert (j < length (threads p')) as Lj.
      { rewrite TT, app_length. assert (j < length (threads p)); [|lia]. apply nth_default_out with (d := []). congruence. }
      rewrite nth_set_nth by auto. destruct (i =? j) eqn:X.
      * apply Nat.eqb_eq in X. subst j. rewrite E in Ej. inversion Ej; subst a rest'. cbn [act] in A.
        destruct (thread (worker_of p w)); [|congruence]. rewrite AL in A. cbn in A. discriminate.
      * rewrite TT, app_nth1 by auto. exact E.
    + pose proof (tn_takes _ _ _ _ _ _ _ _ _ S ig_cancels) as NN.
      pose proof (takes_clean _ _ _ _ _ _ _ _ S) as (C1 & D1 & D2 & R). 
      assert (sumi cancels more + tot cancels (spawned a ch) = 0) as Z.
      { clear NN S Ej T PR TH E. destruct a; cbn [cancels] in HC; try lia; acts C1 D1 D2 R A;
          try rewrite (IClose_none _ _ ig_cancels); reflexivity. }
      lia.
  - cbn [step]. destruct (running (process (worker_of p v))) as [t|] eqn:R; [|unfold hangs; eauto 10].
    destruct (alive (process (worker_of p v))); [|unfold hangs; eauto 10].
    assert (v <> w) as X by congruence.
    assert (worker_of (set_process p v (Proc true None (Some (t, o)))) w = worker_of p w) as W.
    { unfold set_process. rewrite worker_of_set by (apply worker_in; eapply running_registered; eauto).
      destruct (Nat.eqb_spec w v); congruence. }
    unfold hangs. change (worker_of (with_answers (set_process p v (Proc true None (Some (t, o)))) (answers p ++ [(t, o)])) w)
      with (worker_of (set_process p v (Proc true None (Some (t, o)))) w). rewrite W. projs. rewrite set_nth_length. eauto 10.
  - cbn [step]. destruct (running (process (worker_of p v))) as [t|] eqn:R; [|unfold hangs; eauto 10].
    assert (v <> w) as X by congruence.
    assert (worker_of (set_process p v (Proc false None (answer (process (worker_of p v))))) w = worker_of p w) as W.
    { unfold set_process. rewrite worker_of_set by (apply worker_in; eapply running_registered; eauto).
      destruct (Nat.eqb_spec w v); congruence. }
    unfold hangs. rewrite W. projs. rewrite set_nth_length. eauto 10.
Qed.
Lemma run_hangs : forall n s i w, hangs (run (init n) s) i w -> forall s', Forall no_cancel s' ->
  hangs (run (run (init n) s) s') i w.
Proof.
  intros n s i w H s'. induction s' as [|e s' IH] using rev_ind; intros F; [exact H|].
  apply Forall_app in F. destruct F as [F1 F2]. inversion F2; subst. rewrite run_app. apply step_hangs; auto.
  rewrite run_from. apply run_inv.
Qed.

(** ** a closed pool with an unfinished task starts one worker after the other *)
Definition churns (p : pool) (j : nat) : Prop :=
  closed p = true /\ n_workers p = 0 /\ 1 <= unfinished p /\ 1 <= max p /\ nth j (threads p) [] = [ISpawn].
Lemma set_nth_app : forall A (l k : list A) i x, i < length l -> set_nth (l ++ k) i x = set_nth l i x ++ k.
Proof. induction l as [|y r IH]; intros k [|i] x H; cbn in *; try lia; auto. rewrite IH by lia. reflexivity. Qed.
Lemma set_nth_twice : forall A (l : list A) i x y, set_nth (set_nth l i x) i y = set_nth l i y.
Proof. induction l as [|z r IH]; intros [|i] x y; cbn; auto. rewrite IH. reflexivity. Qed.
Lemma churn_round : forall p j, churns p j ->
  let q := run p [Step j Go; Step j Go; Step (length (threads p)) Go; Step (length (threads p)) Go] in
  churns q (length (threads p)) /\ length (workers q) = S (length (workers p)) /\ length (threads q) = S (length (threads p)) /\
  queue q = queue p.
Proof.
  intros p j (C & W & U & M & E). cbv zeta.
  assert (j < length (threads p)) as Lj by (apply nth_default_out with (d := []); congruence).
  unfold run. cbn [fold_left].
  set (p1 := step p (Step j Go)).
  assert (p1 = with_threads (with_workers p (workers p ++ [new_worker]))
                 (set_nth (threads p) j [IStart (length (workers p))])) as E1.
  { unfold p1. cbn [step]. rewrite E. cbn [act]. rewrite W.
    destruct (Nat.ltb_spec 0 (unfinished p)); [|lia]. destruct (Nat.ltb_spec 0 (max p)); [|lia]. reflexivity. }
  set (w := length (workers p)) in *.
  assert (nth j (threads p1) [] = [IStart w]) as N1.
  { rewrite E1. cbn [threads with_threads]. rewrite nth_set_nth by auto. rewrite Nat.eqb_refl. reflexivity. }
  assert (worker_of p1 w = new_worker) as W1.
  { rewrite E1. change (worker_of (with_threads ?x ?y) w) with (worker_of x w). rewrite worker_add, Nat.eqb_refl. reflexivity. }
  set (p2 := step p1 (Step j Go)).
  set (ths := set_nth (threads p) j [] ++ [[ILoop w]]).
  assert (length (threads p1) = length (threads p)) as LT1 by (rewrite E1; cbn; apply set_nth_length).
  assert (p2 = with_threads (set_worker p1 w (Worker true fresh_proc (Some (length (threads p))))) ths) as E2.
  { unfold p2. cbn [step]. rewrite N1. cbn [act]. rewrite W1, LT1. cbn [registered new_worker]. unfold ths. rewrite E1.
    set (q := set_worker _ w _).
    change (with_threads q (set_nth (set_nth (threads p) j [IStart w] ++ [[ILoop w]]) j []) = with_threads q (set_nth (threads p) j [] ++ [[ILoop w]])).
    f_equal. rewrite set_nth_app by (rewrite set_nth_length; auto). rewrite set_nth_twice. reflexivity. }
  set (n := length (threads p)) in *.
  assert (length (set_nth (threads p) j []) = n) as LS by apply set_nth_length.
  assert (nth n (threads p2) [] = [ILoop w]) as N2.
  { rewrite E2. cbn [threads with_threads]. unfold ths. rewrite app_nth2 by lia. rewrite LS, Nat.sub_diag. reflexivity. }
  assert (length (threads p2) = S n) as LT2.
  { rewrite E2. cbn [threads with_threads]. unfold ths. rewrite app_length, LS. cbn. lia. }
  set (p3 := step p2 (Step n Go)).
  assert (p3 = with_threads p2 (set_nth (threads p2) n [IRemove w])) as E3.
  { unfold p3. cbn [step]. rewrite N2. cbn [act]. replace (closed p2) with true by (rewrite E2, E1; exact (eq_sym C)).
    cbn [orb]. reflexivity. }
  assert (length (workers p1) = S w) as LW1 by (rewrite E1; cbn; rewrite app_length; cbn; unfold w; lia).
  assert (worker_of p2 w = Worker true fresh_proc (Some n)) as W2.
  { rewrite E2. change (worker_of (with_threads ?x ?y) w) with (worker_of x w).
    rewrite worker_of_set by lia. rewrite Nat.eqb_refl. reflexivity. }
  assert (nth n (threads p3) [] = [IRemove w]) as N3.
  { rewrite E3. cbn [threads with_threads]. rewrite nth_set_nth by lia. rewrite Nat.eqb_refl. reflexivity. }
  set (p4 := step p3 (Step n Go)).
  assert (p4 = with_threads (set_worker p2 w (Worker false fresh_proc (Some n))) (set_nth (threads p2) n [ISpawn])) as E4.
  { unfold p4. cbn [step]. rewrite N3. cbn [act]. change (worker_of p3 w) with (worker_of p3 w).
    replace (worker_of p3 w) with (worker_of p2 w) by (rewrite E3; reflexivity). rewrite W2. cbn [registered process thread].
    rewrite E3. set (q := set_worker p2 w _).
    change (with_threads q (set_nth (set_nth (threads p2) n [IRemove w]) n [ISpawn]) = with_threads q (set_nth (threads p2) n [ISpawn])).
    rewrite set_nth_twice. reflexivity. }
  assert (n_workers p4 = 0) as NW.
  { rewrite E4. change (n_workers (with_threads ?x ?y)) with (n_workers x).
    pose proof (n_workers_remove p2 w fresh_proc (Some n)) as X. rewrite W2 in X. specialize (X eq_refl).
    assert (n_workers p2 = 1) as X2; [|lia].
    rewrite E2. change (n_workers (with_threads ?x ?y)) with (n_workers x).
    replace true with (registered (worker_of p1 w)) by (rewrite W1; reflexivity). rewrite n_workers_start.
    rewrite E1. change (n_workers (with_threads ?x ?y)) with (n_workers x). rewrite n_workers_add, W. reflexivity. }
  split; [|split; [|split]].
  - split; [rewrite E4, E2, E1; exact C|]. split; [exact NW|]. split; [rewrite E4, E2, E1; exact U|].
    split; [rewrite E4, E2, E1; exact M|]. rewrite E4. cbn [threads with_threads]. rewrite nth_set_nth by lia.
    rewrite Nat.eqb_refl. reflexivity.
  - rewrite E4. cbn [workers with_threads set_worker with_workers]. rewrite set_nth_length, E2.
    cbn [workers with_threads set_worker with_workers]. rewrite set_nth_length. exact LW1.
  - rewrite E4. cbn [threads with_threads]. rewrite set_nth_length. exact LT2.
  - rewrite E4, E2, E1. reflexivity.
Qed.
Definition goes (e : event) : Prop := match e with Step _ Go => True | _ => False end.
Lemma churn_forever : forall k p j, churns p j -> exists s, Forall goes s /\ length (workers (run p s)) = k + length (workers p) /\
  queue (run p s) = queue p.
Proof.
  induction k as [|k IH]; intros p j H.
  - exists []. auto.
  - destruct (churn_round p j H) as (H1 & H2 & H3 & H4).
    destruct (IH _ _ H1) as (s & F & L & Q).
    exists ([Step j Go; Step j Go; Step (length (threads p)) Go; Step (length (threads p)) Go] ++ s).
    split; [apply Forall_app; split; auto; repeat (constructor; [exact Logic.I|]); constructor|].
    unfold run in *. rewrite fold_left_app. split; [rewrite L, H2; lia | rewrite Q; exact H4].
Qed.
