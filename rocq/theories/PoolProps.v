(** C54, C73: the process pool. *)
From Coq Require Import List Bool Arith Lia.
From Verif Require Import Base PoolModel PoolProofs PoolQuietProofs.
Import ListNotations.
Open Scope nat_scope.
Open Scope list_scope.
Open Scope bool_scope.

(** C54: at most [max_workers] workers exist, whatever the schedule. *)
Theorem C54_bounded_partial : forall max_workers schedule,
  n_workers (run (init max_workers) schedule) <= max_workers.
Proof. intros n s. pose proof (i_bound _ (run_inv n s)) as B. rewrite run_max in B. exact B. Qed.
(** two tasks, one worker allowed: the second submission starts no worker *)
Definition two_tasks : list event :=
  [Call (RSubmit false); Call (RSubmit false); Step 0 Go; Step 1 Go; Step 0 Go; Step 1 Go; Step 0 Go].
Example C54_bounded_example :
  let p := run (init 1) two_tasks in n_workers p = 1 /\ unfinished p = 2 /\ length (threads p) = 3 /\
  n_workers (run (init 2) (two_tasks)) = 2.
Proof. vm_compute. auto. Qed.

(** C54: no task is executed twice and no promise is settled twice, and a promise is settled with what the
    worker process answered for this very task (or with a failure of the handler). *)
Theorem C54_once_partial : forall max_workers schedule,
  let p := run (init max_workers) schedule in
  NoDup (map fst (executed p)) /\ NoDup (map fst (settles p)) /\
  (forall t o, promise (task_of p t) = Some o -> In (t, o) (settles p)) /\
  (forall t o, In (t, o) (settles p) -> o = Broken \/ In (t, o) (answers p) /\ In t (map fst (executed p))).
Proof.
  intros n s p. pose proof (run_inv n s) as I. fold p in I.
  assert (forall t, b2n (t <? length (tasks p)) <= 1) as B by (intros t; destruct (_ <? _); cbn; lia).
  split; [|split; [|split]].
  - apply cnt_nodup. intros t. pose proof (i_sent _ I t) as S. pose proof (i_tasks _ I t) as T. specialize (B t).
    assert (tot (sent t) (threads p) <= tot (held t) (threads p)) as L by (apply tot_le; intros []; cbn; lia). lia.
  - apply cnt_nodup. intros t. pose proof (i_tasks _ I t) as T. specialize (B t). lia.
  - intros t o H. pose proof (i_promise _ I t) as P. rewrite H in P. exact P.
  - intros t o H. destruct (i_value _ I _ _ H) as [H1|H1]; auto. right. split; auto. apply (i_answers _ I _ _ H1).
Qed.
(** one worker executes both tasks *)
Definition both_done : list event :=
  two_tasks ++
  [Step 2 Go; Step 2 Go; Step 2 Go; Step 2 Go; Answers 0 (Value 7); Step 2 Go; Step 2 Go; Step 2 Go;
   Step 2 Go; Step 2 Go; Step 2 Go; Step 2 Go; Answers 0 (Trace 3); Step 2 Go; Step 2 Go; Step 2 Go].
Example C54_once_example :
  let p := run (init 1) both_done in
  settles p = [(0, Value 7); (1, Trace 3)] /\ executed p = [(0, 0); (1, 0)] /\ unfinished p = 0 /\
  map promise (tasks p) = [Some (Value 7); Some (Trace 3)].
Proof. vm_compute. auto. Qed.

(** C54: no task is lost. When no thread can go on and no worker process failed to start, every task is
    settled, or runs in the live process of a worker, or waits in the queue while [max_workers] workers are
    all running other tasks. *)
Theorem C54_settled_partial : forall max_workers schedule, Forall starts schedule ->
  let p := run (init max_workers) schedule in quiet p ->
  forall t, t < length (tasks p) ->
    settled p t = true \/ (exists w, runs_in p t w) \/
    (In t (queue p) /\ n_workers p = max_workers /\
     forall w, registered (worker_of p w) = true -> exists u, runs_in p u w).
Proof.
  intros n s F p Q t L. pose proof (run_inv n s) as I. pose proof (run_manned n s F) as M. fold p in I, M.
  destruct (quiet_task p t I Q L) as [H|[H|H]]; auto. right. right. split; auto.
  assert (queue p <> []) as NE by (intros Z; rewrite Z in H; destruct H).
  destruct (quiet_queue p I M Q NE) as [H1 H2]. split; auto. rewrite H1. apply run_max.
Qed.
(** the first task runs, the second waits for the only worker *)
Definition one_runs : list event := two_tasks ++ [Step 2 Go; Step 2 Go; Step 2 Go; Step 2 Go].
Example C54_settled_example :
  let p := run (init 1) one_runs in
  Forall starts one_runs /\ quiet p /\ runs_in p 0 0 /\ queue p = [1] /\
  settled (run (init 1) both_done) 1 = true /\ quiet (run (init 1) (both_done ++ [Step 2 Go])).
Proof.
  cbv zeta. split; [repeat constructor|].
  split; [intros [|[|[|[|i]]]]; vm_compute; reflexivity|].
  split; [vm_compute; auto|]. split; [vm_compute; reflexivity|]. split; [vm_compute; reflexivity|].
  intros [|[|[|[|i]]]]; vm_compute; reflexivity.
Qed.

(** C54 is false for cancelling: a request to cancel a task that has not started is ignored, so the task is
    executed; in fact a task is marked as cancelled only after its promise is settled. *)
Theorem C54_cancel_too_late_partial : forall max_workers schedule t,
  let p := run (init max_workers) schedule in canceled (task_of p t) = true -> settled p t = true.
Proof. intros n s t p. apply (i_cancel _ (run_inv n s)). Qed.
Definition submitted_and_canceled : list event := [Call (RSubmit false); Step 0 Go; Call (RCancel 0); Step 1 Go].
Definition then_executed : list event := [Step 0 Go; Step 0 Go; Step 2 Go; Step 2 Go; Step 2 Go; Step 2 Go].
Theorem C54_cancel_refuted : exists max_workers t before after,
  let p := run (init max_workers) before in
  (* the request has been made and has returned before the task starts *)
  In (Call (RCancel t)) before /\ nth 1 (threads p) [] = [] /\
  In t (queue p) /\ executed p = [] /\
  In t (map fst (executed (run p after))).
Proof.
  exists 1, 0, submitted_and_canceled, then_executed. cbv zeta.
  split; [right; right; left; reflexivity|].
  split; [vm_compute; reflexivity|]. split; [vm_compute; auto|]. split; [vm_compute; reflexivity|]. vm_compute. auto.
Qed.
(** ... and a request to cancel a task that is done kills the worker, which by then executes another task:
    that task fails though nobody cancelled it and its process did nothing wrong. *)
Definition first_done_second_runs : list event :=
  two_tasks ++
  [Step 2 Go; Step 2 Go; Step 2 Go; Step 2 Go; Answers 0 (Value 7); Step 2 Go; Step 2 Go; Step 2 Go;
   Step 2 Go; Step 2 Go; Step 2 Go; Step 2 Go].
Theorem C54_cancel_kills_refuted : exists max_workers t u before after,
  let p := run (init max_workers) before in let q := run p after in
  t <> u /\ settled p t = true /\ (exists w, runs_in p u w) /\
  after = [Call (RCancel t); Step 3 Go; Step 3 Go; Step 2 Go; Step 2 Go] /\
  promise (task_of q u) = Some Broken /\ canceled (task_of q u) = false.
Proof.
  exists 1, 0, 1, first_done_second_runs, [Call (RCancel 0); Step 3 Go; Step 3 Go; Step 2 Go; Step 2 Go]. cbv zeta.
  split; [discriminate|]. split; [vm_compute; reflexivity|]. split; [exists 0; vm_compute; auto|].
  split; [reflexivity|]. split; vm_compute; reflexivity.
Qed.

(** C73: once the pool is closed, a worker that has not asked the queue yet takes no task from it: what is in
    the queue stays there. *)
Theorem C73_queue_kept_partial : forall max_workers before after,
  let p := run (init max_workers) before in let q := run p after in
  closed p = true -> (forall th w, In th (threads p) -> ~ In (IGet w) th) ->
  exists more, queue q = queue p ++ more.
Proof.
  intros n s s' p q C G. destruct (closed_forever n s s' C) as (_ & _ & H); auto.
  destruct (Nat.eq_dec (tot getting (threads p)) 0) as [Z|Z]; auto. exfalso.
  destruct (tot_head _ _ (run_inv n s) ig_getting ltac:(unfold p in Z; lia)) as (i & a & rest & E & F).
  destruct a; cbn in F; try lia. apply (G (nth i (threads p) []) w).
  - apply nth_In. apply nth_default_out with (d := []). unfold p. rewrite E. discriminate.
  - unfold p. rewrite E. left. reflexivity.
Qed.
(** a task runs in the only worker while another thread closes the pool *)
Definition closing : list event :=
  [Call (RSubmit false); Step 0 Go; Step 0 Go; Step 0 Go; Step 1 Go; Step 1 Go; Step 1 Go; Step 1 Go;
   Call RClose; Step 2 Go; Step 2 Go; Step 2 Go].
(** the task is answered and the worker leaves *)
Definition closed_after_task : list event :=
  closing ++ [Answers 0 (Value 1); Step 1 Go; Step 1 Go; Step 1 Go; Step 1 Go; Step 1 Go].
Example C73_queue_kept_example :
  let p := run (init 1) closed_after_task in
  closed p = true /\ queue p = [1] /\ settled p 0 = true /\ settled p 1 = false /\
  forallb (fun th => forallb (fun a => match a with IGet _ => false | _ => true end) th) (threads p) = true.
Proof. vm_compute. auto. Qed.
(** C73 is false: after closing a pool with a busy worker, [close] waits for ever, whatever happens (unless
    a task that is done is cancelled) ... *)
Theorem C73_close_hangs_refuted : exists max_workers before i,
  let p := run (init max_workers) before in
  In (Call RClose) before /\ settled p 0 = true /\
  forall after, Forall no_cancel after -> nth i (threads (run p after)) [] <> [] /\
    waits (run p after) i = true.
Proof.
  exists 1, closed_after_task, 2. cbv zeta.
  split; [unfold closed_after_task, closing; apply in_or_app; left; cbn; tauto|]. split; [vm_compute; reflexivity|].
  intros after F. assert (hangs (run (init 1) closed_after_task) 2 0) as H.
  { unfold hangs. split; [vm_compute; lia|]. split; [vm_compute; reflexivity|]. split; [vm_compute; reflexivity|].
    split; [vm_compute; reflexivity|]. split; [vm_compute; discriminate|]. split; [exists []; vm_compute; reflexivity|].
    vm_compute. reflexivity. }
  destruct (run_hangs _ _ _ _ H after F) as (_ & _ & AL & _ & TH & (rest & E) & _).
  split; [rewrite E; discriminate|]. unfold waits. rewrite E. cbn [act].
  destruct (thread _); [|congruence]. rewrite AL. reflexivity.
Qed.
(** ... and the pool starts one worker process after the other without end: none of them takes the task that
    is left in the queue. *)
Theorem C73_churn_refuted : exists max_workers before,
  let p := run (init max_workers) before in
  closed p = true /\
  forall k, exists after, Forall goes after /\ k <= length (workers (run p after)) /\ queue (run p after) = queue p /\
    queue p <> [].
Proof.
  exists 1, closed_after_task. cbv zeta. split; [vm_compute; reflexivity|]. intros k.
  assert (churns (run (init 1) closed_after_task) 1) as H.
  { unfold churns. split; [vm_compute; reflexivity|]. split; [vm_compute; reflexivity|]. split; [vm_compute; lia|].
    split; [vm_compute; lia|]. vm_compute. reflexivity. }
  destruct (churn_forever k _ _ H) as (s & F & L & Q). exists s. split; auto. split; [lia|]. split; auto.
  vm_compute. discriminate.
Qed.
