(** Proofs about PoolModel: the invariants of the process pool. *)
From Coq Require Import List Bool Arith Lia.
From Verif Require Import Base PoolModel.
Import ListNotations.
Open Scope nat_scope.
Open Scope list_scope.
Open Scope bool_scope.

(** ** Lists *)
Lemma set_nth_length : forall A (l : list A) i x, length (set_nth l i x) = length l.
Proof. induction l as [|y r IH]; intros [|i] x; cbn; auto. Qed.
Lemma nth_set_nth : forall A (l : list A) i j x d, i < length l ->
  nth j (set_nth l i x) d = if j =? i then x else nth j l d.
Proof.
  induction l as [|y r IH]; intros [|i] [|j] x d H; cbn in *; try lia; auto.
  apply IH. lia.
Qed.
Lemma set_nth_out : forall A (l : list A) i x, length l <= i -> set_nth l i x = l.
Proof. induction l as [|y r IH]; intros [|i] x H; cbn in *; auto; try lia. rewrite IH; auto; lia. Qed.
Lemma nth_default_out : forall A (l : list A) i d, nth i l d <> d -> i < length l.
Proof. intros A l i d H. destruct (Nat.lt_ge_cases i (length l)); auto. rewrite nth_overflow in H; auto; congruence. Qed.

Definition b2n (b : bool) : nat := if b then 1 else 0.
Definition cnt (t : nat) (l : list nat) : nat := count_occ Nat.eq_dec l t.
Lemma cnt_app : forall t l k, cnt t (l ++ k) = cnt t l + cnt t k.
Proof. intros. apply count_occ_app. Qed.
Lemma cnt_one : forall t x, cnt t [x] = b2n (x =? t).
Proof.
  intros t x. unfold cnt. cbn. destruct (Nat.eq_dec x t) as [e|e]; destruct (x =? t) eqn:E; auto;
    [apply Nat.eqb_neq in E | apply Nat.eqb_eq in E]; congruence.
Qed.
Lemma cnt_cons : forall t x l, cnt t (x :: l) = b2n (x =? t) + cnt t l.
Proof. intros. change (x :: l) with ([x] ++ l). rewrite cnt_app, cnt_one. reflexivity. Qed.
Lemma cnt_in : forall t l, In t l <-> 1 <= cnt t l.
Proof. intros. unfold cnt. rewrite (count_occ_In Nat.eq_dec). lia. Qed.
Lemma cnt_nodup : forall l, (forall t, cnt t l <= 1) -> NoDup l.
Proof. intros l H. apply (NoDup_count_occ Nat.eq_dec). exact H. Qed.

Lemma filter_set : forall A (f : A -> bool) (l : list A) i x d, i < length l ->
  length (filter f (set_nth l i x)) + b2n (f (nth i l d)) = length (filter f l) + b2n (f x).
Proof.
  induction l as [|y r IH]; intros [|i] x d H; cbn in *; try lia.
  - destruct (f x), (f y); cbn; lia.
  - specialize (IH i x d ltac:(lia)). destruct (f y); cbn; lia.
Qed.
Lemma filter_app_length : forall A (f : A -> bool) (l k : list A),
  length (filter f (l ++ k)) = length (filter f l) + length (filter f k).
Proof. intros. rewrite filter_app, app_length. reflexivity. Qed.

(** ** Sums over the instructions of the threads *)
Definition sumi (f : instr -> nat) (th : list instr) : nat := list_sum (map f th).
Definition tot (f : instr -> nat) (ths : list (list instr)) : nat := list_sum (map (sumi f) ths).
Lemma sumi_cons : forall f a l, sumi f (a :: l) = f a + sumi f l.
Proof. reflexivity. Qed.
Lemma tot_cons : forall f a l, tot f (a :: l) = sumi f a + tot f l.
Proof. reflexivity. Qed.
Lemma sumi_app : forall f l k, sumi f (l ++ k) = sumi f l + sumi f k.
Proof. intros. unfold sumi. rewrite map_app, list_sum_app. reflexivity. Qed.
Lemma tot_app : forall f l k, tot f (l ++ k) = tot f l + tot f k.
Proof. intros. unfold tot. rewrite map_app, list_sum_app. reflexivity. Qed.
Lemma tot_set : forall f ths i x, i < length ths ->
  tot f (set_nth ths i x) + sumi f (nth i ths []) = tot f ths + sumi f x.
Proof.
  intros f. induction ths as [|y r IH]; intros [|i] x H; cbn [length set_nth nth] in *; try lia; rewrite !tot_cons; [lia|].
  specialize (IH i x ltac:(lia)). lia.
Qed.
Lemma sumi_le : forall f g th, (forall a, f a <= g a) -> sumi f th <= sumi g th.
Proof. intros f g th H. induction th as [|a r IH]; [auto|]. rewrite !sumi_cons. specialize (H a). lia. Qed.
Lemma tot_le : forall f g ths, (forall a, f a <= g a) -> tot f ths <= tot g ths.
Proof.
  intros f g ths H. induction ths as [|a r IH]; [auto|]. rewrite !tot_cons. pose proof (sumi_le f g a H). lia.
Qed.
Lemma tot_plus : forall f g ths, tot (fun a => f a + g a) ths = tot f ths + tot g ths.
Proof.
  intros f g ths. induction ths as [|th r IH]; [auto|]. rewrite !tot_cons.
  assert (sumi (fun a => f a + g a) th = sumi f th + sumi g th) as E.
  { induction th as [|a l IHl]; [auto|]. rewrite !sumi_cons. lia. }
  lia.
Qed.
Lemma tot_in : forall f ths, 1 <= tot f ths -> exists i a rest, 
  (exists pre, nth i ths [] = pre ++ a :: rest) /\ 1 <= f a.
Proof.
  intros f ths. induction ths as [|th r IH]; [cbn; lia|]. rewrite tot_cons. intros H.
  destruct (Nat.eq_dec (sumi f th) 0) as [e|e].
  - destruct IH as (i & a & rest & [pre E] & F); [lia|]. exists (S i), a, rest. split; eauto.
  - clear IH H. assert (exists pre a rest, th = pre ++ a :: rest /\ 1 <= f a) as (pre & a & rest & -> & F).
    { revert e. induction th as [|a l IHl]; [cbn; lia|]. rewrite sumi_cons. intros e.
      destruct (Nat.eq_dec (f a) 0) as [Z|Z].
      - destruct IHl as (pre & b & rest & -> & F); [lia|]. exists (a :: pre), b, rest. auto.
      - exists [], a, l. split; auto; lia. }
    exists 0, a, rest. split; [exists pre; reflexivity | exact F].
Qed.
Lemma nth_le_tot : forall f ths i, sumi f (nth i ths []) <= tot f ths.
Proof.
  intros f ths. induction ths as [|th r IH]; intros [|i]; cbn [nth]; try (cbn; lia). rewrite tot_cons.
  specialize (IH i). lia.
Qed.
Lemma head_le_tot : forall f ths i a rest, nth i ths [] = a :: rest -> f a <= tot f ths.
Proof. intros f ths i a rest E. pose proof (nth_le_tot f ths i) as H. rewrite E, sumi_cons in H. lia. Qed.

(** what can follow the first instruction of a thread *)
Definition plain (a : instr) : Prop := match a with ISubmit _ | IJoin _ => True | _ => False end.
Definition ignores (f : instr -> nat) : Prop := forall a, plain a -> f a = 0.
Lemma sumi_plain : forall f l, ignores f -> Forall plain l -> sumi f l = 0.
Proof. intros f l I. induction 1 as [|a r P _ IH]; auto. rewrite sumi_cons, (I a P), IH. reflexivity. Qed.

Definition spawned (a : instr) (ch : choice) : list (list instr) :=
  match a, ch with
  | IStart w, NoProcess => []
  | IStart w, _ => [[ILoop w]]
  | _, _ => []
  end.
Lemma act_threads : forall p a ch p' more r, act p a ch = Some (p', more, r) ->
  threads p' = threads p ++ spawned a ch.
Proof.
  intros p a ch p' more r. destruct a; cbn; intros H;
    repeat match type of H with
    | context [match ?x with _ => _ end] => destruct x eqn:?; try discriminate
    end; inversion H; subst; cbn; rewrite ?app_nil_r; auto.
  all: destruct (attached (task_of p t)); cbn; rewrite ?app_nil_r; auto.
Qed.
Definition next (p' : pool) (i : nat) (more rest : list instr) (r : bool) : pool :=
  with_threads p' (set_nth (threads p') i (more ++ if r then [] else rest)).
Lemma tot_next : forall f p i a rest ch p' more r, ignores f -> nth i (threads p) [] = a :: rest -> Forall plain rest ->
  act p a ch = Some (p', more, r) ->
  tot f (threads (next p' i more rest r)) + f a = tot f (threads p) + sumi f more + tot f (spawned a ch).
Proof.
  intros f p i a rest ch p' more r I E P H. cbn [next threads with_threads].
  pose proof (act_threads _ _ _ _ _ _ H) as T.
  assert (i < length (threads p)) as L by (apply nth_default_out with (d := []); congruence).
  assert (nth i (threads p') [] = a :: rest) as E' by (rewrite T, app_nth1; auto).
  pose proof (tot_set f (threads p') i (more ++ if r then [] else rest)) as S.
  rewrite T, app_length in S. specialize (S ltac:(lia)). rewrite <- T, E' in S. rewrite sumi_app in S.
  rewrite T in S at 2. rewrite tot_app in S.
  assert (sumi f (a :: rest) = f a) as X1. { rewrite sumi_cons, (sumi_plain f rest I P). lia. }
  assert (sumi f (if r then [] else rest) = 0) as X2 by (destruct r; [reflexivity | apply sumi_plain; auto]).
  lia.
Qed.

(** ** The counters *)
Definition held (t : nat) (a : instr) : nat :=
  match a with
  | IAttach _ u | ISend _ u | IWait _ u | ISettle _ u _ | IFail _ u => b2n (u =? t)
  | _ => 0
  end.
Definition sent (t : nat) (a : instr) : nat :=
  match a with IWait _ u | ISettle _ u _ | IFail _ u => b2n (u =? t) | _ => 0 end.
Definition owner (w : nat) (a : instr) : nat :=
  match a with
  | IStart v | ILoop v | IGet v | IAttach v _ | ISend v _ | IWait v _ | ISettle v _ _ | IFail v _
  | IDone v _ _ | IRemove v => b2n (v =? w)
  | _ => 0
  end.
Definition waiting (w t : nat) (a : instr) : nat :=
  match a with IWait v u => b2n ((v =? w) && (u =? t)) | _ => 0 end.
Definition busy (a : instr) : nat :=
  match a with
  | IAttach _ _ | ISend _ _ | IWait _ _ | ISettle _ _ _ | IFail _ _ | IDone _ _ _ => 1
  | _ => 0
  end.
Definition spawning (a : instr) : nat := match a with ISpawn => 1 | _ => 0 end.
Definition killing (t : nat) (a : instr) : nat := match a with IKill u => b2n (u =? t) | _ => 0 end.
Ltac ig := intros [] H; cbn in *; tauto.
Lemma ig_held : forall t, ignores (held t). Proof. intros t; ig. Qed.
Lemma ig_sent : forall t, ignores (sent t). Proof. intros t; ig. Qed.
Lemma ig_owner : forall w, ignores (owner w). Proof. intros t; ig. Qed.
Lemma ig_waiting : forall w t, ignores (waiting w t). Proof. intros w t; ig. Qed.
Lemma ig_busy : ignores busy. Proof. ig. Qed.
Lemma ig_spawning : ignores spawning. Proof. ig. Qed.
Lemma ig_killing : forall t, ignores (killing t). Proof. intros t; ig. Qed.

(** ** The invariant *)
Record inv (p : pool) : Prop := Inv {
  i_rest : forall th, In th (threads p) -> Forall plain (tl th);
  i_tasks : forall t, cnt t (queue p) + tot (held t) (threads p) + cnt t (map fst (settles p))
                      = b2n (t <? length (tasks p));
  i_sent : forall t, cnt t (map fst (executed p)) <= tot (sent t) (threads p) + cnt t (map fst (settles p));
  i_promise : forall t, match promise (task_of p t) with
                        | Some o => In (t, o) (settles p)
                        | None => cnt t (map fst (settles p)) = 0
                        end;
  i_cancel : forall t, canceled (task_of p t) = true -> settled p t = true;
  i_kill : forall t, 1 <= tot (killing t) (threads p) -> settled p t = true;
  i_unfinished : unfinished p = length (queue p) + tot busy (threads p);
  i_owner : forall w, tot (owner w) (threads p) <= b2n (registered (worker_of p w));
  i_bound : n_workers p <= max p;
  i_running : forall w t, running (process (worker_of p w)) = Some t ->
                alive (process (worker_of p w)) = true /\ answer (process (worker_of p w)) = None /\
                1 <= tot (waiting w t) (threads p) /\ In (t, w) (executed p);
  i_answer : forall w t o, answer (process (worker_of p w)) = Some (t, o) ->
                1 <= tot (waiting w t) (threads p) /\ In (t, o) (answers p);
  i_settle : forall th w t o, In th (threads p) -> In (ISettle w t o) th -> In (t, o) (answers p);
  i_value : forall t o, In (t, o) (settles p) -> o = Broken \/ In (t, o) (answers p);
  i_answers : forall t o, In (t, o) (answers p) -> In t (map fst (executed p));
  i_wait : forall w t, 1 <= tot (waiting w t) (threads p) -> alive (process (worker_of p w)) = true ->
                running (process (worker_of p w)) = Some t \/ is_some (answer (process (worker_of p w))) = true;
  i_spawn : Nat.min (unfinished p) (max p) <= n_workers p + tot spawning (threads p)
}.

Lemma nth_tail : forall p i a rest, inv p -> nth i (threads p) [] = a :: rest -> Forall plain rest.
Proof.
  intros p i a rest I E. apply (i_rest _ I (a :: rest)). rewrite <- E. apply nth_In.
  apply nth_default_out with (d := []). congruence.
Qed.

(** ** Reading updated fields *)
Lemma worker_of_set : forall p w x v, w < length (workers p) ->
  worker_of (set_worker p w x) v = if v =? w then x else worker_of p v.
Proof. intros p w x v L. unfold worker_of. cbn. apply nth_set_nth; auto. Qed.
Lemma worker_in : forall p w, registered (worker_of p w) = true -> w < length (workers p).
Proof. intros p w H. apply nth_default_out with (d := gone). unfold worker_of in H. intros E. rewrite E in H. discriminate. Qed.
Lemma registered_set_process : forall p w x v, registered (worker_of (set_process p w x) v) = registered (worker_of p v).
Proof.
  intros p w x v. unfold set_process. destruct (Nat.lt_ge_cases w (length (workers p))) as [L|L].
  - rewrite worker_of_set by auto. destruct (v =? w) eqn:E; auto. apply Nat.eqb_eq in E. subst. reflexivity.
  - unfold worker_of. cbn. rewrite set_nth_out by auto. reflexivity.
Qed.
Lemma process_set : forall p w x v, registered (worker_of p w) = true ->
  process (worker_of (set_process p w x) v) = if v =? w then x else process (worker_of p v).
Proof.
  intros p w x v H. unfold set_process. rewrite worker_of_set by (apply worker_in; auto). destruct (v =? w); reflexivity.
Qed.
Lemma process_kill : forall p w v, process (worker_of (kill p w) v) =
  if v =? w then Proc false None (answer (process (worker_of p v))) else process (worker_of p v).
Proof.
  intros p w v. unfold kill, set_process. destruct (Nat.lt_ge_cases w (length (workers p))) as [L|L].
  - rewrite worker_of_set by auto. destruct (v =? w) eqn:E; auto. apply Nat.eqb_eq in E. subst. reflexivity.
  - unfold worker_of at 1. cbn. rewrite set_nth_out by auto. fold (worker_of p v). destruct (v =? w) eqn:E; auto.
    apply Nat.eqb_eq in E. subst. unfold worker_of. rewrite nth_overflow by auto. reflexivity.
Qed.
Lemma n_workers_set_process : forall p w x, n_workers (set_process p w x) = n_workers p.
Proof.
  intros p w x. unfold n_workers, set_process. cbn.
  destruct (Nat.lt_ge_cases w (length (workers p))) as [L|L].
  - pose proof (filter_set _ registered (workers p) w
      (Worker (registered (worker_of p w)) x (thread (worker_of p w))) gone L) as F.
    cbn in F. unfold worker_of in *. lia.
  - rewrite set_nth_out by auto. reflexivity.
Qed.
Lemma task_of_set : forall p t x u, task_of (with_tasks p (set_nth (tasks p) t x)) u =
  if (u =? t) && (t <? length (tasks p)) then x else task_of p u.
Proof.
  intros p t x u. unfold task_of. cbn [tasks with_tasks]. destruct (Nat.lt_ge_cases t (length (tasks p))) as [L|L].
  - rewrite nth_set_nth by auto. apply Nat.ltb_lt in L. rewrite L, andb_true_r. reflexivity.
  - rewrite set_nth_out by auto. apply Nat.ltb_ge in L. rewrite L, andb_false_r. reflexivity.
Qed.
Lemma task_of_app : forall p u, task_of (with_tasks p (tasks p ++ [new_task])) u = task_of p u.
Proof.
  intros p u. unfold task_of. cbn. destruct (Nat.lt_ge_cases u (length (tasks p))) as [L|L].
  - rewrite app_nth1 by auto. reflexivity.
  - rewrite app_nth2 by auto. rewrite (nth_overflow (tasks p)) by auto.
    destruct (u - length (tasks p)) as [|[|k]]; reflexivity.
Qed.

(** ** Cases of a step *)
Ltac split_act H :=
  repeat match type of H with
  | context [match ?x with _ => _ end] => destruct x eqn:?; try discriminate
  end; inversion H; subst; clear H.
Lemma sumi_nil : forall f, sumi f [] = 0. Proof. reflexivity. Qed.
Lemma tot_nil : forall f, tot f [] = 0. Proof. reflexivity. Qed.
Ltac tn H := rewrite ?tot_cons, ?sumi_cons, ?sumi_nil, ?tot_nil in H;
  cbn [held sent owner waiting busy spawning killing spawned] in H;
  rewrite ?tot_cons, ?sumi_cons, ?sumi_nil, ?tot_nil in H;
  cbn [held sent owner waiting busy spawning killing] in H.

Lemma head_registered : forall p i a rest w, inv p -> nth i (threads p) [] = a :: rest -> owner w a = 1 ->
  registered (worker_of p w) = true.
Proof.
  intros p i a rest w I E O. pose proof (head_le_tot (owner w) _ _ _ _ E) as L. pose proof (i_owner _ I w) as B.
  destruct (registered (worker_of p w)); auto. cbn in B. lia.
Qed.
Lemma b2n_refl : forall n, b2n (n =? n) = 1.
Proof. intros. rewrite Nat.eqb_refl. reflexivity. Qed.
(** what a thread does for a task it holds *)
Lemma head_unsettled : forall p i a rest t, inv p -> nth i (threads p) [] = a :: rest -> held t a = 1 ->
  t < length (tasks p) /\ promise (task_of p t) = None /\ canceled (task_of p t) = false /\
  cnt t (map fst (settles p)) = 0.
Proof.
  intros p i a rest t I E O. pose proof (head_le_tot (held t) _ _ _ _ E) as L. pose proof (i_tasks _ I t) as B.
  assert (t < length (tasks p)) as T.
  { apply Nat.ltb_lt. destruct (t <? length (tasks p)); auto. cbn in B. lia. }
  assert (b2n (t <? length (tasks p)) <= 1) as B1 by (destruct (_ <? _); cbn; lia).
  assert (cnt t (map fst (settles p)) = 0) as Z by lia.
  assert (promise (task_of p t) = None) as P.
  { pose proof (i_promise _ I t) as X. destruct (promise (task_of p t)); auto.
    apply (in_map fst) in X. cbn in X. apply cnt_in in X. lia. }
  repeat split; auto. destruct (canceled (task_of p t)) eqn:C; auto. apply (i_cancel _ I) in C. unfold settled in C.
  rewrite P in C. discriminate.
Qed.


(** a step of thread [i] *)
Definition takes (p : pool) (i : nat) (a : instr) (rest : list instr) (ch : choice) (p' : pool) (more : list instr) (r : bool) : Prop :=
  inv p /\ nth i (threads p) [] = a :: rest /\ act p a ch = Some (p', more, r).
Lemma tn_takes : forall p i a rest ch p' more r f, takes p i a rest ch p' more r -> ignores f ->
  tot f (threads (next p' i more rest r)) + f a = tot f (threads p) + sumi f more + tot f (spawned a ch).
Proof. intros p i a rest ch p' more r f (I & E & A) G. eapply tot_next; eauto. eapply nth_tail; eauto. Qed.

Lemma s_rest : forall p i a rest ch p' more r, takes p i a rest ch p' more r ->
  forall th, In th (threads (next p' i more rest r)) -> Forall plain (tl th).
Proof.
  intros p i a rest ch p' more r (I & E & A) th H. cbn [threads next with_threads] in H.
  apply (In_nth _ _ []) in H. destruct H as (j & L & N). rewrite set_nth_length in L.
  pose proof (act_threads _ _ _ _ _ _ A) as T.
  assert (i < length (threads p')) as Li.
  { rewrite T, app_length. assert (i < length (threads p)); [|lia]. apply nth_default_out with (d := []). congruence. }
  rewrite nth_set_nth in N by auto. pose proof (nth_tail p i a rest I E) as P.
  destruct (j =? i).
  - subst th. assert (Forall plain (if r then [] else rest)) as R by (destruct r; auto).
    assert (forall (l : list nat) f, (forall x, plain (f x)) -> Forall plain (map f l)) as M.
    { intros l f F. apply Forall_forall. intros x X. apply in_map_iff in X. destruct X as (y & <- & _). apply F. }
    assert (Forall plain (tl (if r then [] else rest))) as R' by (destruct r; auto; destruct rest; auto; inversion P; auto).
    clear T Li L I E. destruct a; cbn in A; split_act A; cbn [app tl]; auto.
    destruct (names p) as [|n ns]; cbn; [destruct rest; auto; inversion P; auto|].
    apply Forall_app. split; auto. apply Forall_app. split; [apply M; exact (fun _ => Logic.I)|].
    constructor; [exact Logic.I|]. apply M. exact (fun _ => Logic.I).
  - rewrite T in N. destruct (Nat.lt_ge_cases j (length (threads p))) as [Lj|Lj].
    + rewrite app_nth1 in N by auto. apply (i_rest _ I). rewrite <- N. apply nth_In. auto.
    + rewrite app_nth2 in N by auto. destruct a; cbn in N; try (destruct (j - _); subst; constructor).
      destruct ch; cbn in N; destruct (j - length (threads p)) as [|[|]]; subst; constructor.
Qed.

Ltac projs := cbn [next with_threads with_closed with_queue with_workers with_tasks with_executed with_answers with_settles
  set_worker set_process kill settle max closed queue unfinished workers tasks threads executed answers settles] in *.
Lemma ltb_grow : forall t n, b2n (t <? S n) = b2n (t <? n) + b2n (n =? t).
Proof.
  intros t n. destruct (Nat.ltb_spec t (S n)), (Nat.ltb_spec t n), (Nat.eqb_spec n t); cbn; lia.
Qed.
Lemma IClose_none : forall f p, ignores f ->
  sumi f (map (fun _ : nat => ISubmit true) (names p) ++ map IJoin (names p)) = 0.
Proof.
  intros f p G. apply sumi_plain; auto. apply Forall_app. split; apply Forall_forall; intros x X;
    apply in_map_iff in X; destruct X as (y & <- & _); exact Logic.I.
Qed.

Lemma s_tasks : forall p i a rest ch p' more r, takes p i a rest ch p' more r ->
  let q := next p' i more rest r in
  forall t, cnt t (queue q) + tot (held t) (threads q) + cnt t (map fst (settles q)) = b2n (t <? length (tasks q)).
Proof.
  intros p i a rest ch p' more r S q t. pose proof (tn_takes _ _ _ _ _ _ _ _ _ S (ig_held t)) as N. fold q in N.
  destruct S as (I & E & A). pose proof (i_tasks _ I t) as B.
  assert (queue q = queue p') as Q1 by reflexivity. assert (settles q = settles p') as Q2 by reflexivity.
  assert (tasks q = tasks p') as Q3 by reflexivity. rewrite Q1, Q2, Q3. clear Q1 Q2 Q3.
  set (X := tot (held t) (threads q)) in *. clearbody X. clear q.
  assert (forall w u, a = IAttach w u -> canceled (task_of p u) = false) as C.
  { intros w u ->. apply (head_unsettled _ _ _ _ u I E). cbn. apply b2n_refl. }
  assert (forall w u o, a = ISettle w u o -> promise (task_of p u) = None) as D1.
  { intros w u o ->. apply (head_unsettled _ _ _ _ u I E). cbn. apply b2n_refl. }
  assert (forall w u, a = IFail w u -> promise (task_of p u) = None) as D2.
  { intros w u ->. apply (head_unsettled _ _ _ _ u I E). cbn. apply b2n_refl. }
  clear E. destruct a; cbn [act] in A; split_act A; try rewrite (IClose_none _ _ (ig_held t)) in N; tn N; projs;
    try rewrite (C _ _ eq_refl) in *; try rewrite (D1 _ _ _ eq_refl) in *; try rewrite (D2 _ _ eq_refl) in *; try discriminate;
    rewrite ?app_length, ?map_app, ?cnt_app, ?cnt_cons, ?set_nth_length; cbn [length map fst]; rewrite ?cnt_one, ?Nat.add_1_r, ?ltb_grow;
    change (cnt t []) with 0; try lia.
  all: match goal with
       | H : queue _ = _ :: _ |- _ => rewrite cnt_cons in B; lia
       | H : queue _ = [] |- _ => rewrite H; lia
       | |- context [attached ?k] => destruct (attached k); projs; rewrite ?set_nth_length; lia
       end.
Qed.

(** what the instruction at the head can rely on *)
Lemma takes_clean : forall p i a rest ch p' more r, takes p i a rest ch p' more r ->
  (forall w u, a = IAttach w u -> canceled (task_of p u) = false) /\
  (forall w u o, a = ISettle w u o -> promise (task_of p u) = None) /\
  (forall w u, a = IFail w u -> promise (task_of p u) = None) /\
  (forall w, a = IRemove w -> registered (worker_of p w) = true).
Proof.
  intros p i a rest ch p' more r (I & E & _).
  split; [|split; [|split]].
  - intros w u ->. apply (head_unsettled _ _ _ _ u I E). cbn. apply b2n_refl.
  - intros w u o ->. apply (head_unsettled _ _ _ _ u I E). cbn. apply b2n_refl.
  - intros w u ->. apply (head_unsettled _ _ _ _ u I E). cbn. apply b2n_refl.
  - intros w ->. apply (head_registered _ _ _ _ w I E). cbn. apply b2n_refl.
Qed.
Ltac acts C D1 D2 R A :=
  cbn [act] in A;
  try rewrite (C _ _ eq_refl) in A; try rewrite (D1 _ _ _ eq_refl) in A; try rewrite (D2 _ _ eq_refl) in A;
  try rewrite (R _ eq_refl) in A;
  repeat match type of A with
  | context [match ?x with _ => _ end] =>
      lazymatch x with
      | attached _ => fail
      | _ => destruct x eqn:?; try discriminate
      end
  end; inversion A; subst; clear A.
Ltac by_attached := match goal with |- context [match attached ?k with _ => _ end] => destruct (attached k) | _ => idtac end.

Lemma s_sent : forall p i a rest ch p' more r, takes p i a rest ch p' more r ->
  let q := next p' i more rest r in
  forall t, cnt t (map fst (executed q)) <= tot (sent t) (threads q) + cnt t (map fst (settles q)).
Proof.
  intros p i a rest ch p' more r S q t. pose proof (tn_takes _ _ _ _ _ _ _ _ _ S (ig_sent t)) as N. fold q in N.
  pose proof (takes_clean _ _ _ _ _ _ _ _ S) as (C & D1 & D2 & R).
  destruct S as (I & E & A). pose proof (i_sent _ I t) as B.
  assert (executed q = executed p') as Q1 by reflexivity. assert (settles q = settles p') as Q2 by reflexivity.
  rewrite Q1, Q2. clear Q1 Q2.
  set (X := tot (sent t) (threads q)) in *. clearbody X. clear q E.
  destruct a; acts C D1 D2 R A; try rewrite (IClose_none _ _ (ig_sent t)) in N; tn N; projs; by_attached; projs;
    rewrite ?map_app, ?cnt_app, ?cnt_cons; cbn [map fst]; rewrite ?cnt_one; change (cnt t []) with 0; try lia.
Qed.
Lemma s_unfinished : forall p i a rest ch p' more r, takes p i a rest ch p' more r ->
  let q := next p' i more rest r in unfinished q = length (queue q) + tot busy (threads q).
Proof.
  intros p i a rest ch p' more r S q. pose proof (tn_takes _ _ _ _ _ _ _ _ _ S ig_busy) as N. fold q in N.
  pose proof (takes_clean _ _ _ _ _ _ _ _ S) as (C & D1 & D2 & R).
  destruct S as (I & E & A). pose proof (i_unfinished _ I) as B.
  pose proof (head_le_tot busy _ _ _ _ E) as HB.
  assert (unfinished q = unfinished p') as Q1 by reflexivity. assert (queue q = queue p') as Q2 by reflexivity.
  rewrite Q1, Q2. clear Q1 Q2.
  set (X := tot busy (threads q)) in *. clearbody X. clear q E.
  destruct a; acts C D1 D2 R A; try rewrite (IClose_none _ _ ig_busy) in N; tn N; tn HB; projs; by_attached; projs;
    rewrite ?app_length; cbn [length] in *; try lia.
  all: match goal with H : queue _ = _ |- _ => rewrite H in *; cbn [length] in *; lia end.
Qed.

Lemma n_workers_eq : forall p q, workers p = workers q -> n_workers p = n_workers q.
Proof. intros p q H. unfold n_workers. rewrite H. reflexivity. Qed.
Lemma n_workers_add : forall p, n_workers (with_workers p (workers p ++ [new_worker])) = S (n_workers p).
Proof. intros p. unfold n_workers. cbn. rewrite filter_app_length. cbn. lia. Qed.
Lemma n_workers_remove : forall p w pr th, registered (worker_of p w) = true ->
  S (n_workers (set_worker p w (Worker false pr th))) = n_workers p.
Proof.
  intros p w pr th H. unfold n_workers. cbn.
  pose proof (filter_set _ registered (workers p) w (Worker false pr th) gone (worker_in _ _ H)) as F.
  unfold worker_of in H. rewrite H in F. cbn in F. lia.
Qed.
Lemma n_workers_start : forall p w pr th, n_workers (set_worker p w (Worker (registered (worker_of p w)) pr th)) = n_workers p.
Proof.
  intros p w pr th. unfold n_workers. cbn. destruct (Nat.lt_ge_cases w (length (workers p))) as [L|L].
  - pose proof (filter_set _ registered (workers p) w (Worker (registered (worker_of p w)) pr th) gone L) as F.
    cbn in F. unfold worker_of in *. lia.
  - rewrite set_nth_out by auto. reflexivity.
Qed.
Lemma act_n_workers : forall p i a rest ch p' more r, takes p i a rest ch p' more r ->
  max p' = max p /\
  n_workers p' + match a with IRemove _ => 1 | _ => 0 end =
  n_workers p + match a with
                | ISpawn => b2n ((n_workers p <? unfinished p) && (n_workers p <? max p))
                | _ => 0
                end.
Proof.
  intros p i a rest ch p' more r S.
  pose proof (takes_clean _ _ _ _ _ _ _ _ S) as (C & D1 & D2 & R). destruct S as (I & E & A). clear E.
  destruct a; acts C D1 D2 R A; (split; [try reflexivity; projs; by_attached; reflexivity|]).
  all: repeat match goal with |- context [n_workers ?x] =>
    match x with
    | with_queue ?y _ _ => change (n_workers x) with (n_workers y)
    | with_closed ?y => change (n_workers x) with (n_workers y)
    | with_threads ?y _ => change (n_workers x) with (n_workers y)
    | with_tasks ?y _ => change (n_workers x) with (n_workers y)
    | with_executed ?y _ => change (n_workers x) with (n_workers y)
    | settle ?y _ _ => change (n_workers x) with (n_workers y)
    end end.
  all: rewrite ?n_workers_add, ?n_workers_start; unfold kill; rewrite ?n_workers_set_process; cbn [b2n]; try lia.
  - pose proof (n_workers_remove _ w (process (worker_of p w)) (thread (worker_of p w)) (R _ eq_refl)). lia.
  - destruct (attached (task_of p t)); rewrite ?n_workers_set_process;
      match goal with |- n_workers ?x + _ = _ => change (n_workers x) with (n_workers p) end; lia.
Qed.

Lemma s_bound : forall p i a rest ch p' more r, takes p i a rest ch p' more r ->
  let q := next p' i more rest r in n_workers q <= max q.
Proof.
  intros p i a rest ch p' more r S q. pose proof (act_n_workers _ _ _ _ _ _ _ _ S) as (M & N).
  destruct S as (I & _ & _). pose proof (i_bound _ I) as B.
  change (n_workers p' <= max p'). rewrite M. destruct a; try lia.
  destruct (n_workers p <? max p) eqn:L; [apply Nat.ltb_lt in L | rewrite andb_false_r in N; cbn in N; lia].
  destruct (n_workers p <? unfinished p); cbn in N; lia.
Qed.
Lemma s_spawn : forall p i a rest ch p' more r, takes p i a rest ch p' more r ->
  let q := next p' i more rest r in Nat.min (unfinished q) (max q) <= n_workers q + tot spawning (threads q).
Proof.
  intros p i a rest ch p' more r S q. pose proof (tn_takes _ _ _ _ _ _ _ _ _ S ig_spawning) as N. fold q in N.
  pose proof (act_n_workers _ _ _ _ _ _ _ _ S) as (M & W).
  pose proof (takes_clean _ _ _ _ _ _ _ _ S) as (C & D1 & D2 & R).
  destruct S as (I & E & A). pose proof (i_spawn _ I) as B. pose proof (head_le_tot spawning _ _ _ _ E) as H.
  change (Nat.min (unfinished p') (max p') <= n_workers p' + tot spawning (threads q)). rewrite M.
  set (X := tot spawning (threads q)) in *. clearbody X. clear q E.
  destruct a; try (assert (unfinished p' = unfinished p) as U
    by (acts C D1 D2 R A; projs; by_attached; reflexivity); rewrite U);
    try (assert (sumi spawning more + tot spawning (spawned a ch) = 0) as Z
          by (acts C D1 D2 R A; try rewrite (IClose_none _ _ ig_spawning); reflexivity)); cbn [spawning] in *.
  all: try (assert (sumi spawning more = 0) as Z by (acts C D1 D2 R A; try rewrite (IClose_none _ _ ig_spawning); reflexivity)).
  all: try (assert (sumi spawning more = 1) as Z by (acts C D1 D2 R A; reflexivity)).
  all: try (assert (tot spawning (spawned (IStart w) ch) = 0) as Z' by (destruct ch; reflexivity)); cbn [spawned] in *;
       rewrite ?tot_nil in *; try lia.
  - acts C D1 D2 R A; tn N; projs; lia.
  - destruct (n_workers p <? unfinished p) eqn:L1, (n_workers p <? max p) eqn:L2; cbn in W;
      rewrite ?Nat.ltb_lt, ?Nat.ltb_ge in *; lia.
  - acts C D1 D2 R A; tn N; projs; lia.
Qed.

Lemma registered_start : forall p w pr th v,
  registered (worker_of (set_worker p w (Worker (registered (worker_of p w)) pr th)) v) = registered (worker_of p v).
Proof.
  intros p w pr th v. destruct (Nat.lt_ge_cases w (length (workers p))) as [L|L].
  - rewrite worker_of_set by auto. destruct (v =? w) eqn:E; auto. apply Nat.eqb_eq in E. subst. reflexivity.
  - unfold worker_of. cbn. rewrite set_nth_out by auto. reflexivity.
Qed.
Lemma worker_add : forall p v, worker_of (with_workers p (workers p ++ [new_worker])) v =
  if v =? length (workers p) then new_worker else worker_of p v.
Proof.
  intros p v. unfold worker_of. cbn. destruct (Nat.lt_ge_cases v (length (workers p))) as [L|L].
  - rewrite app_nth1 by auto. destruct (v =? length (workers p)) eqn:X; auto. apply Nat.eqb_eq in X. lia.
  - rewrite app_nth2 by auto. rewrite (nth_overflow (workers p)) by auto.
    destruct (v =? length (workers p)) eqn:X.
    + apply Nat.eqb_eq in X. subst. rewrite Nat.sub_diag. reflexivity.
    + apply Nat.eqb_neq in X. destruct (v - length (workers p)) as [|[|k]] eqn:D; auto. lia.
Qed.
Ltac strip f := repeat match goal with |- context [f ?x] =>
    match x with
    | with_queue ?y _ _ => change (f x) with (f y)
    | with_closed ?y => change (f x) with (f y)
    | with_threads ?y _ => change (f x) with (f y)
    | with_tasks ?y _ => change (f x) with (f y)
    | with_executed ?y _ => change (f x) with (f y)
    | with_answers ?y _ => change (f x) with (f y)
    | settle ?y _ _ => change (f x) with (f y)
    end end.
Lemma act_registered : forall p i a rest ch p' more r, takes p i a rest ch p' more r ->
  forall v, registered (worker_of p' v) =
    match a with
    | IRemove w => if v =? w then false else registered (worker_of p v)
    | ISpawn => if (n_workers p <? unfinished p) && (n_workers p <? max p) && (v =? length (workers p)) then true
                else registered (worker_of p v)
    | _ => registered (worker_of p v)
    end.
Proof.
  intros p i a rest ch p' more r S v.
  pose proof (takes_clean _ _ _ _ _ _ _ _ S) as (C & D1 & D2 & R). destruct S as (I & E & A). clear E.
  destruct a; acts C D1 D2 R A; strip worker_of; auto; unfold kill; rewrite ?registered_set_process, ?registered_start; auto.
  - rewrite worker_add. destruct (v =? length (workers p)) eqn:X; cbn [andb]; auto.
  - rewrite worker_of_set by (apply worker_in; auto). destruct (v =? w); reflexivity.
  - destruct (attached (task_of p t)); rewrite ?registered_set_process; reflexivity.
Qed.
Lemma s_owner : forall p i a rest ch p' more r, takes p i a rest ch p' more r ->
  let q := next p' i more rest r in
  forall w, tot (owner w) (threads q) <= b2n (registered (worker_of q w)).
Proof.
  intros p i a rest ch p' more r S q w. pose proof (tn_takes _ _ _ _ _ _ _ _ _ S (ig_owner w)) as N. fold q in N.
  pose proof (act_registered _ _ _ _ _ _ _ _ S w) as G.
  pose proof (takes_clean _ _ _ _ _ _ _ _ S) as (C & D1 & D2 & R).
  destruct S as (I & E & A). pose proof (i_owner _ I w) as B. pose proof (head_le_tot (owner w) _ _ _ _ E) as H.
  change (tot (owner w) (threads q) <= b2n (registered (worker_of p' w))). rewrite G. clear G.
  set (X := tot (owner w) (threads q)) in *. clearbody X. clear q E.
  assert (length (workers p) <= w -> registered (worker_of p w) = false) as OUT.
  { intros L. unfold worker_of. rewrite nth_overflow by auto. reflexivity. }
  destruct a; acts C D1 D2 R A; try rewrite (IClose_none _ _ (ig_owner w)) in N; tn N; tn H; cbn [andb]; try lia.
  - rewrite (Nat.eqb_sym w). destruct (length (workers p) =? w) eqn:X0; cbn [b2n] in *; try lia.
    apply Nat.eqb_eq in X0. rewrite (OUT ltac:(lia)) in B. cbn in *. lia.
  - rewrite (Nat.eqb_sym w). destruct (w0 =? w) eqn:X0; cbn [b2n] in *; try lia.
    apply Nat.eqb_eq in X0. subst. rewrite (R _ eq_refl) in B. cbn in B. lia.
Qed.

Definition settling (a : instr) : option (nat * outcome) :=
  match a with ISettle _ t o => Some (t, o) | IFail _ t => Some (t, Broken) | _ => None end.
Lemma act_promise : forall p i a rest ch p' more r, takes p i a rest ch p' more r ->
  settles p' = settles p ++ match settling a with Some x => [x] | None => [] end /\
  (forall u, promise (task_of p' u) =
    match settling a with
    | Some (t, o) => if u =? t then Some o else promise (task_of p u)
    | None => promise (task_of p u)
    end) /\
  (forall u, canceled (task_of p' u) = true -> canceled (task_of p u) = true \/ a = IKill u).
Proof.
  intros p i a rest ch p' more r S. pose proof (takes_clean _ _ _ _ _ _ _ _ S) as (C & D1 & D2 & R).
  destruct S as (I & E & A).
  assert (forall t, held t a = 1 -> t < length (tasks p)) as L.
  { intros t Ht. apply (head_unsettled _ _ _ _ t I E Ht). }
  clear E. destruct a; acts C D1 D2 R A; cbn [settling]; projs; rewrite ?app_nil_r;
    (split; [auto; destruct (attached (task_of p t)); reflexivity|]).
  all: try (split; [intros u; reflexivity | intros u Hu; left; exact Hu]).
  - split; intros u.
    + change (promise (task_of (with_tasks p (tasks p ++ [new_task])) u) = promise (task_of p u)).
      rewrite task_of_app. reflexivity.
    + change (canceled (task_of (with_tasks p (tasks p ++ [new_task])) u) = true ->
              canceled (task_of p u) = true \/ ISubmit exit = IKill u). rewrite task_of_app. auto.
  - assert (t <? length (tasks p) = true) as T by (apply Nat.ltb_lt; apply L; cbn; apply b2n_refl).
    split; intros u; rewrite task_of_set, T, andb_true_r; destruct (u =? t) eqn:X; auto.
    + apply Nat.eqb_eq in X. subst. reflexivity.
    + cbn. discriminate.
  - assert (t <? length (tasks p) = true) as T by (apply Nat.ltb_lt; apply L; cbn; apply b2n_refl).
    split; intros u.
    + change (promise (task_of (with_tasks p (set_nth (tasks p) t
        (Task (Some o) (canceled (task_of p t)) (attached (task_of p t))))) u) = if u =? t then Some o else promise (task_of p u)).
      rewrite task_of_set, T, andb_true_r. destruct (u =? t); auto.
    + change (canceled (task_of (with_tasks p (set_nth (tasks p) t
        (Task (Some o) (canceled (task_of p t)) (attached (task_of p t))))) u) = true ->
        canceled (task_of p u) = true \/ ISettle w t o = IKill u).
      rewrite task_of_set, T, andb_true_r. destruct (u =? t) eqn:X; auto. apply Nat.eqb_eq in X. subst. auto.
  - assert (t <? length (tasks p) = true) as T by (apply Nat.ltb_lt; apply L; cbn; apply b2n_refl).
    split; intros u.
    + change (promise (task_of (with_tasks p (set_nth (tasks p) t
        (Task (Some Broken) (canceled (task_of p t)) (attached (task_of p t))))) u) = if u =? t then Some Broken else promise (task_of p u)).
      rewrite task_of_set, T, andb_true_r. destruct (u =? t); auto.
    + change (canceled (task_of (with_tasks p (set_nth (tasks p) t
        (Task (Some Broken) (canceled (task_of p t)) (attached (task_of p t))))) u) = true ->
        canceled (task_of p u) = true \/ IFail w t = IKill u).
      rewrite task_of_set, T, andb_true_r. destruct (u =? t) eqn:X; auto. apply Nat.eqb_eq in X. subst. auto.
  - assert (forall u, task_of (match attached (task_of p t) with
        | Some w => kill (with_tasks p (set_nth (tasks p) t (Task (promise (task_of p t)) true (attached (task_of p t))))) w
        | None => with_tasks p (set_nth (tasks p) t (Task (promise (task_of p t)) true (attached (task_of p t))))
        end) u =
        task_of (with_tasks p (set_nth (tasks p) t (Task (promise (task_of p t)) true (attached (task_of p t))))) u) as Z.
    { intros u. destruct (attached (task_of p t)); reflexivity. }
    projs. split; intros u.
    + rewrite Z, task_of_set. destruct (u =? t) eqn:X; auto. apply Nat.eqb_eq in X. subst.
      destruct (t <? length (tasks p)); reflexivity.
    + rewrite Z, task_of_set. destruct (u =? t) eqn:X; auto. apply Nat.eqb_eq in X. subst. auto.
Qed.

Lemma act_answers : forall p i a rest ch p' more r, takes p i a rest ch p' more r -> answers p' = answers p.
Proof.
  intros p i a rest ch p' more r S. pose proof (takes_clean _ _ _ _ _ _ _ _ S) as (C & D1 & D2 & R).
  destruct S as (I & E & A). clear E. destruct a; acts C D1 D2 R A; projs; by_attached; reflexivity.
Qed.
Lemma settled_grows : forall p i a rest ch p' more r, takes p i a rest ch p' more r ->
  forall u, settled p u = true -> settled (next p' i more rest r) u = true.
Proof.
  intros p i a rest ch p' more r S u H. destruct (act_promise _ _ _ _ _ _ _ _ S) as (_ & P & _).
  unfold settled in *. change (task_of (next p' i more rest r) u) with (task_of p' u). rewrite P.
  destruct (settling a) as [[t o]|]; auto. destruct (u =? t); auto.
Qed.
Lemma s_promise : forall p i a rest ch p' more r, takes p i a rest ch p' more r ->
  let q := next p' i more rest r in
  forall t, match promise (task_of q t) with
            | Some o => In (t, o) (settles q)
            | None => cnt t (map fst (settles q)) = 0
            end.
Proof.
  intros p i a rest ch p' more r S q t. destruct (act_promise _ _ _ _ _ _ _ _ S) as (V & P & _).
  change (match promise (task_of p' t) with
          | Some o => In (t, o) (settles p') | None => cnt t (map fst (settles p')) = 0 end).
  rewrite P, V. destruct S as (I & E & A). pose proof (i_promise _ I t) as B.
  destruct (settling a) as [[u o]|].
  - destruct (t =? u) eqn:X.
    + apply Nat.eqb_eq in X. subst. apply in_app_iff. right. left. reflexivity.
    + destruct (promise (task_of p t)).
      * apply in_app_iff. left. exact B.
      * rewrite map_app, cnt_app, B. cbn [map fst]. rewrite cnt_one, Nat.eqb_sym, X. reflexivity.
  - rewrite app_nil_r. exact B.
Qed.
Lemma s_cancel : forall p i a rest ch p' more r, takes p i a rest ch p' more r ->
  let q := next p' i more rest r in forall t, canceled (task_of q t) = true -> settled q t = true.
Proof.
  intros p i a rest ch p' more r S q t H. destruct (act_promise _ _ _ _ _ _ _ _ S) as (_ & _ & K).
  change (canceled (task_of p' t) = true) in H. apply K in H. apply (settled_grows _ _ _ _ _ _ _ _ S).
  destruct S as (I & E & A). destruct H as [H| ->].
  - apply (i_cancel _ I). exact H.
  - apply (i_kill _ I). pose proof (head_le_tot (killing t) _ _ _ _ E) as X. cbn in X. rewrite b2n_refl in X. exact X.
Qed.
Lemma s_kill : forall p i a rest ch p' more r, takes p i a rest ch p' more r ->
  let q := next p' i more rest r in forall t, 1 <= tot (killing t) (threads q) -> settled q t = true.
Proof.
  intros p i a rest ch p' more r S q t H. pose proof (tn_takes _ _ _ _ _ _ _ _ _ S (ig_killing t)) as N. fold q in N.
  apply (settled_grows _ _ _ _ _ _ _ _ S).
  pose proof (takes_clean _ _ _ _ _ _ _ _ S) as (C & D1 & D2 & R). destruct S as (I & E & A). clear E.
  pose proof (i_kill _ I t) as K. pose proof (i_cancel _ I t) as K2.
  set (X := tot (killing t) (threads q)) in *. clearbody X. clear q.
  destruct a; acts C D1 D2 R A; try rewrite (IClose_none _ _ (ig_killing t)) in N; tn N; try (apply K; lia).
  destruct (t0 =? t) eqn:Y; cbn [b2n] in N; try (apply K; lia). apply Nat.eqb_eq in Y. subst t0.
  apply orb_true_iff in Heqb. destruct Heqb as [Z|Z]; [apply K2; exact Z | exact Z].
Qed.
(** a worker waits for one task only *)
Lemma waiting_unique : forall p w t u, inv p -> 1 <= tot (waiting w t) (threads p) -> 1 <= tot (waiting w u) (threads p) -> u = t.
Proof.
  intros p w t u I Y1 Y2. destruct (Nat.eq_dec u t) as [e|ne]; auto. exfalso.
  pose proof (tot_plus (waiting w u) (waiting w t) (threads p)) as Y3.
  assert (tot (fun a => waiting w u a + waiting w t a) (threads p) <= tot (owner w) (threads p)) as Y4.
  { apply tot_le. intros []; cbn; try lia. destruct (w0 =? w); cbn; [|lia].
    destruct (Nat.eqb_spec t0 u), (Nat.eqb_spec t0 t); cbn; lia. }
  pose proof (i_owner _ I w) as Y5. destruct (registered (worker_of p w)); cbn in Y5; lia.
Qed.
Lemma head_waiting : forall p i w t rest, nth i (threads p) [] = IWait w t :: rest -> 1 <= tot (waiting w t) (threads p).
Proof.
  intros p i w t rest E. pose proof (head_le_tot (waiting w t) _ _ _ _ E) as Y. cbn in Y. rewrite !Nat.eqb_refl in Y. exact Y.
Qed.
Lemma s_settle : forall p i a rest ch p' more r, takes p i a rest ch p' more r ->
  let q := next p' i more rest r in
  forall th w t o, In th (threads q) -> In (ISettle w t o) th -> In (t, o) (answers q).
Proof.
  intros p i a rest ch p' more r S q th w t o H H2. change (answers q) with (answers p').
  rewrite (act_answers _ _ _ _ _ _ _ _ S).
  pose proof (takes_clean _ _ _ _ _ _ _ _ S) as (C & D1 & D2 & R).
  destruct S as (I & E & A). pose proof (act_threads _ _ _ _ _ _ A) as T.
  pose proof (i_settle _ I) as B.
  assert (i < length (threads p)) as Li by (apply nth_default_out with (d := []); congruence).
  unfold q in H. cbn [threads next with_threads] in H. clear q.
  apply (In_nth _ _ []) in H. destruct H as (j & L & N). rewrite set_nth_length in L.
  assert (i < length (threads p')) as Li' by (rewrite T, app_length; lia).
  rewrite nth_set_nth in N by auto. destruct (j =? i).
  - subst th. apply in_app_iff in H2. destruct H2 as [H2|H2].
    2:{ destruct r; [destruct H2|]. apply (B (a :: rest) w).
        - rewrite <- E. apply nth_In. auto. - right. exact H2. }
    assert (forall w t, a = IWait w t -> forall u o, answer (process (worker_of p w)) = Some (u, o) -> u = t) as U.
    { intros w0 t0 -> u o0 Y. destruct (i_answer _ I _ _ _ Y) as [Y1 _].
      apply (waiting_unique p w0); auto. eapply head_waiting; eauto. }
    clear T E L Li'.
    destruct a; acts C D1 D2 R A; try (destruct H2 as [H2|[]]; discriminate); try destruct H2 as [H2|H2];
      try solve [destruct H2].
    all: try (specialize (U _ _ eq_refl _ _ Heqo0); inversion H2; subst; apply (i_answer _ I _ _ _ Heqo0)).
    apply in_app_iff in H2. destruct H2 as [H2|H2]; apply in_map_iff in H2; destruct H2 as (y & Hy & _); discriminate.
  - rewrite T in N. destruct (Nat.lt_ge_cases j (length (threads p))) as [Lj|Lj].
    + rewrite app_nth1 in N by auto. apply (B th w); auto. rewrite <- N. apply nth_In. auto.
    + rewrite app_nth2 in N by auto. exfalso.
      destruct a; cbn in N; try (destruct (j - _); subst; destruct H2).
      destruct ch; cbn in N; destruct (j - length (threads p)) as [|[|]]; subst; cbn in H2; intuition discriminate.
Qed.
Lemma s_value : forall p i a rest ch p' more r, takes p i a rest ch p' more r ->
  let q := next p' i more rest r in forall t o, In (t, o) (settles q) -> o = Broken \/ In (t, o) (answers q).
Proof.
  intros p i a rest ch p' more r S q t o H. change (In (t, o) (settles p')) in H. change (answers q) with (answers p').
  rewrite (act_answers _ _ _ _ _ _ _ _ S). destruct (act_promise _ _ _ _ _ _ _ _ S) as (V & _ & _).
  destruct S as (I & E & A). rewrite V in H. apply in_app_iff in H. destruct H as [H|H]; [apply (i_value _ I); auto|].
  destruct a; cbn in H; try solve [destruct H]; destruct H as [H|[]]; inversion H; subst; auto.
  right. apply (i_settle _ I (ISettle w t o :: rest) w); [|left; reflexivity].
  rewrite <- E. apply nth_In. apply nth_default_out with (d := []). congruence.
Qed.
Lemma act_executed : forall p i a rest ch p' more r, takes p i a rest ch p' more r ->
  incl (executed p) (executed p').
Proof.
  intros p i a rest ch p' more r S. pose proof (takes_clean _ _ _ _ _ _ _ _ S) as (C & D1 & D2 & R).
  destruct S as (I & E & A). clear E.
  destruct a; acts C D1 D2 R A; projs; by_attached; try apply incl_refl; apply incl_appl; apply incl_refl.
Qed.
Lemma s_answers : forall p i a rest ch p' more r, takes p i a rest ch p' more r ->
  let q := next p' i more rest r in forall t o, In (t, o) (answers q) -> In t (map fst (executed q)).
Proof.
  intros p i a rest ch p' more r S q t o H. change (In (t, o) (answers p')) in H.
  rewrite (act_answers _ _ _ _ _ _ _ _ S) in H. change (executed q) with (executed p').
  pose proof (act_executed _ _ _ _ _ _ _ _ S) as X. destruct S as (I & _ & _). apply (i_answers _ I) in H.
  apply in_map_iff in H. destruct H as (y & <- & Y). apply in_map. auto.
Qed.

(** what a step does to the process of a worker *)
Lemma act_process : forall p i a rest ch p' more r, takes p i a rest ch p' more r ->
  forall v, process (worker_of p' v) = process (worker_of p v) \/
    (exists w, a = IStart w /\ v = w /\ process (worker_of p' v) = fresh_proc) \/
    (exists w : nat, (a = IGet v \/ exists t, a = IKill t) /\
       process (worker_of p' v) = Proc false None (answer (process (worker_of p v)))) \/
    (exists t, a = ISend v t /\ more = [IWait v t] /\ executed p' = executed p ++ [(t, v)] /\
               alive (process (worker_of p v)) = true /\
               process (worker_of p' v) = Proc true (Some t) (answer (process (worker_of p v)))) \/
    (exists t, a = IWait v t /\ is_some (answer (process (worker_of p v))) = true /\
               process (worker_of p' v) = Proc (alive (process (worker_of p v))) (running (process (worker_of p v))) None) \/
    (v = length (workers p) /\ process (worker_of p' v) = no_proc).
Proof.
  intros p i a rest ch p' more r S v. pose proof (takes_clean _ _ _ _ _ _ _ _ S) as (C & D1 & D2 & R).
  destruct S as (I & E & A).
  assert (forall w, owner w a = 1 -> registered (worker_of p w) = true) as O.
  { intros w Ow. apply (head_registered _ _ _ _ w I E Ow). }
  clear E. destruct a; acts C D1 D2 R A; strip worker_of; auto.
  all: try match goal with |- context [process (worker_of (kill _ ?w) ?u)] => rewrite process_kill;
         destruct (u =? w) eqn:X; auto; apply Nat.eqb_eq in X; subst; right; right; left; exists 0; eauto end.
  all: try (rewrite worker_add; destruct (v =? length (workers p)) eqn:X; auto; apply Nat.eqb_eq in X; subst; auto 10).
  all: try (rewrite worker_of_set by (apply worker_in; apply O; cbn; apply b2n_refl); destruct (v =? w) eqn:X; auto;
            apply Nat.eqb_eq in X; subst; cbn [process]; eauto 10).
  all: try (rewrite process_set by (apply O; cbn; apply b2n_refl); destruct (v =? w) eqn:X; auto;
            apply Nat.eqb_eq in X; subst).
  all: try (right; right; right; left; eexists; repeat split; eauto; fail).
  all: try (right; right; right; right; left; eexists; repeat split; eauto;
    match goal with H : answer _ = Some _ |- _ => rewrite H; reflexivity end).
  destruct (attached (task_of p t)) as [w|]; auto. rewrite process_kill.
  change (worker_of (with_tasks p ?ts) v) with (worker_of p v).
  destruct (v =? w) eqn:X; auto; apply Nat.eqb_eq in X; subst; right; right; left; exists 0; eauto.
Qed.

Lemma waiting_owner : forall w t a, waiting w t a <= owner w a.
Proof. intros w t []; cbn; try lia. destruct (w0 =? w); cbn; [|lia]. destruct (t0 =? t); cbn; lia. Qed.
(** the worker whose thread does something else does not wait *)
Lemma not_waiting : forall p i a rest w t, inv p -> nth i (threads p) [] = a :: rest -> owner w a = 1 ->
  waiting w t a = 0 -> tot (waiting w t) (threads p) = 0.
Proof.
  intros p i a rest w t I E O Z. pose proof (i_owner _ I w) as B.
  set (h := fun a => owner w a - waiting w t a).
  pose proof (tot_plus (waiting w t) h (threads p)) as P.
  assert (tot (fun a => waiting w t a + h a) (threads p) <= tot (owner w) (threads p)) as L.
  { apply tot_le. intros b. unfold h. pose proof (waiting_owner w t b). lia. }
  pose proof (head_le_tot h _ _ _ _ E) as H. unfold h in H at 1. rewrite O, Z in H. cbn in H.
  destruct (registered (worker_of p w)); cbn in B; lia.
Qed.
Lemma waits_once : forall p w t, inv p -> tot (waiting w t) (threads p) <= 1.
Proof.
  intros p w t I. pose proof (i_owner _ I w) as B. pose proof (tot_le _ _ (threads p) (waiting_owner w t)).
  destruct (registered (worker_of p w)); cbn in B; lia.
Qed.
Lemma wait_consumes : forall p i w t rest ch p' more r, takes p i (IWait w t) rest ch p' more r ->
  answer (process (worker_of p' w)) = None /\ sumi (waiting w t) more = 0 /\
  (running (process (worker_of p w)) = Some t -> False).
Proof.
  intros p i w t rest ch p' more r S. destruct S as (I & E & A).
  pose proof (head_registered _ _ _ _ w I E (b2n_refl w)) as G.
  cbn [act] in A. destruct (answer (process (worker_of p w))) as [[u o]|] eqn:X.
  - inversion A; subst; clear A. rewrite process_set by auto. rewrite Nat.eqb_refl. cbn [answer]. repeat split; auto.
    + destruct ch; reflexivity.
    + intros Y. apply (i_running _ I) in Y. destruct Y as (_ & Y & _). congruence.
  - destruct (alive (process (worker_of p w))) eqn:Y; [discriminate|]. inversion A; subst. repeat split; auto.
    intros Z. apply (i_running _ I) in Z. destruct Z as (Z & _). congruence.
Qed.
Lemma send_runs : forall p i w t rest ch p' more r, takes p i (ISend w t) rest ch p' more r ->
  1 <= sumi (waiting w t) more -> running (process (worker_of p' w)) = Some t.
Proof.
  intros p i w t rest ch p' more r S H. destruct S as (I & E & A).
  pose proof (head_registered _ _ _ _ w I E (b2n_refl w)) as G.
  cbn [act] in A. split_act A; try (cbn in H; lia); strip worker_of; rewrite process_set by auto; rewrite Nat.eqb_refl; reflexivity.
Qed.
Lemma act_waiting : forall p i a rest ch p' more r, takes p i a rest ch p' more r -> forall w t,
  let q := next p' i more rest r in
  tot (waiting w t) (threads q) + waiting w t a = tot (waiting w t) (threads p) + sumi (waiting w t) more /\
  (1 <= sumi (waiting w t) more -> a = ISend w t).
Proof.
  intros p i a rest ch p' more r S w t q. pose proof (tn_takes _ _ _ _ _ _ _ _ _ S (ig_waiting w t)) as N. fold q in N.
  assert (tot (waiting w t) (spawned a ch) = 0) as Z by (destruct a, ch; reflexivity).
  split; [lia|]. pose proof (takes_clean _ _ _ _ _ _ _ _ S) as (C & D1 & D2 & R). destruct S as (I & E & A).
  clear E N q Z. destruct a; acts C D1 D2 R A; try (rewrite (IClose_none _ _ (ig_waiting w t))); try (cbn; lia).
  all: rewrite sumi_cons, sumi_nil; cbn [waiting]; destruct (w0 =? w) eqn:X; cbn [andb b2n]; try lia;
    destruct (t0 =? t) eqn:Y; cbn [b2n]; try lia; apply Nat.eqb_eq in X, Y; subst; auto.
Qed.
Lemma s_running : forall p i a rest ch p' more r, takes p i a rest ch p' more r ->
  let q := next p' i more rest r in
  forall w t, running (process (worker_of q w)) = Some t ->
    alive (process (worker_of q w)) = true /\ answer (process (worker_of q w)) = None /\
    1 <= tot (waiting w t) (threads q) /\ In (t, w) (executed q).
Proof.
  intros p i a rest ch p' more r S q w t H. change (worker_of q w) with (worker_of p' w) in *.
  change (executed q) with (executed p').
  destruct (act_waiting _ _ _ _ _ _ _ _ S w t) as [N _]. fold q in N.
  pose proof (act_executed _ _ _ _ _ _ _ _ S) as X.
  destruct (act_process _ _ _ _ _ _ _ _ S w) as [F|[(v & _ & _ & F)|[(v & _ & F)|[(u & -> & -> & XE & AL & F)|[(u & -> & SO & F)|(_ & F)]]]]];
    rewrite F in *; cbn [running alive answer fresh_proc no_proc] in H |- *; try discriminate.
  - pose proof S as S0. destruct S as (I & E & A). destruct (i_running _ I _ _ H) as (R1 & R2 & R3 & R4).
    repeat split; auto. assert (waiting w t a = 0) as Z; [|lia].
    destruct a; auto. cbn. destruct (w0 =? w) eqn:Y1; auto. destruct (t0 =? t) eqn:Y2; auto.
    apply Nat.eqb_eq in Y1, Y2. subst. exfalso. apply (wait_consumes _ _ _ _ _ _ _ _ _ S0). exact H.
  - inversion H; subst u; clear H. destruct S as (I & E & A). repeat split; auto.
    + destruct (answer (process (worker_of p w))) as [[v o]|] eqn:Y; auto. exfalso.
      apply (i_answer _ I) in Y. destruct Y as [Y _].
      pose proof (not_waiting _ _ _ _ w v I E (b2n_refl w) eq_refl). lia.
    + assert (sumi (waiting w t) [IWait w t] = 1) as Z; [|cbn [waiting] in N; lia].
      rewrite sumi_cons, sumi_nil. cbn [waiting]. rewrite !Nat.eqb_refl. reflexivity.
    + rewrite XE. apply in_app_iff. right. left. reflexivity.
  - destruct S as (I & E & A). destruct (i_running _ I _ _ H) as (R1 & R2 & _). rewrite R2 in SO. discriminate.
Qed.
Lemma s_answer : forall p i a rest ch p' more r, takes p i a rest ch p' more r ->
  let q := next p' i more rest r in
  forall w t o, answer (process (worker_of q w)) = Some (t, o) ->
    1 <= tot (waiting w t) (threads q) /\ In (t, o) (answers q).
Proof.
  intros p i a rest ch p' more r S q w t o H. change (worker_of q w) with (worker_of p' w) in *.
  change (answers q) with (answers p'). rewrite (act_answers _ _ _ _ _ _ _ _ S).
  destruct (act_waiting _ _ _ _ _ _ _ _ S w t) as [N _]. fold q in N.
  assert (answer (process (worker_of p w)) = Some (t, o)) as P.
  { destruct (act_process _ _ _ _ _ _ _ _ S w) as [F|[(v & _ & _ & F)|[(v & _ & F)|[(u & -> & -> & XE & AL & F)|[(u & -> & SO & F)|(_ & F)]]]]];
      rewrite F in *; cbn [running alive answer fresh_proc no_proc] in H; try discriminate; auto. }
  pose proof S as S0. destruct S as (I & E & A). destruct (i_answer _ I _ _ _ P) as (Q1 & Q2). split; auto.
  assert (waiting w t a = 0) as Z; [|lia].
  destruct a; auto. cbn. destruct (w0 =? w) eqn:Y1; auto. destruct (t0 =? t) eqn:Y2; auto.
  apply Nat.eqb_eq in Y1, Y2. subst. exfalso. destruct (wait_consumes _ _ _ _ _ _ _ _ _ S0) as [Y _]. congruence.
Qed.
Lemma s_wait : forall p i a rest ch p' more r, takes p i a rest ch p' more r ->
  let q := next p' i more rest r in
  forall w t, 1 <= tot (waiting w t) (threads q) -> alive (process (worker_of q w)) = true ->
    running (process (worker_of q w)) = Some t \/ is_some (answer (process (worker_of q w))) = true.
Proof.
  intros p i a rest ch p' more r S q w t H L. change (worker_of q w) with (worker_of p' w) in *.
  destruct (act_waiting _ _ _ _ _ _ _ _ S w t) as [N M]. fold q in N.
  pose proof S as S0. destruct S as (I & E & A).
  destruct (act_process _ _ _ _ _ _ _ _ S0 w) as [F|[(v & -> & -> & F)|[(v & _ & F)|[(u & -> & -> & XE & AL & F)|[(u & -> & SO & F)|(-> & F)]]]]].
  - destruct (Nat.eq_dec (sumi (waiting w t) more) 0) as [Z|Z].
    + rewrite F in *. apply (i_wait _ I); auto. lia.
    + left. rewrite (M ltac:(lia)) in S0. eapply send_runs; eauto. lia.
  - pose proof (not_waiting _ _ _ _ v t I E (b2n_refl v) eq_refl) as X.
    assert (sumi (waiting v t) more = 0); [|lia].
    destruct (Nat.eq_dec (sumi (waiting v t) more) 0) as [Z|Z]; auto. specialize (M ltac:(lia)). discriminate.
  - rewrite F in L. discriminate.
  - left. rewrite F. cbn. pose proof (not_waiting _ _ _ _ w t I E (b2n_refl w) eq_refl) as X.
    specialize (M ltac:(lia)). inversion M. reflexivity.
  - exfalso. pose proof (head_waiting _ _ _ _ _ E) as X. pose proof (waits_once _ w t I) as O1.
    assert (sumi (waiting w t) more = 0) as Z.
    { destruct (Nat.eq_dec (sumi (waiting w t) more) 0) as [Z|Z]; auto. specialize (M ltac:(lia)). discriminate. }
    assert (1 <= tot (waiting w t) (threads p)) as X2 by lia.
    pose proof (waiting_unique _ _ _ _ I X X2). subst u. cbn [waiting] in N. rewrite !Nat.eqb_refl in N. cbn [andb b2n] in N. lia.
  - rewrite F in L. discriminate.
Qed.

(** ** Every reachable pool *)
Lemma step_thread : forall p i ch, inv p -> inv (step p (Step i ch)).
Proof.
  intros p i ch I. cbn. destruct (nth i (threads p) []) as [|a rest] eqn:E; auto.
  destruct (act p a ch) as [[[p' more] r]|] eqn:A; auto.
  assert (takes p i a rest ch p' more r) as S by (exact (conj I (conj E A))).
  change (inv (next p' i more rest r)). constructor.
  - eapply s_rest; eauto. - eapply s_tasks; eauto. - eapply s_sent; eauto. - eapply s_promise; eauto.
  - eapply s_cancel; eauto. - eapply s_kill; eauto. - eapply s_unfinished; eauto. - eapply s_owner; eauto.
  - eapply s_bound; eauto. - eapply s_running; eauto. - eapply s_answer; eauto. - eapply s_settle; eauto.
  - eapply s_value; eauto. - eapply s_answers; eauto. - eapply s_wait; eauto. - eapply s_spawn; eauto.
Qed.
Lemma step_call : forall p c, inv p -> inv (step p (Call c)).
Proof.
  intros p c I.
  assert (forall f, f (entry c) = 0 -> tot f (threads (step p (Call c))) = tot f (threads p)) as T.
  { intros f H. cbn [step]. projs. rewrite tot_app, tot_cons, sumi_cons, sumi_nil, H, tot_nil. lia. }
  destruct I. constructor; cbn [step] in *; projs; try assumption.
  - intros th H. apply in_app_iff in H. destruct H as [H|[<-|[]]]; auto. constructor.
  - intros t. rewrite T by (destruct c; reflexivity). auto.
  - intros t. rewrite T by (destruct c; reflexivity). auto.
  - intros t. rewrite T by (destruct c; reflexivity). apply i_kill0.
  - rewrite T by (destruct c; reflexivity). auto.
  - intros w. rewrite T by (destruct c; reflexivity). apply i_owner0.
  - intros w t H. rewrite T by (destruct c; reflexivity). apply i_running0. exact H.
  - intros w t o H. rewrite T by (destruct c; reflexivity). apply (i_answer0 w). exact H.
  - intros th w t o H H2. apply in_app_iff in H. destruct H as [H|[<-|[]]]; eauto.
    destruct H2 as [H2|[]]. destruct c; discriminate.
  - intros w t H. rewrite T in H by (destruct c; reflexivity). apply i_wait0. exact H.
  - rewrite T by (destruct c; reflexivity). auto.
Qed.
Lemma running_registered : forall p w t, inv p -> running (process (worker_of p w)) = Some t -> registered (worker_of p w) = true.
Proof.
  intros p w t I H. apply (i_running _ I) in H. destruct H as (_ & _ & H & _). pose proof (i_owner _ I w) as B.
  pose proof (tot_le _ _ (threads p) (waiting_owner w t)). destruct (registered (worker_of p w)); auto. cbn in B. lia.
Qed.
Lemma step_process : forall p e, inv p -> match e with Answers _ _ | Exits _ => True | _ => False end -> inv (step p e).
Proof.
  intros p e I H.
  destruct e as [c|i ch|w o|w]; try destruct H; cbn [step].
  - destruct (running (process (worker_of p w))) as [t|] eqn:R; auto.
    pose proof (running_registered _ _ _ I R) as G. pose proof (i_running _ I _ _ R) as (R1 & R2 & R3 & R4). rewrite R1.
    set (q := with_answers (set_process p w (Proc true None (Some (t, o)))) (answers p ++ [(t, o)])).
    assert (forall v, process (worker_of q v) = if v =? w then Proc true None (Some (t, o)) else process (worker_of p v)) as P.
    { intros v. change (worker_of q v) with (worker_of (set_process p w (Proc true None (Some (t, o)))) v).
      apply process_set; auto. }
    assert (forall v, registered (worker_of q v) = registered (worker_of p v)) as RG.
    { intros v. change (worker_of q v) with (worker_of (set_process p w (Proc true None (Some (t, o)))) v).
      apply registered_set_process. }
    assert (n_workers q = n_workers p) as NW.
    { change (n_workers q) with (n_workers (set_process p w (Proc true None (Some (t, o))))). apply n_workers_set_process. }
    pose proof I as I'. destruct I. constructor; try assumption.
    + intros v. rewrite RG. apply i_owner0.
    + rewrite NW. assumption.
    + intros v u. rewrite P. destruct (v =? w); [discriminate|]. apply i_running0.
    + intros v u o'. rewrite P. destruct (v =? w) eqn:X.
      * cbn. intros Y. inversion Y; subst. apply Nat.eqb_eq in X. subst. split; auto. apply in_app_iff. right. left. reflexivity.
      * intros Y. destruct (i_answer0 _ _ _ Y) as [Y1 Y2]. split; auto. apply in_app_iff. left. auto.
    + intros th v u o' H1 H2. apply in_app_iff. left. eapply i_settle0; eauto.
    + intros u o' H1. destruct (i_value0 _ _ H1) as [H2|H2]; auto. right. apply in_app_iff. left. auto.
    + intros u o' H1. apply in_app_iff in H1. destruct H1 as [H1|[H1|[]]]; [apply (i_answers0 _ _ H1)|].
      inversion H1; subst. apply (in_map fst) in R4. exact R4.
    + intros v u. rewrite P. destruct (v =? w) eqn:X; [intros; right; reflexivity | apply i_wait0].
    + rewrite NW. assumption.
  - destruct (running (process (worker_of p w))) as [t|] eqn:R; auto.
    pose proof (running_registered _ _ _ I R) as G. pose proof (i_running _ I _ _ R) as (R1 & R2 & R3 & R4). rewrite R2.
    set (q := set_process p w (Proc false None None)).
    assert (forall v, process (worker_of q v) = if v =? w then Proc false None None else process (worker_of p v)) as P.
    { intros v. apply process_set; auto. }
    assert (forall v, registered (worker_of q v) = registered (worker_of p v)) as RG.
    { intros v. apply registered_set_process. }
    assert (n_workers q = n_workers p) as NW by apply n_workers_set_process.
    pose proof I as I'. destruct I. constructor; try assumption.
    + intros v. rewrite RG. apply i_owner0.
    + rewrite NW. assumption.
    + intros v u. rewrite P. destruct (v =? w); [discriminate|]. apply i_running0.
    + intros v u o'. rewrite P. destruct (v =? w) eqn:X; [discriminate|]. apply i_answer0.
    + intros v u. rewrite P. destruct (v =? w) eqn:X; [cbn; discriminate | apply i_wait0].
    + rewrite NW. assumption.
Qed.
Lemma step_inv : forall p e, inv p -> inv (step p e).
Proof.
  intros p [c|i ch|w o|w] I.
  - apply step_call; auto. - apply step_thread; auto.
  - apply step_process; auto. - apply step_process; auto.
Qed.
Lemma init_inv : forall n, inv (init n).
Proof.
  intros n. assert (forall w, worker_of (init n) w = gone) as W by (intros [|w]; reflexivity).
  assert (forall t, task_of (init n) t = new_task) as T by (intros [|t]; reflexivity).
  constructor; try (intros; contradiction).
  - reflexivity.
  - intros t. cbn. lia.
  - intros t. rewrite T. reflexivity.
  - intros t. rewrite T. discriminate.
  - intros t H. cbn in H. lia.
  - reflexivity.
  - intros w. cbn. lia.
  - cbn. lia.
  - intros w t. rewrite W. discriminate.
  - intros w t o. rewrite W. discriminate.
  - intros w t H. cbn in H. lia.
  - cbn. lia.
Qed.
Lemma run_app : forall p s e, run p (s ++ [e]) = step (run p s) e.
Proof. intros p s e. unfold run. rewrite fold_left_app. reflexivity. Qed.
Lemma run_inv : forall n s, inv (run (init n) s).
Proof.
  intros n s. induction s as [|e s IH] using rev_ind; [apply init_inv|]. rewrite run_app. apply step_inv. exact IH.
Qed.
Lemma step_max : forall p e, inv p -> max (step p e) = max p.
Proof.
  intros p [c|i ch|w o|w] I; cbn; auto.
  - destruct (nth i (threads p) []) as [|a rest] eqn:E; auto. destruct (act p a ch) as [[[p' more] r]|] eqn:A; auto.
    assert (takes p i a rest ch p' more r) as S by (exact (conj I (conj E A))).
    apply (act_n_workers _ _ _ _ _ _ _ _ S).
  - destruct (running _); auto. destruct (alive _); auto.
  - destruct (running _); auto.
Qed.
Lemma run_max : forall n s, max (run (init n) s) = n.
Proof.
  intros n s. induction s as [|e s IH] using rev_ind; [reflexivity|]. rewrite run_app, step_max; auto. apply run_inv.
Qed.

(** ** Without failing starts every registered worker has a thread *)
Definition starts (e : event) : Prop := match e with Step _ NoProcess => False | _ => True end.
Definition manned (p : pool) : Prop := forall w, registered (worker_of p w) = true -> 1 <= tot (owner w) (threads p).
Lemma step_manned : forall p e, inv p -> manned p -> starts e -> manned (step p e).
Proof.
  intros p [c|i ch|w o|w] I M G v H.
  - cbn [step]. projs. rewrite tot_app. specialize (M v H). lia.
  - cbn in *. destruct (nth i (threads p) []) as [|a rest] eqn:E; auto.
    destruct (act p a ch) as [[[p' more] r]|] eqn:A; auto.
    assert (takes p i a rest ch p' more r) as S by (exact (conj I (conj E A))).
    change (1 <= tot (owner v) (threads (next p' i more rest r))).
    change (registered (worker_of p' v) = true) in H.
    pose proof (tn_takes _ _ _ _ _ _ _ _ _ S (ig_owner v)) as N.
    set (X := tot (owner v) (threads (next p' i more rest r))) in *. clearbody X.
    rewrite (act_registered _ _ _ _ _ _ _ _ S) in H. specialize (M v).
    pose proof (takes_clean _ _ _ _ _ _ _ _ S) as (C & D1 & D2 & R). clear S E.
    destruct a; acts C D1 D2 R A; try destruct G; try rewrite (IClose_none _ _ (ig_owner v)) in N; tn N; cbn [andb] in H;
      try (specialize (M H); lia).
    + rewrite (Nat.eqb_sym v) in H. destruct (length (workers p) =? v); cbn [b2n] in *; try lia. specialize (M H). lia.
    + rewrite (Nat.eqb_sym v) in H. destruct (w =? v); cbn [b2n] in *; try discriminate. specialize (M H). lia.
  - cbn in *. destruct (running _); auto. destruct (alive _); auto.
    change (registered (worker_of (set_process p w (Proc true None (Some (n, o)))) v) = true) in H.
    rewrite registered_set_process in H. apply (M v H).
  - cbn in *. destruct (running _); auto. rewrite registered_set_process in H. apply (M v H).
Qed.
Lemma run_manned : forall n s, Forall starts s -> manned (run (init n) s).
Proof.
  intros n s. induction s as [|e s IH] using rev_ind.
  - intros _ [|w]; discriminate.
  - intros F. apply Forall_app in F. destruct F as [F1 F2]. inversion F2; subst. rewrite run_app.
    apply step_manned; auto. apply run_inv.
Qed.
