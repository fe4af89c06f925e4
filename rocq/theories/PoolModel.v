(** [ProcessPoolExecutor], pkm/src/pkm/utils/multiproc/__init__.py:60-272, run by any number of threads.
    A block under a lock, a queue operation and an exchange with the worker process is one step; the scheduler
    interleaves the steps of the threads and of the worker processes in any way.
    Simplifications: tasks, workers, results and threads are numbered; the promise of a task is only its
    settled value (listeners are in PromiseModel); an answer is read from the pipe as a whole or not at all;
    a worker process ends only while it executes a task or when [kill] is called; the thread that copies the
    log (115-122) is left out, except that [join] waits for the end of the process, which ends that thread;
    [__del__] (124-126) kills only processes that have ended already and does nothing. *)
From Coq Require Import List Bool Arith.
From Verif Require Import Base.
Import ListNotations.
Open Scope nat_scope.
Open Scope list_scope.
Open Scope bool_scope.

(** [_CommandResult], 60-63: a result, or the stack trace of an exception; [Broken]: an exception of the
    handler itself, 156-157 *)
Inductive outcome := Value (v : nat) | Trace (e : nat) | Broken.
(** [_TaskResult], 192-214: [deferred] (its settled value), [_canceled], [_attached_worker] *)
Record task := Task { promise : option outcome; canceled : bool; attached : option nat }.
(** the process of a worker, 104-110: the task it executes, the answer in its pipe with its task (the task is
    a ghost: the handler never looks at it) *)
Record proc := Proc { alive : bool; running : option nat; answer : option (nat * outcome) }.
(** [_WorkerHandler], 97-102; [registered]: in the [_workers] of the pool; the work thread *)
Record worker := Worker { registered : bool; process : proc; thread : option nat }.

(** what a thread is about to do *)
Inductive instr :=
| ISubmit (exit : bool)              (* 230-242 execute; is the function sys.exit? *)
| ISpawn                             (* 250-257 the locked part *)
| IStart (w : nat)                   (* 258-259, 172-178 *)
| ILoop (w : nat)                    (* 131, 112-113 while not self._should_terminate() *)
| IGet (w : nat)                     (* 133-141 *)
| IAttach (w t : nat)                (* 144, 199-205 *)
| ISend (w t : nat)                  (* 145-146 *)
| IWait (w t : nat)                  (* 148 *)
| ISettle (w t : nat) (o : outcome)  (* 150-155 *)
| IFail (w t : nat)                  (* 156-157 *)
| IDone (w t : nat) (raising : bool) (* 158-159 *)
| IRemove (w : nat)                  (* 160-162, 244-248 *)
| ICancel (t : nat)                  (* 208 *)
| IKill (t : nat)                    (* 209-212 *)
| IClose                             (* 261-266 *)
| IJoin (w : nat).                   (* 268-269, 167-170 *)

Record pool := Pool {
  max : nat; closed : bool; queue : list nat; unfinished : nat;
  workers : list worker; tasks : list task; threads : list (list instr);
  (* logs *)
  executed : list (nat * nat); answers : list (nat * outcome); settles : list (nat * outcome) }.

Definition new_task := Task None false None.
Definition fresh_proc := Proc true None None.
Definition no_proc := Proc false None None.
Definition new_worker := Worker true no_proc None.
Definition gone := Worker false no_proc None.
Fixpoint set_nth {A} (l : list A) (i : nat) (x : A) : list A :=
  match l, i with
  | [], _ => []
  | _ :: r, 0 => x :: r
  | y :: r, S j => y :: set_nth r j x
  end.
Definition task_of (p : pool) (t : nat) : task := nth t (tasks p) new_task.
Definition worker_of (p : pool) (w : nat) : worker := nth w (workers p) gone.
Definition n_workers (p : pool) : nat := length (filter registered (workers p)).
Definition names (p : pool) : list nat := filter (fun w => registered (worker_of p w)) (seq 0 (length (workers p))).

(** field updates *)
Definition with_closed (p : pool) : pool :=
  Pool (max p) true (queue p) (unfinished p) (workers p) (tasks p) (threads p) (executed p) (answers p) (settles p).
Definition with_queue (p : pool) q u : pool :=
  Pool (max p) (closed p) q u (workers p) (tasks p) (threads p) (executed p) (answers p) (settles p).
Definition with_workers (p : pool) ws : pool :=
  Pool (max p) (closed p) (queue p) (unfinished p) ws (tasks p) (threads p) (executed p) (answers p) (settles p).
Definition with_tasks (p : pool) ts : pool :=
  Pool (max p) (closed p) (queue p) (unfinished p) (workers p) ts (threads p) (executed p) (answers p) (settles p).
Definition with_threads (p : pool) ths : pool :=
  Pool (max p) (closed p) (queue p) (unfinished p) (workers p) (tasks p) ths (executed p) (answers p) (settles p).
Definition with_executed (p : pool) e : pool :=
  Pool (max p) (closed p) (queue p) (unfinished p) (workers p) (tasks p) (threads p) e (answers p) (settles p).
Definition with_answers (p : pool) a : pool :=
  Pool (max p) (closed p) (queue p) (unfinished p) (workers p) (tasks p) (threads p) (executed p) a (settles p).
Definition with_settles (p : pool) s : pool :=
  Pool (max p) (closed p) (queue p) (unfinished p) (workers p) (tasks p) (threads p) (executed p) (answers p) s.

Definition set_worker (p : pool) (w : nat) (x : worker) : pool := with_workers p (set_nth (workers p) w x).
Definition set_process (p : pool) (w : nat) (x : proc) : pool :=
  set_worker p w (Worker (registered (worker_of p w)) x (thread (worker_of p w))).
(** 164-165 [kill]: an answer already in the pipe stays there *)
Definition kill (p : pool) (w : nat) : pool :=
  set_process p w (Proc false None (answer (process (worker_of p w)))).
(** [_complete]/[_fail] of a promise that is not settled, promises.py:204-231 *)
Definition settle (p : pool) (t : nat) (o : outcome) : pool :=
  with_settles (with_tasks p (set_nth (tasks p) t
                  (Task (Some o) (canceled (task_of p t)) (attached (task_of p t))))) (settles p ++ [(t, o)]).

(** what the environment decides in a step: [NoProcess]: Popen raises, 106; [Timeout]: 134-135, nothing comes for
    [max_inactivity_seconds]; [Unpicklable]: 145 raises; [Unreadable]: 148 raises *)
Inductive choice := Go | NoProcess | Timeout | Unpicklable | Unreadable.

(** what an instruction does: the pool, and the instructions that follow before the rest of the thread;
    [None]: the thread has to wait; the flag: the call raises, so the rest of the thread is dropped *)
Definition act (p : pool) (a : instr) (ch : choice) : option (pool * list instr * bool) :=
  match a with
  | ISubmit exit =>
      if closed p && negb exit then Some (p, [], true)
      else Some (with_queue (with_tasks p (tasks p ++ [new_task])) (queue p ++ [length (tasks p)]) (S (unfinished p)),
                 [ISpawn], false)
  | ISpawn =>
      if (n_workers p <? unfinished p) && (n_workers p <? max p)
      then Some (with_workers p (workers p ++ [new_worker]), [IStart (length (workers p))], false)
      else Some (p, [], false)
  | IStart w =>
      match ch with
      | NoProcess => Some (p, [], true)
      | _ => Some (with_threads (set_worker p w (Worker (registered (worker_of p w)) fresh_proc (Some (length (threads p)))))
                     (threads p ++ [[ILoop w]]), [], false)
      end
  | ILoop w =>
      if closed p || negb (alive (process (worker_of p w))) then Some (p, [IRemove w], false)
      else Some (p, [IGet w], false)
  | IGet w =>
      match queue p with
      | t :: q => Some (with_queue p q (unfinished p), [IAttach w t], false)
      | [] => match ch with Timeout => Some (kill p w, [IRemove w], false) | _ => None end
      end
  | IAttach w t =>
      if canceled (task_of p t) then Some (p, [IDone w t false], false)
      else Some (with_tasks p (set_nth (tasks p) t (Task (promise (task_of p t)) false (Some w))), [ISend w t], false)
  | ISend w t =>
      match ch with
      | Unpicklable => Some (p, [IFail w t], false)
      | _ =>
          let pr := process (worker_of p w) in
          if alive pr
          then Some (with_executed (set_process p w (Proc true (Some t) (answer pr))) (executed p ++ [(t, w)]),
                     [IWait w t], false)
          else Some (p, [IFail w t], false)
      end
  | IWait w t =>
      let pr := process (worker_of p w) in
      match answer pr with
      | Some (_, o) =>
          Some (set_process p w (Proc (alive pr) (running pr) None),
                [match ch with Unreadable => IFail w t | _ => ISettle w t o end], false)
      | None => if alive pr then None else Some (p, [IFail w t], false)
      end
  | ISettle w t o =>
      match promise (task_of p t) with
      | Some _ => Some (p, [IFail w t], false)
      | None => Some (settle p t o, [IDone w t false], false)
      end
  | IFail w t =>
      match promise (task_of p t) with
      | Some _ => Some (p, [IDone w t true], false)
      | None => Some (settle p t Broken, [IDone w t false], false)
      end
  | IDone w t raising =>
      Some (with_queue p (queue p) (pred (unfinished p)), [if raising then IRemove w else ILoop w], false)
  | IRemove w =>
      let k := worker_of p w in
      if registered k then Some (set_worker p w (Worker false (process k) (thread k)), [ISpawn], false)
      else Some (p, [], true)
  | ICancel t =>
      if canceled (task_of p t) || is_some (promise (task_of p t)) then Some (p, [IKill t], false)
      else Some (p, [], false)
  | IKill t =>
      let k := task_of p t in
      let p' := with_tasks p (set_nth (tasks p) t (Task (promise k) true (attached k))) in
      Some (match attached k with Some w => kill p' w | None => p' end, [], false)
  | IClose =>
      Some (with_closed p, map (fun _ => ISubmit true) (names p) ++ map IJoin (names p), false)
  | IJoin w =>
      let k := worker_of p w in
      match thread k with
      | Some i => if negb (alive (process k)) && match nth i (threads p) [] with [] => true | _ => false end
                  then Some (p, [], false) else None
      | None => Some (p, [], true) (* not started yet: [_threads] is None *)
      end
  end.

(** the calls of the public methods, and the events of the worker processes, 82-94: a result or an exception
    is answered; [SystemExit] and other ends of the process are not answered *)
Inductive request := RSubmit (exit : bool) | RCancel (t : nat) | RClose.
Inductive event :=
| Call (c : request)
| Step (i : nat) (ch : choice)
| Answers (w : nat) (o : outcome)
| Exits (w : nat).
Definition entry (c : request) : instr :=
  match c with RSubmit e => ISubmit e | RCancel t => ICancel t | RClose => IClose end.

Definition step (p : pool) (e : event) : pool :=
  match e with
  | Call c => with_threads p (threads p ++ [[entry c]])
  | Step i ch =>
      match nth i (threads p) [] with
      | [] => p
      | a :: rest =>
          match act p a ch with
          | None => p
          | Some (p', more, raises) =>
              with_threads p' (set_nth (threads p') i (more ++ if raises then [] else rest))
          end
      end
  | Answers w o =>
      let pr := process (worker_of p w) in
      match running pr with
      | Some t => if alive pr
                  then with_answers (set_process p w (Proc true None (Some (t, o)))) (answers p ++ [(t, o)])
                  else p
      | None => p
      end
  | Exits w =>
      let pr := process (worker_of p w) in
      match running pr with
      | Some t => set_process p w (Proc false None (answer pr))
      | None => p
      end
  end.
(** 219-228 [__init__] *)
Definition init (max_workers : nat) : pool := Pool max_workers false [] 0 [] [] [] [] [] [].
Definition run (p : pool) (schedule : list event) : pool := fold_left step schedule p.

(** ** Observations *)
(** can the thread go on without a timeout? *)
Definition waits (p : pool) (i : nat) : bool :=
  match nth i (threads p) [] with
  | [] => true
  | a :: _ => match act p a Go with None => true | Some _ => false end
  end.
(** nothing goes on: every thread has ended or waits *)
Definition quiet (p : pool) : Prop := forall i, waits p i = true.
Definition settled (p : pool) (t : nat) : bool := is_some (promise (task_of p t)).
Definition runs_in (p : pool) (t w : nat) : Prop :=
  registered (worker_of p w) = true /\ alive (process (worker_of p w)) = true /\
  running (process (worker_of p w)) = Some t.
