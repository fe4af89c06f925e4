(** Model of pkm/src/pkm/utils/monitors.py and of [monitored_run] of pkm/src/pkm/utils/processes.py.

    Simplifications: a class of events or operations is its name; a method of a listener is a number and what it does is a parameter; an
    object is a number, its [id]. *)
From Coq Require Import List Bool NArith Ascii String Arith Lia.
From Verif Require Import Base ParserModel.
Import ListNotations.
Open Scope string_scope. Open Scope nat_scope. Open Scope list_scope. Open Scope bool_scope.

(** ** the callbacks *)
(** what can be in a slot of a callback: a method, or a closure over the generator of a method (lines 70-98) *)
Inductive meth := Direct (h : N) | OfGen (h : N).
(** monitors.py:13-18 [_Callback] *)
Inductive callback := CB (parent : option callback) (enter leave fail : option meth).
Definition cb_parent (c : callback) := let (p, _, _, _) := c in p.
Definition cb_enter (c : callback) := let (_, e, _, _) := c in e.
Definition cb_leave (c : callback) := let (_, _, l, _) := c in l.
Definition cb_fail (c : callback) := let (_, _, _, f) := c in f.
(** [_callbacks]: the values can be [None] since line 44 stores parents *)
Definition callbacks := list (str * option callback).
(** [self._callbacks.get(t)] *)
Definition callback_of (t : str) (c : callbacks) : option callback := match dict_get t c with Some x => x | None => None end.

(** a keyword argument of [listen]: its name, whether it is callable, and the annotation of its first argument: [None] for a callable
    without arguments, [Some None] without annotation *)
Record listener := Listener { l_name : str; l_callable : bool; l_arg : option (option str); l_method : N }.
Inductive mode := MEnter | MLeave | MFail | MWith.
(** monitors.py:49, 62-68 *)
Definition mode_of (name : str) : option mode :=
  if starts_with "enter_" name then Some MEnter
  else if starts_with "leave_" name then Some MLeave
  else if starts_with "on_" name then Some MEnter
  else if starts_with "failed_" name then Some MFail
  else if starts_with "with_" name then Some MWith
  else None.
(** monitors.py:62-98: setting the slots *)
Definition set_slots (m : mode) (h : N) (c : callback) : callback :=
  let (p, e, l, f) := c in
  match m with
  | MEnter => CB p (Some (Direct h)) l f
  | MLeave => CB p e (Some (Direct h)) f
  | MFail => CB p e l (Some (Direct h))
  | MWith => CB p (Some (OfGen h)) (Some (OfGen h)) (Some (OfGen h))
  end.
(** monitors.py:46-99 [_create_callbacks] *)
Definition add_listener (cur : callbacks) (acc : list (str * callback)) (l : listener) : list (str * callback) :=
  match mode_of (l_name l), l_callable l, l_arg l with
  | Some m, true, Some (Some t) =>
      let c := match dict_get t acc with Some c => c | None => CB (callback_of t cur) None None None end in
      dict_set t (set_slots m (l_method l) c) acc
  | _, _, _ => acc
  end.
Definition create_callbacks (cur : callbacks) (ls : list listener) : list (str * callback) := fold_left (add_listener cur) ls [].
(** monitors.py:27-30 [add_listeners], 36-38 *)
Definition install (new : list (str * callback)) (cur : callbacks) : callbacks := fold_left (fun d p => dict_set (fst p) (Some (snd p)) d) new cur.
Definition add_listeners (ls : list listener) (cur : callbacks) : callbacks := install (create_callbacks cur ls) cur.
(** monitors.py:42-44 *)
Definition restore (new : list (str * callback)) (cur : callbacks) : callbacks := fold_left (fun d p => dict_set (fst p) (cb_parent (snd p)) d) new cur.
(** monitors.py:32-44 [listen]: a block that listens; [body] is what happens to the callbacks in it *)
Definition listen (ls : list listener) (body : callbacks -> callbacks) (cur : callbacks) : callbacks :=
  let new := create_callbacks cur ls in restore new (body (install new cur)).

(** ** operations *)
(** what is called, in order *)
Inductive call :=
| Entered (h x : N) | Left (h x : N) | Failed (h x : N) (e : exn)
| Started (h x : N) | Resumed (h x : N) | Thrown (h x : N) (e : exn).
(** what a generator does when it is started, resumed, or when an exception is thrown into it *)
Inductive gen_result := Yields | Ends | Raises (e : exn).
Record state := St { st_calls : list call; st_suspended : list (N * N) }.

Section Handlers.
  (** [None]: the method is no generator function (line 74) *)
  Variable start : N -> N -> option gen_result.
  Variable resume : N -> N -> gen_result.
  Variable throw : N -> N -> exn -> gen_result.
  (** what the methods raise *)
  Variable on_enter on_leave : N -> N -> option exn.
  Variable on_fail : N -> N -> exn -> option exn.
  (** the callbacks of the global monitor, and those of the operations *)
  Variable global : callbacks.
  Variable own : N -> callbacks.

  Definition raised (o : option exn) : res unit := match o with Some e => Err e | None => Ok tt end.
  Definition same (p q : N * N) : bool := N.eqb (fst p) (fst q) && N.eqb (snd p) (snd q).
  Definition suspended (h x : N) (s : state) : bool := existsb (same (h, x)) (st_suspended s).
  Definition log (c : call) (s : state) : state := St (st_calls s ++ [c]) (st_suspended s).
  Definition suspend (h x : N) (s : state) : state := St (st_calls s) ((h, x) :: filter (fun p => negb (same (h, x) p)) (st_suspended s)).
  Definition forget (h x : N) (s : state) : state := St (st_calls s) (filter (fun p => negb (same (h, x) p)) (st_suspended s)).

  (** [cb.enter_method(x)], monitors.py:73-79 for a generator *)
  Definition call_enter (m : meth) (x : N) (s : state) : res unit * state :=
    match m with
    | Direct h => (raised (on_enter h x), log (Entered h x) s)
    | OfGen h =>
        let s := log (Started h x) s in
        match start h x with
        | Some Yields => (Ok tt, suspend h x s)
        | Some (Raises e) => (Err e, s)
        | _ => (Ok tt, s)
        end
    end.
  (** [cb.leave_method(x)], monitors.py:81-86 *)
  Definition call_leave (m : meth) (x : N) (s : state) : res unit * state :=
    match m with
    | Direct h => (raised (on_leave h x), log (Left h x) s)
    | OfGen h =>
        if suspended h x s then
          (match resume h x with Raises e => Err e | _ => Ok tt end, log (Resumed h x) (forget h x s))
        else (Ok tt, s)
    end.
  (** [cb.fail_method(x, err)], monitors.py:88-90: [throw] ends with StopIteration when the generator ends *)
  Definition call_fail (m : meth) (x : N) (e : exn) (s : state) : res unit * state :=
    match m with
    | Direct h => (raised (on_fail h x e), log (Failed h x e) s)
    | OfGen h =>
        if suspended h x s then
          (match throw h x e with Yields => Ok tt | Ends => Err OtherErr | Raises e' => Err e' end, log (Thrown h x e) (forget h x s))
        else (Ok tt, s)
    end.
  (** [cb and cb.slot and cb.slot(..)] *)
  Definition slot (o : option callback) (get : callback -> option meth) (f : meth -> state -> res unit * state) (s : state) : res unit * state :=
    match o with
    | Some c => match get c with Some m => f m s | None => (Ok tt, s) end
    | None => (Ok tt, s)
    end.
  (** monitors.py:114-115 [notify]: a callback without this slot is called all the same *)
  Definition notify (cbs : callbacks) (t : str) (x : N) (s : state) : res unit * state :=
    match callback_of t cbs with
    | Some c => match cb_enter c with Some m => call_enter m x s | None => (Err TypeError, s) end
    | None => (Ok tt, s)
    end.

  (** a program that is monitored *)
  Inductive prog :=
  | Raise (e : exn)
  | Attempt (body : list prog)                               (* try: body except: pass *)
  | Notify (monitor : option N) (t : str) (x : N)            (* on the monitor of an operation or the global one *)
  | With (t : str) (x : N) (body : list prog)                (* with operation: body *)
  | Enter (t : str) (x : N) (body : list prog).              (* with Monitor.enter(context): body *)

  (** monitors.py:127-146 [MonitoredOperation.__enter__], [__exit__]: an exception of a callback replaces the one of the body *)
  Definition run_with (t : str) (x : N) (body : state -> res unit * state) (s : state) : res unit * state :=
    let cb := callback_of t global in
    match slot cb cb_enter (fun m => call_enter m x) s with
    | (Err e, s) => (Err e, s)
    | (Ok _, s) =>
        let (r, s) := body s in
        let (r1, s) := match r with Err e => slot cb cb_fail (fun m => call_fail m x e) s | Ok _ => (Ok tt, s) end in
        match r1 with
        | Err e => (Err e, s)
        | Ok _ => let (r2, s) := slot cb cb_leave (fun m => call_leave m x) s in (match r2 with Err e => Err e | Ok _ => r end, s)
        end
    end.
  (** monitors.py:99-112 [enter] of the global monitor: the exception is not raised again *)
  Definition run_enter (t : str) (x : N) (body : state -> res unit * state) (s : state) : res unit * state :=
    let cb := callback_of t global in
    let (r, s) := match slot cb cb_enter (fun m => call_enter m x) s with (Err e, s) => (Err e, s) | (Ok _, s) => body s end in
    let (r1, s) := match r with Err e => slot cb cb_fail (fun m => call_fail m x e) s | Ok _ => (Ok tt, s) end in
    let (r2, s) := slot cb cb_leave (fun m => call_leave m x) s in
    (match r2 with Err e => Err e | Ok _ => r1 end, s).
  Fixpoint run (p : prog) (s : state) : res unit * state :=
    let run_all := fix run_all (l : list prog) (s : state) : res unit * state :=
      match l with
      | [] => (Ok tt, s)
      | p :: r => match run p s with (Err e, s) => (Err e, s) | (Ok _, s) => run_all r s end
      end in
    match p with
    | Raise e => (Err e, s)
    | Attempt b => (Ok tt, snd (run_all b s))
    | Notify None t x => notify global t x s
    | Notify (Some o) t x => notify (own o) t x s
    | With t x b => run_with t x (run_all b) s
    | Enter t x b => run_enter t x (run_all b) s
    end.
  Fixpoint run_all (l : list prog) (s : state) : res unit * state :=
    match l with
    | [] => (Ok tt, s)
    | p :: r => match run p s with (Err e, s) => (Err e, s) | (Ok _, s) => run_all r s end
    end.
End Handlers.

(** ** monitored_run *)
(** an event of a process: a line of its output, its end *)
Inductive pevent := OutputLine (s : str) | Exited (code : N).
(** [str.strip()] *)
Definition strip_line (s : str) : str := rev (snd (span is_space (rev (snd (span is_space s))))).
(** processes.py:38-41: what [readline] and [poll] give each time they are called; [None]: the loop does not end with these *)
Fixpoint watch (obs : list (str * option N)) : list pevent * option N :=
  match obs with
  | [] => ([], None)
  | (line, p) :: r =>
      match line, p with
      | [], Some code => ([Exited code], Some code)
      | _, _ => let (l, c) := watch r in (OutputLine (strip_line line) :: l, c)
      end
  end.
