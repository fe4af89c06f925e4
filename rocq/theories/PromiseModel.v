(** [_SimplePromise] and [Deferred], pkm/src/pkm/utils/promises.py:123-231, run by any number of threads.
    Every thread executes one call; program order between calls of one thread only removes interleavings.
    A block under [_wait_lock] is one step; the call of a listener is one step; completing the promise of a
    listener ([Deferred.complete]/[fail]) is another.
    Simplifications: values and exceptions are numbered; the callbacks are pure: they map the settled promise
    to a result or an exception and do not settle promises themselves. *)
From Coq Require Import List Bool Arith.
From Verif Require Import Base.
Import ListNotations.
Open Scope nat_scope.
Open Scope list_scope.
Open Scope bool_scope.

(** [truthy]: what [bool(self._err)] yields for the exception, line 187 and 199 *)
Inductive settled := Done (v : nat) | Failed (e : nat) (truthy : bool).
Definition callback := settled -> settled.
(** the promise returned to the caller of [when_completed] and the callback *)
Definition listener := (nat * callback)%type.
(** promises.py:151-156; [state = None]: not [_done]; [_listeners] is [None] when done, here empty *)
Record promise := P { state : option settled; listeners : list listener }.
Definition new_promise : promise := P None [].

Inductive action :=
| ASettle (p : nat) (s : settled)            (* _complete / _fail, 204-231 *)
| AListen (p : nat) (l : listener)           (* when_completed, 158-175 *)
| ACall (p : nat) (l : listener)             (* callback_wrapper, 165-170 *)
| ACallNow (p : nat) (l : listener).         (* 177-180: the promise was already done *)

Record call := Call { called_on : nat; called_child : nat; called_with : settled }.
(** a thread: the actions its call still has to do; [None]: the call raised ValueError *)
Record world := W { heap : list promise; threads : list (option (list action)); log : list call }.

Definition get (h : list promise) (p : nat) : promise := nth p h new_promise.
Fixpoint set_nth {A} (l : list A) (i : nat) (x : A) : list A :=
  match l, i with
  | [], _ => []
  | _ :: r, 0 => x :: r
  | y :: r, S j => y :: set_nth r j x
  end.

(** what one action does: the new heap, the actions that follow at once ([None]: raises), and the log *)
Definition act (h : list promise) (lg : list call) (a : action) : list promise * option (list action) * list call :=
  match a with
  | ASettle p s =>
      match state (get h p) with
      | Some _ => (h, None, lg)
      | None => (set_nth h p (P (Some s) []), Some (map (ACall p) (listeners (get h p))), lg)
      end
  | AListen p l =>
      match state (get h p) with
      | Some _ => (h, Some [ACallNow p l], lg)
      | None => (set_nth h p (P None (listeners (get h p) ++ [l])), Some [], lg)
      end
  | ACall p (c, f) | ACallNow p (c, f) =>
      match state (get h p) with
      | Some s => (h, Some [ASettle c (f s)], lg ++ [Call p c s])
      | None => (h, None, lg) (* does not happen: proved *)
      end
  end.
(** one step of thread [i]; an exception leaves the whole call *)
Definition step (w : world) (i : nat) : world :=
  match nth i (threads w) None with
  | Some (a :: rest) =>
      match act (heap w) (log w) a with
      | (h, Some more, lg) => W h (set_nth (threads w) i (Some (more ++ rest))) lg
      | (h, None, lg) => W h (set_nth (threads w) i None) lg
      end
  | _ => w
  end.
Definition run (w : world) (schedule : list nat) : world := fold_left step schedule w.
(** [n] promises, and one thread for every call *)
Definition start (n : nat) (calls : list action) : world :=
  W (repeat new_promise n) (map (fun a => Some [a]) calls) [].
Definition finished (w : world) : Prop := forall t, In t (threads w) -> t = None \/ t = Some [].

(** promises.py:182-194 [result]; [None]: waits *)
Definition result (wait : bool) (p : promise) : option (res (option nat)) :=
  match state p with
  | Some (Done v) => Some (Ok (Some v))
  | Some (Failed e truthy) => Some (if truthy then Err OtherErr else Ok None)
  | None => if wait then None else Some (Err ValueError)
  end.
(** promises.py:196-200 *)
Definition is_completed (p : promise) : bool := is_some (state p).
Definition is_failed (p : promise) : bool := match state p with Some (Failed _ t) => t | _ => false end.
(** promises.py:65-69 *)
Definition is_succeeded (p : promise) : bool := is_completed p && negb (is_failed p).

(** ** Awaiting, promises.py:102-120 *)
(** a promise as the waiting thread sees it: when it settles ([None]: never), how, and whether
    [request_cancel] returns True *)
Record awaited := A { settles_at : option nat; outcome_of : settled; accepts_cancel : bool; base_exception : bool }.
Inductive waited := Returned (now : nat) | Raised (e : nat) (base : bool) (now : nat) | Blocked.
Definition wait_for (now : nat) (p : awaited) : waited :=
  match settles_at p with
  | None => Blocked
  | Some t => match outcome_of p with
              | Failed e true => Raised e (base_exception p) (Nat.max now t)
              | _ => Returned (Nat.max now t)
              end
  end.
(** promises.py:114-120 *)
Fixpoint await_all (ignore_error : bool) (now : nat) (ps : list awaited) : waited :=
  match ps with
  | [] => Returned now
  | p :: r =>
      match wait_for now p with
      | Blocked => Blocked
      | Returned now' => await_all ignore_error now' r
      | Raised e b now' => if ignore_error then await_all ignore_error now' r else Raised e b now'
      end
  end.
(** promises.py:102-111; also says for which promises a cancellation was requested.  A promise that accepts the
    request is not waited for any more. *)
Definition await_all_or_cancel (now : nat) (ps : list awaited) : waited * list awaited :=
  match await_all false now ps with
  | Raised e false now' =>
      match await_all true now' (filter (fun p => negb (accepts_cancel p)) ps) with
      | Returned now'' => (Raised e false now'', ps)
      | other => (other, ps)
      end
  | other => (other, [])
  end.
