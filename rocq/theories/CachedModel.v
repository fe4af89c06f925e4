(** Model of pkm/src/pkm/utils/properties.py: cached_property, for one instance and any number of threads.

    A step of the model is one access to shared state: reading the attribute (52), the block under the mutation lock
    (29-32, 43-44), taking or releasing the lock of the instance (34), the test (35) with the computation (36), and storing
    the value (38). The value that a computation gives is part of the schedule ([None]: it raises, which leaves the lock but
    not the entry of the dict, as there is no [finally]). A computation does not read the property it computes (with the
    reentrant lock that would recurse without end). *)
From Coq Require Import List Bool Arith.
Import ListNotations.
Open Scope nat_scope.
Open Scope list_scope.
Open Scope bool_scope.

Definition value := nat.
Inductive pc :=
| Read                                    (* 51-53 *)
| Register                                (* 29-32 *)
| Acquire (lock : nat) (owner : bool)     (* 34: waiting for the lock *)
| Test (lock : nat) (owner : bool)        (* 35-36 *)
| Store (lock : nat) (owner : bool) (v : value)  (* 38 *)
| Release (lock : nat) (owner : bool)     (* the end of 34-40 *)
| Unregister                              (* 42-44 *)
| Done (v : value)                        (* 52: returned *)
| Failed.                                 (* the computation raised *)
Record cstate := CS {
  c_attr : option value;            (* the attribute _cached_.. *)
  c_entry : option nat;             (* _instance_locks.get(id) *)
  c_next : nat;                     (* the next new lock *)
  c_held : list (nat * nat);        (* lock, thread *)
  c_pcs : list pc;                  (* thread i *)
  c_computed : list value }.        (* the values computed so far, last first *)
Definition cstart (threads : nat) : cstate := CS None None 0 [] (repeat Read threads) [].
Fixpoint set_nth {A} (n : nat) (x : A) (l : list A) : list A :=
  match l, n with [], _ => [] | _ :: r, 0 => x :: r | y :: r, S n => y :: set_nth n x r end.
Definition goto (s : cstate) (t : nat) (p : pc) : cstate := CS (c_attr s) (c_entry s) (c_next s) (c_held s) (set_nth t p (c_pcs s)) (c_computed s).
Definition held (s : cstate) (l : nat) : bool := existsb (fun e => fst e =? l) (c_held s).
(** what may happen: thread [t] goes one step, where a computation gives [v]; or the cached value is deleted (72-74, and
    67-68) *)
Inductive action := Step (t : nat) (v : option value) | Invalidate.
Definition cstep (s : cstate) (a : action) : cstate :=
  match a with
  | Invalidate => CS None (c_entry s) (c_next s) (c_held s) (c_pcs s) (c_computed s)
  | Step t v =>
      match nth_error (c_pcs s) t with
      | None | Some (Done _) | Some Failed => s
      | Some Read => goto s t (match c_attr s with Some v => Done v | None => Register end)
      | Some Register =>
          match c_entry s with
          | Some l => goto s t (Acquire l false)
          | None => goto (CS (c_attr s) (Some (c_next s)) (S (c_next s)) (c_held s) (c_pcs s) (c_computed s)) t (Acquire (c_next s) true)
          end
      | Some (Acquire l o) =>
          if held s l then s
          else goto (CS (c_attr s) (c_entry s) (c_next s) ((l, t) :: c_held s) (c_pcs s) (c_computed s)) t (Test l o)
      | Some (Test l o) =>
          match c_attr s with
          | Some _ => goto s t (Release l o)
          | None =>
              match v with
              | Some v => goto (CS (c_attr s) (c_entry s) (c_next s) (c_held s) (c_pcs s) (v :: c_computed s)) t (Store l o v)
              | None => goto (CS (c_attr s) (c_entry s) (c_next s) (filter (fun e => negb (fst e =? l)) (c_held s)) (c_pcs s) (c_computed s)) t Failed
              end
          end
      | Some (Store l o v) => goto (CS (Some v) (c_entry s) (c_next s) (c_held s) (c_pcs s) (c_computed s)) t (Release l o)
      | Some (Release l o) =>
          goto (CS (c_attr s) (c_entry s) (c_next s) (filter (fun e => negb (fst e =? l)) (c_held s)) (c_pcs s) (c_computed s)) t (if o then Unregister else Read)
      | Some Unregister => goto (CS (c_attr s) None (c_next s) (c_held s) (c_pcs s) (c_computed s)) t Read
      end
  end.
Definition crun (threads : nat) (acts : list action) : cstate := fold_left cstep acts (cstart threads).
