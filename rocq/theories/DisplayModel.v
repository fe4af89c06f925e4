(** The live output of the command line: components that several threads show and remove.
    pkm-cli/src/pkm_cli/display/display.py *)
From Coq Require Import List Bool Arith.
Import ListNotations.
Open Scope nat_scope.
Open Scope list_scope.
Open Scope bool_scope.

(** A component is the renderable of one [with display.show(unit)]: components have numbers, a thread that shows several
    things one after the other shows several components. Where a [show] (66-78) stands, between two accesses to what
    threads share ([_live_components], and the lock of [_requires_render]): *)
Inductive place :=
| Idle                     (* not entered *)
| Locked                   (* 69: the lock is held *)
| AddRead (l : list nat)   (* 70: the right side is evaluated *)
| Added                    (* 70: the attribute is set *)
| Shown                    (* 75: the body of the [with] runs *)
| RemRead (l : list nat)   (* 77: the right side is evaluated; no lock is taken *)
| Over.                    (* 77: the attribute is set *)
(** [waiting]: the refresher thread is in [self._requires_render.wait()], 61 *)
Record display := Display { comps : list nat; holder : option nat; places : nat -> place; waiting : bool }.
Definition display0 : display := Display [] None (fun _ => Idle) false.

Definition move (f : nat -> place) (i : nat) (p : place) : nat -> place := fun j => if j =? i then p else f j.
(** 77: [[c for c in self._live_components if c is not renderable]] *)
Definition without (i : nat) (l : list nat) : list nat := filter (fun c => negb (c =? i)) l.
(** 66-77, one step of the [show] of component [i]; a step that waits for the lock changes nothing *)
Definition show_step (d : display) (i : nat) : display :=
  match places d i with
  | Idle => match holder d with
            | None => Display (comps d) (Some i) (move (places d) i Locked) (waiting d)
            | Some _ => d
            end
  | Locked => Display (comps d) (holder d) (move (places d) i (AddRead (comps d))) (waiting d)
  | AddRead l => Display (i :: l) (holder d) (move (places d) i Added) (waiting d)
  (* 71-72, and the end of the [with]: [notify_all] wakes the refresher *)
  | Added => Display (comps d) None (move (places d) i Shown) (if length (comps d) =? 1 then false else waiting d)
  | Shown => Display (comps d) (holder d) (move (places d) i (RemRead (comps d))) (waiting d)
  | RemRead l => Display (without i l) (holder d) (move (places d) i Over) (waiting d)
  | Over => d
  end.
(** 50-61, [_refresh_loop]: a refresher that is awake draws as long as there are components (or the empty display is
    not drawn yet); it goes to sleep with the lock, when there are none. [wait] gives the lock back. *)
Definition refresh_step (d : display) : display :=
  match waiting d, comps d, holder d with
  | false, [], None => Display [] None (places d) true
  | _, _, _ => d
  end.
Inductive actor := Shower (i : nat) | Refresher.
Definition act (d : display) (a : actor) : display := match a with Shower i => show_step d i | Refresher => refresh_step d end.
(** a schedule: who makes the next step *)
Definition run (schedule : list actor) : display := fold_left act schedule display0.

(** ** calls that do not overlap *)
(** a whole [__enter__] of a [show] (4 steps), a whole [__exit__] of one that is shown (2 steps), or a step of the refresher *)
Definition steps (n i : nat) : list actor := repeat (Shower i) n.
Inductive whole : display -> list actor -> Prop :=
| Enter : forall d i, places d i = Idle -> whole d (steps 4 i)
| Exit : forall d i, places d i = Shown -> whole d (steps 2 i)
| Refresh : forall d, whole d [Refresher].
Inductive wholes : display -> list actor -> Prop :=
| wholes_nil : forall d, wholes d []
| wholes_app : forall d l r, whole d l -> wholes (fold_left act l d) r -> wholes d (l ++ r).
