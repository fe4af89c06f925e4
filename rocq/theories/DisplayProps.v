(** C269-C272: the live output of the command line. *)
From Coq Require Import List Bool Arith Lia.
From Verif Require Import DisplayModel DisplayProofs.
Import ListNotations.
Open Scope nat_scope.
Open Scope list_scope.
Open Scope bool_scope.
Definition s (n i : nat) : list actor := repeat (Shower i) n.

(** ** C269: what is over is not displayed *)
Theorem C269_over_partial : forall schedule i, wholes display0 schedule -> places (run schedule) i = Over -> ~ In i (comps (run schedule)).
Proof. intros schedule i W E I. destruct (settled_wholes _ _ W settled0) as (_ & _ & S & _). apply S in I. fold (run schedule) in I. congruence. Qed.
Print Assumptions C269_over_partial.
(** 1 reads the list with 0 in it, 0 is removed, 1 writes the list with 0 in it: when both are over 0 is displayed, and nothing ever removes it *)
Theorem C269_stays_refuted : exists schedule, (forall i, places (run schedule) i = Over \/ places (run schedule) i = Idle) /\ places (run schedule) 0 = Over /\ comps (run schedule) = [0] /\ waiting (run schedule) = false.
Proof.
  exists (s 4 0 ++ s 2 1 ++ s 2 0 ++ s 4 1 ++ [Refresher]). split; [|split; [vm_compute; reflexivity|split; vm_compute; reflexivity]]. intros [|[|i]]; [left|left|right]; vm_compute; reflexivity.
Qed.
Print Assumptions C269_stays_refuted.
Example C269_example : exists schedule, wholes display0 schedule /\ places (run schedule) 0 = Over /\ comps (run schedule) = [1].
Proof.
  exists (steps 4 0 ++ steps 4 1 ++ steps 2 0 ++ []). split; [|split; vm_compute; reflexivity]. constructor; [constructor; reflexivity|]. constructor; [constructor; vm_compute; reflexivity|]. constructor; [constructor; vm_compute; reflexivity|]. constructor.
Qed.

(** ** C270: what is shown is displayed *)
Theorem C270_shown_partial : forall schedule i, wholes display0 schedule -> places (run schedule) i = Shown -> In i (comps (run schedule)).
Proof. intros schedule i W E. destruct (settled_wholes _ _ W settled0) as (_ & _ & S & _). apply S. exact E. Qed.
Print Assumptions C270_shown_partial.
(** 0 reads the list without 1, 1 is added, 0 writes the list without 1 *)
Theorem C270_lost_refuted : exists schedule, places (run schedule) 1 = Shown /\ comps (run schedule) = [] /\ waiting (run schedule) = true.
Proof. exists (s 4 0 ++ s 1 0 ++ s 4 1 ++ s 1 0 ++ [Refresher]). split; [vm_compute; reflexivity|split; vm_compute; reflexivity]. Qed.
Print Assumptions C270_lost_refuted.
Example C270_example : exists schedule, wholes display0 schedule /\ places (run schedule) 1 = Shown /\ places (run schedule) 0 = Over.
Proof.
  exists (steps 4 0 ++ steps 4 1 ++ steps 2 0 ++ []). split; [|split; vm_compute; reflexivity]. constructor; [constructor; reflexivity|]. constructor; [constructor; vm_compute; reflexivity|]. constructor; [constructor; vm_compute; reflexivity|]. constructor.
Qed.

(** ** C271: the refresher is awake while there is something to display *)
Theorem C271_awake_partial : forall schedule i, wholes display0 schedule -> places (run schedule) i = Shown -> waiting (run schedule) = false.
Proof.
  intros schedule i W E. destruct (settled_wholes _ _ W settled0) as (_ & _ & S & X). fold (run schedule) in *. destruct (waiting (run schedule)) eqn:Y; [|reflexivity]. apply S in E. rewrite (X eq_refl) in E. destruct E.
Qed.
Print Assumptions C271_awake_partial.
(** 3 adds to the empty list and would wake the refresher; before it looks at the length, 2 writes a list of two that it read earlier *)
Theorem C271_asleep_refuted : exists schedule, places (run schedule) 1 = Shown /\ In 1 (comps (run schedule)) /\ waiting (run schedule) = true /\ holder (run schedule) = None.
Proof.
  exists (s 4 0 ++ s 1 0 ++ s 4 1 ++ s 4 2 ++ s 1 2 ++ s 1 0 ++ [Refresher] ++ s 3 3 ++ s 1 2 ++ s 1 3). split; [vm_compute; reflexivity|]. split; [vm_compute; auto|]. split; vm_compute; reflexivity.
Qed.
Print Assumptions C271_asleep_refuted.
Example C271_example : exists schedule, wholes display0 schedule /\ In Refresher schedule /\ places (run schedule) 1 = Shown /\ waiting (run (firstn 7 schedule)) = true.
Proof.
  exists (steps 4 0 ++ steps 2 0 ++ [Refresher] ++ steps 4 1 ++ []). split; [|split; [cbn; auto 20|split; vm_compute; reflexivity]]. constructor; [constructor; reflexivity|]. constructor; [constructor; vm_compute; reflexivity|]. constructor; [constructor|]. constructor; [constructor; vm_compute; reflexivity|]. constructor.
Qed.

(** ** C272: every schedule *)
Theorem C272_displayed : forall schedule, NoDup (comps (run schedule)) /\
  forall i, In i (comps (run schedule)) -> places (run schedule) i <> Idle /\ places (run schedule) i <> Locked.
Proof. intro schedule. destruct (sane_run schedule) as [[A B] _]. split; [exact A|]. intros i I. specialize (B i I). split; intro E; rewrite E in B; exact B. Qed.
Print Assumptions C272_displayed.
Example C272_example : exists schedule, comps (run schedule) = [2; 0] /\ places (run schedule) 1 = Over.
Proof. exists (s 4 0 ++ s 4 1 ++ s 5 2 ++ s 2 1). vm_compute. split; reflexivity. Qed.
