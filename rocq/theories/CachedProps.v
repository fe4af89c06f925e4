(** C55: cached properties. *)
From Coq Require Import List Bool Arith Lia.
From Verif Require Import CachedModel CachedProofs.
Import ListNotations.
Open Scope nat_scope.
Open Scope list_scope.
Open Scope bool_scope.

(** Whatever the threads and their schedule, while nothing invalidates the value: at most one computation succeeds, and
    every reader that got an answer got its value. *)
Theorem C55_computed_once_partial : forall threads acts, (forall a, In a acts -> a <> Invalidate) ->
  length (c_computed (crun threads acts)) <= 1 /\
  forall t v, nth_error (c_pcs (crun threads acts)) t = Some (Done v) -> c_computed (crun threads acts) = [v].
Proof. exact once. Qed.
Print Assumptions C55_computed_once_partial.
(** thread 1 comes in while thread 0 computes, thread 2 read before and registers after; a first attempt raises *)
Definition steps (t : nat) (v : option value) (n : nat) : list action := repeat (Step t v) n.
Example C55_sample : let acts := steps 3 None 4 ++ steps 0 (Some 7) 3 ++ steps 2 (Some 9) 1 ++ steps 1 (Some 8) 5 ++ steps 0 (Some 7) 5 ++ steps 1 (Some 8) 4 ++ steps 2 (Some 9) 9 in
  (forall a, In a acts -> a <> Invalidate) /\ c_pcs (crun 4 acts) = [Done 7; Done 7; Done 7; Failed].
Proof. cbv zeta. split; [|vm_compute; reflexivity]. intros a I. vm_compute in I. intuition congruence. Qed.

(** Between two invalidations the value may be computed twice, and readers see different values. *)
Theorem C55_invalidated_refuted : exists threads before after t u, (forall a, In a (before ++ after) -> a <> Invalidate) /\
  length (c_computed (crun threads (before ++ [Invalidate]))) = 1 /\ length (c_computed (crun threads (before ++ [Invalidate] ++ after))) = 3 /\
  (forall v, nth_error (c_pcs (crun threads (before ++ [Invalidate]))) t <> Some (Done v)) /\ (forall v, nth_error (c_pcs (crun threads (before ++ [Invalidate]))) u <> Some (Done v)) /\
  nth_error (c_pcs (crun threads (before ++ [Invalidate] ++ after))) t = Some (Done 3) /\ nth_error (c_pcs (crun threads (before ++ [Invalidate] ++ after))) u = Some (Done 2).
Proof.
  exists 3, (steps 0 (Some 1) 2 ++ steps 1 (Some 3) 2 ++ steps 0 (Some 1) 6), (steps 2 (Some 2) 4 ++ steps 1 (Some 3) 2 ++ steps 2 (Some 2) 4 ++ steps 1 (Some 3) 3), 1, 2.
  split; [intros a I; vm_compute in I; intuition congruence|]. vm_compute. repeat split; try reflexivity; discriminate.
Qed.
Print Assumptions C55_invalidated_refuted.
