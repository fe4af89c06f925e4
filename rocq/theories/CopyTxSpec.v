(** Vocabulary for the copy transaction properties. *)
From Coq Require Import String Ascii List Bool NArith Arith.
From Verif Require Import Base FsModel FsFacts CopyTxModel.
Import ListNotations.
Open Scope nat_scope.
Open Scope list_scope.
Open Scope bool_scope.

Definition op_target (o : tx_op) : path :=
  match o with OMkdir p | OCopy _ p | ORm p | OTouch p _ | OCustom _ p => p end.
(** operations that move aside what they find *)
Definition replaces (o : tx_op) : Prop := match o with OCopy _ _ | ORm _ => True | _ => False end.
(** [mkdir], [copy] and [rm] only, and the root directory itself is neither removed nor overwritten *)
Definition tracked (o : tx_op) : Prop :=
  match o with OMkdir _ => True | OCopy _ p | ORm p => p <> [] | _ => False end.
(** nothing is replaced that an earlier operation has worked on, in or below it *)
Definition respects (o1 o2 : tx_op) : Prop := replaces o2 -> under (op_target o2) (op_target o1) = false.
Definition orderly (ops : list tx_op) : Prop := Forall tracked ops /\ ForallOrdPairs respects ops.
(** the state when the transaction ended, normally or by an exception *)
Definition final (o : outcome) : tx := match o with Go _ t | Raised t => t end.
(** an iteration order of the set that meets the content of a directory before the directory *)
Definition inner_first (order : list path) : Prop :=
  forall a b x y, order = a ++ x :: b -> In y b -> under x y = true -> x = y.
(** no two entries of a source directory have the same name *)
Fixpoint names_differ (t : tree) : Prop :=
  match t with
  | TFile _ => True
  | TDir cs => NoDup (map fst cs) /\
      (fix all (l : list (str * tree)) : Prop := match l with [] => True | (_, c) :: r => names_differ c /\ all r end) cs
  end.
