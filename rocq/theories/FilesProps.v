(** C22-C25: copy transactions and path helpers. *)
From Coq Require Import String Ascii List Bool NArith Arith Lia.
From Verif Require Import Base BaseFacts FsModel FsFacts CopyTxModel CopyTxSpec CopyTxProofs FilesModel FilesProofs.
Import ListNotations.
Open Scope string_scope.
Open Scope nat_scope.
Open Scope list_scope.
Open Scope bool_scope.

(** a small file system: /a holds "old", /d is a directory with a file *)
Definition ex_fs : fs := [([], Dir); ([lit "a"], File (lit "old")); ([lit "d"], Dir); ([lit "x"; lit "d"], File (lit "dx"))].
Example ex_fs_wf : wf_fs ex_fs.
Proof.
  split; [reflexivity|]. intros c p. unfold ex_fs. cbn [lookup fst snd]. 
  destruct (path_eqb (c :: p) []) eqn:E1; [discriminate|].
  destruct (path_eqb (c :: p) [lit "a"]) eqn:E2; [apply path_eqb_eq in E2; injection E2 as _ ->; reflexivity|].
  destruct (path_eqb (c :: p) [lit "d"]) eqn:E3; [apply path_eqb_eq in E3; injection E3 as _ ->; reflexivity|].
  destruct (path_eqb (c :: p) [lit "x"; lit "d"]) eqn:E4; [apply path_eqb_eq in E4; injection E4 as _ ->; reflexivity|].
  cbn. congruence.
Qed.
Definition ex_ops : list tx_op :=
  [OMkdir [lit "n"; lit "m"]; OCopy (Some (lit "new")) [lit "a"]; ORm [lit "d"]; OCopy (Some (lit "f")) [lit "f"; lit "g"]].
Example ex_ops_orderly : orderly ex_ops.
Proof.
  unfold ex_ops. split.
  - apply Forall_cons; [exact I|]. apply Forall_cons; [discriminate|]. apply Forall_cons; [discriminate|]. apply Forall_cons; [discriminate|]. apply Forall_nil.
  - apply FOP_cons; [|apply FOP_cons; [|apply FOP_cons; [|apply FOP_cons; [apply Forall_nil|apply FOP_nil]]]];
      repeat (apply Forall_cons; [intros _; reflexivity|]); apply Forall_nil.
Qed.

(** ** C22 rollback *)
(** Missing: operations that replace what the same transaction has put there, [touch], a custom [file_copy],
    partial writes, and iteration orders of the set that meet a directory before its content; each of them is
    refuted below. *)
Theorem C22_rollback_partial : forall f0 ops b order,
  wf_fs f0 -> orderly ops ->
  let t := final (tx_run None b (tx_start f0) ops) in
  (forall p, In p order <-> In p (copied t)) -> inner_first order ->
  exists f', rollback order t = Some f' /\ same_fs f' f0.
Proof.
  intros f0 ops b order W O t S I. apply rollback_inv; [exact W| |exact S|exact I]. apply (k_inv f0 ops). apply (run_track f0 b ops W O).
Qed.
Theorem C22_copy_tree_rollback_partial : forall f0 accept src target tree b order,
  wf_fs f0 -> names_differ tree ->
  let t := final (tx_run None b (tx_start f0) (copy_tree_ops false accept src target tree)) in
  (forall p, In p order <-> In p (copied t)) -> inner_first order ->
  exists f', rollback order t = Some f' /\ same_fs f' f0.
Proof. intros f0 accept src target tree b order W N. apply C22_rollback_partial; [exact W|]. apply copy_tree_orderly, N. Qed.
(** the third system call of four fails: /a and /d are back *)
Example C22_rollback_example :
  let t := final (tx_run None 4 (tx_start ex_fs) ex_ops) in
  copied t = [[lit "m"]; [lit "n"; lit "m"]; [lit "a"]] /\ lookup (fsys t) [lit "a"] = Some (File (lit "new")) /\
  exists f', rollback [[lit "a"]; [lit "n"; lit "m"]; [lit "m"]] t = Some f' /\ lookup f' [lit "a"] = Some (File (lit "old")) /\ lookup f' [lit "m"] = None.
Proof. split; [reflexivity|]. split; [reflexivity|]. eexists. split; [reflexivity|]. split; reflexivity. Qed.
Example C22_names_example : names_differ (TDir [(lit "a", TFile (lit "1")); (lit "b", TDir [(lit "a", TFile (lit "2"))])]).
Proof.
  cbn. split; [|split; [exact I|split; [|exact I]]].
  - apply NoDup_cons; [intros [H|[]]; discriminate|]. apply NoDup_cons; [intros []|apply NoDup_nil].
  - split; [|split; exact I]. apply NoDup_cons; [intros []|apply NoDup_nil].
Qed.

(** copying twice to the same path: the rollback leaves what the first copy wrote *)
Theorem C22_copy_twice_refuted : exists f0 ops order, wf_fs f0 /\ Forall tracked ops /\
  let t := final (tx_run None 2 (tx_start f0) ops) in
  (forall p, In p order <-> In p (copied t)) /\ inner_first order /\
  exists f' p, rollback order t = Some f' /\ lookup f0 p = None /\ lookup f' p = Some (File (lit "1")).
Proof.
  exists ex_fs, [OCopy (Some (lit "1")) [lit "q"]; OCopy (Some (lit "2")) [lit "q"]], [[lit "q"]].
  split; [exact ex_fs_wf|]. split; [repeat (apply Forall_cons; [discriminate|]); apply Forall_nil|]. split; [|split].
  - intro p. cbn. tauto.
  - intros a b x y E Iy _. destruct a as [|? [|? a]]; try discriminate. injection E as _ <-. contradiction.
  - eexists _, [lit "q"]. split; [reflexivity|]. split; reflexivity.
Qed.
(** the set is iterated with the directory before its sub directory: the outer one stays *)
Theorem C22_set_order_refuted : exists f0 ops order, wf_fs f0 /\ orderly ops /\
  let t := final (tx_run None 9 (tx_start f0) ops) in
  (forall p, In p order <-> In p (copied t)) /\ NoDup order /\
  exists f' p, rollback order t = Some f' /\ lookup f0 p = None /\ lookup f' p = Some Dir.
Proof.
  exists ex_fs, [OMkdir [lit "n"; lit "m"]], [[lit "m"]; [lit "n"; lit "m"]].
  split; [exact ex_fs_wf|]. split; [split; [repeat constructor|repeat constructor]|]. split; [|split].
  - intro p. cbn. tauto.
  - apply NoDup_cons; [intros [H|[]]; discriminate|]. apply NoDup_cons; [intros []|apply NoDup_nil].
  - eexists _, [lit "m"]. split; [reflexivity|]. split; reflexivity.
Qed.
(** a copy that fails half way leaves its part of the new file *)
Theorem C22_partial_write_refuted : exists f0 ops, wf_fs f0 /\ orderly ops /\
  let t := final (tx_run (Some (lit "ha")) 0 (tx_start f0) ops) in
  copied t = [] /\ exists f' p, rollback [] t = Some f' /\ lookup f0 p = None /\ lookup f' p = Some (File (lit "ha")).
Proof.
  exists ex_fs, [OCopy (Some (lit "half")) [lit "q"]]. split; [exact ex_fs_wf|]. split.
  - split; [apply Forall_cons; [discriminate|apply Forall_nil]|apply FOP_cons; [apply Forall_nil|apply FOP_nil]].
  - split; [reflexivity|]. eexists _, [lit "q"]. split; [reflexivity|]. split; reflexivity.
Qed.
(** touching a file that was there: the rollback deletes it *)
Theorem C22_touch_refuted : exists f0 p, wf_fs f0 /\
  let t := final (tx_run None 9 (tx_start f0) [OTouch p false]) in
  copied t = [p] /\ exists f' c, rollback [p] t = Some f' /\ lookup f0 p = Some (File c) /\ lookup f' p = None.
Proof.
  exists ex_fs, [lit "a"]. split; [exact ex_fs_wf|]. split; [reflexivity|]. eexists _, _. split; [reflexivity|]. split; reflexivity.
Qed.
(** a custom [file_copy] overwrites without a backup *)
Theorem C22_custom_copy_refuted : exists f0 p c, wf_fs f0 /\
  let t := final (tx_run None 9 (tx_start f0) [OCustom c p]) in
  copied t = [p] /\ exists f' c0, rollback [p] t = Some f' /\ lookup f0 p = Some (File c0) /\ lookup f' p = None.
Proof.
  exists ex_fs, [lit "a"], (lit "z"). split; [exact ex_fs_wf|]. split; [reflexivity|]. eexists _, _. split; [reflexivity|]. split; reflexivity.
Qed.

(** ** C23 what a finished transaction reports *)
(** Missing: as for C22, operations on what the transaction itself has put there, [touch] and custom copies. *)
Theorem C23_copied_files_partial : forall f0 ops b b' t,
  wf_fs f0 -> orderly ops -> tx_run None b (tx_start f0) ops = Go b' t ->
  (forall c p, In (OCopy (Some c) p) ops -> lookup (fsys t) p = Some (File c) /\ In p (copied t)) /\
  (forall p c, In p (copied t) -> lookup (fsys t) p = Some (File c) -> In (OCopy (Some c) p) ops) /\
  (forall p, In p (copied t) -> lookup (fsys t) p = Some Dir \/ exists c, In (OCopy (Some c) p) ops) /\
  (forall p, ~ In p (copied t) -> (forall o, In o ops -> replaces o -> under (op_target o) p = false) ->
     lookup (fsys t) p = lookup f0 p).
Proof.
  intros f0 ops b b' t W O E. destruct (run_track f0 b ops W O) as [K C]. rewrite E in K. cbn [final] in K. destruct (C b' t E) as [C1 _].
  split; [exact C1|]. split; [|split].
  - intros p c Ip L. destruct (k_copied _ _ _ K p Ip) as [(d & Hd)|(HD & _)]; [|congruence]. destruct (C1 d p Hd) as [X _].
    rewrite X in L. injection L as ->. exact Hd.
  - intros p Ip. destruct (k_copied _ _ _ K p Ip) as [H|(HD & _)]; auto.
  - intros p N H. rewrite (i_old f0 t (k_inv _ _ _ K) p N). rewrite (proj2 (covered_false t p)); [reflexivity|]. intros q Iq.
    destruct (k_moved _ _ _ K q Iq) as (o & Io & Ro & ->). apply H; assumption.
Qed.
Example C23_copied_files_example : exists b' t, tx_run None 99 (tx_start ex_fs) ex_ops = Go b' t /\
  copied t = [[lit "m"]; [lit "n"; lit "m"]; [lit "a"]; [lit "g"]; [lit "f"; lit "g"]] /\ lookup (fsys t) [lit "a"] = Some (File (lit "new")).
Proof. eexists _, _. split; [reflexivity|]. split; reflexivity. Qed.
(** a file copied and then removed is still reported *)
Theorem C23_removed_file_refuted : exists f0 ops b' t p, wf_fs f0 /\ Forall tracked ops /\
  tx_run None 9 (tx_start f0) ops = Go b' t /\ In p (copied t) /\ lookup (fsys t) p = None.
Proof.
  exists ex_fs, [OCopy (Some (lit "1")) [lit "q"]; ORm [lit "q"]]. eexists _, _, [lit "q"]. split; [exact ex_fs_wf|].
  split; [repeat (apply Forall_cons; [discriminate|]); apply Forall_nil|]. split; [reflexivity|]. split; [left; reflexivity|reflexivity].
Qed.
(** a touched file is reported though the transaction has not written it *)
Theorem C23_touch_refuted : exists f0 ops b' t p, wf_fs f0 /\
  tx_run None 9 (tx_start f0) ops = Go b' t /\ In p (copied t) /\ fsys t = f0 /\ lookup f0 p <> None.
Proof.
  exists ex_fs, [OTouch [lit "a"] true]. eexists _, _, [lit "a"]. split; [exact ex_fs_wf|]. split; [reflexivity|]. split; [left; reflexivity|].
  split; [reflexivity|discriminate].
Qed.
(** [copy_tree] with a [file_copy] does not use it below the first level *)
Theorem C23_file_copy_ignored_below_refuted : exists tree target p c,
  In (OCopy (Some c) p) (copy_tree_ops true (fun _ => true) [] target tree).
Proof. exists (TDir [(lit "s", TDir [(lit "f", TFile (lit "1"))])]), [lit "t"], [lit "f"; lit "s"; lit "t"], (lit "1"). right. right. left. reflexivity. Qed.

(** ** C24 relative paths *)
(** [length source] rounds of the loop are enough; names are kept apart from the parent directory name. *)
Theorem C24_path_to : forall source destination, destination <> [] -> ~ In (lit "..") destination ->
  exists r, path_to (length source) source destination = Some r /\ walk source r = destination /\
    (exists up down, r = repeat (lit "..") up ++ down /\ ~ In (lit "..") down).
Proof. exact path_to_ok. Qed.
Example C24_path_to_example : path_to 3 [lit "lib"; lit "env"; lit "home"] [lit "x"; lit "bin"; lit "env"; lit "home"] = Some [lit ".."; lit "bin"; lit "x"].
Proof. reflexivity. Qed.
(** the loop does not end when the destination is the root directory *)
Theorem C24_root_refuted : exists destination, forall source fuel, path_to fuel source destination = None.
Proof. exists []. intros. apply path_to_root_loops. Qed.

(** ** C25 containment *)
Theorem C25_contained_is_relative_partial : forall p q, Forall plain p -> Forall plain q -> under q p = true -> is_relative_to p q = true.
Proof. exact is_relative_to_under. Qed.
(** what the check decides: the last component of the root only has to be a prefix of the component at its place *)
Theorem C25_exact_partial : forall p n q, Forall plain p -> Forall plain (n :: q) ->
  is_relative_to p (n :: q) = true <-> exists x r, p = r ++ (n ++ x) :: q.
Proof. exact is_relative_to_iff. Qed.
Example C25_example : Forall plain [lit "x"; lit "lib"] /\ under [lit "lib"] [lit "x"; lit "lib"] = true.
Proof.
  split; [|reflexivity]. apply Forall_cons; [|apply Forall_cons; [|apply Forall_nil]]; (split; [discriminate|]); cbn; intuition discriminate.
Qed.
Theorem C25_sibling_refuted : exists p q, Forall plain p /\ Forall plain q /\ is_relative_to p q = true /\ under q p = false.
Proof.
  exists [lit "x"; lit "lib64"], [lit "lib"]. split; [|split; [|split; reflexivity]].
  - apply Forall_cons; [|apply Forall_cons; [|apply Forall_nil]]; (split; [discriminate|]); cbn; intuition discriminate.
  - apply Forall_cons; [|apply Forall_nil]; (split; [discriminate|]); cbn; intuition discriminate.
Qed.

Print Assumptions C22_rollback_partial.
Print Assumptions C22_copy_tree_rollback_partial.
Print Assumptions C22_copy_twice_refuted.
Print Assumptions C22_set_order_refuted.
Print Assumptions C22_partial_write_refuted.
Print Assumptions C22_touch_refuted.
Print Assumptions C22_custom_copy_refuted.
Print Assumptions C23_copied_files_partial.
Print Assumptions C23_removed_file_refuted.
Print Assumptions C23_touch_refuted.
Print Assumptions C23_file_copy_ignored_below_refuted.
Print Assumptions C24_path_to.
Print Assumptions C24_root_refuted.
Print Assumptions C25_contained_is_relative_partial.
Print Assumptions C25_exact_partial.
Print Assumptions C25_sibling_refuted.
