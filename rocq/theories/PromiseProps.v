(** C30, C31: promises. *)
From Coq Require Import List Bool Arith Lia.
From Verif Require Import Base PromiseModel PromiseProofs.
Import ListNotations.
Open Scope nat_scope.
Open Scope list_scope.
Open Scope bool_scope.

(** two threads race to settle promise 0, two callbacks are registered on it, one more on the promise of the first callback *)
Definition ex_prog : list action :=
  [ASettle 0 (Done 7); AListen 0 (1, fun s => s); ASettle 0 (Failed 3 true); AListen 0 (2, fun _ => Failed 5 true); AListen 1 (3, fun _ => Done 9)].
Example ex_program : program 4 ex_prog.
Proof.
  split.
  - assert (N : ~ In 0 (children ex_prog)) by (cbn; lia).
    repeat (apply Forall_cons; [cbn; split; [lia|first [exact N|lia]]|]). apply Forall_nil.
  - cbn. repeat (apply NoDup_cons; [cbn; lia|]). apply NoDup_nil.
Qed.

(** once settled a promise stays as it is, whatever the threads do afterwards *)
Theorem C30_settled_once : forall n prog schedule more p s, program n prog ->
  state (get (heap (run (start n prog) schedule)) p) = Some s ->
  state (get (heap (run (start n prog) (schedule ++ more))) p) = Some s.
Proof.
  intros n prog schedule more p s OK H. unfold run. rewrite fold_left_app. apply (run_from n prog OK more _ (run_inv n prog OK schedule)). exact H.
Qed.
(** a second attempt raises *)
Theorem C30_second_raises : forall h lg p s s', state (get h p) = Some s -> act h lg (ASettle p s') = (h, None, lg).
Proof. intros h lg p s s' H. cbn. rewrite H. reflexivity. Qed.
(** at no time a callback has run twice, and it always sees the settled promise *)
Theorem C30_at_most_once : forall n prog schedule p c f, program n prog -> In (AListen p (c, f)) prog ->
  length (filter (fun k => Nat.eqb c (called_child k)) (log (run (start n prog) schedule))) <= 1.
Proof.
  intros n prog schedule p c f OK H. pose proof (calls_le_one n prog OK schedule c (listen_child prog p c f H)) as L. unfold calls_of in L.
  revert L. generalize (log (run (start n prog) schedule)). intros l. 
  assert (E : forall l, total (fun k => is c (called_child k)) l = length (filter (fun k => Nat.eqb c (called_child k)) l)).
  { induction l0 as [|k l0 IH]; [reflexivity|]. rewrite total_cons. cbn [filter]. unfold is at 1. destruct (Nat.eqb c (called_child k)); cbn [length]; rewrite IH; reflexivity. }
  rewrite E. auto.
Qed.
Theorem C30_sees_the_settled_state : forall n prog schedule k, program n prog -> In k (log (run (start n prog) schedule)) ->
  state (get (heap (run (start n prog) schedule)) (called_on k)) = Some (called_with k).
Proof. intros n prog schedule k OK H. apply (v_log n prog _ (run_inv n prog OK schedule)), H. Qed.
(** when all threads are through: the callbacks of settled promises have run exactly once, and their promises
    hold what they returned or raised; the others have not run *)
Theorem C30_exactly_once : forall n prog schedule p c f, program n prog -> In (AListen p (c, f)) prog ->
  let w := run (start n prog) schedule in finished w ->
  match state (get (heap w) p) with
  | Some s => length (filter (fun k => Nat.eqb c (called_child k)) (log w)) = 1 /\ In (Call p c s) (log w) /\ state (get (heap w) c) = Some (f s)
  | None => length (filter (fun k => Nat.eqb c (called_child k)) (log w)) = 0 /\ state (get (heap w) c) = None
  end.
Proof.
  intros n prog schedule p c f OK H w F. pose proof (at_the_end n prog OK schedule p c f H F) as L. fold w in L.
  assert (E : forall l, total (fun k => is c (called_child k)) l = length (filter (fun k => Nat.eqb c (called_child k)) l)).
  { induction l as [|k l IH]; [reflexivity|]. rewrite total_cons. cbn [filter]. unfold is at 1. destruct (Nat.eqb c (called_child k)); cbn [length]; rewrite IH; reflexivity. }
  unfold calls_of in L. rewrite E in L. exact L.
Qed.
(** a promise that no callback feeds holds a value some thread has given it *)
Theorem C30_value_was_given : forall n prog schedule p s, program n prog -> ~ In p (children prog) ->
  state (get (heap (run (start n prog) schedule)) p) = Some s -> In (ASettle p s) prog.
Proof.
  intros n prog schedule p s OK N H. destruct (v_why n prog _ (run_inv n prog OK schedule) p s H) as [X|(q & f & sq & A & _)]; [exact X|].
  exfalso. apply N. exact (listen_child prog q p f A).
Qed.
Example C30_example : let w := run (start 4 ex_prog) [1; 0; 2; 0; 3; 0; 4; 3; 3; 3; 4; 4; 0; 0; 0] in
  finished w /\ state (get (heap w) 0) = Some (Done 7) /\ map called_child (log w) = [1; 2; 3] /\ nth 2 (threads w) (Some []) = None.
Proof.
  split; [|split; [reflexivity|split; reflexivity]].
  intros t H. vm_compute in H. repeat (destruct H as [<-|H]; [auto|]). contradiction.
Qed.
(** awaiting gives the value; [None] waits *)
Theorem C30_await_partial : forall p v e, 
  (state p = Some (Done v) -> result true p = Some (Ok (Some v)) /\ result false p = Some (Ok (Some v))) /\
  (state p = Some (Failed e true) -> result true p = Some (Err OtherErr) /\ is_failed p = true) /\
  (state p = None -> result true p = None /\ result false p = Some (Err ValueError) /\ is_completed p = false).
Proof. intros p v e. unfold result, is_failed, is_completed. split; [|split]; intro H; rewrite H; auto. Qed.
(** a failure with an exception that counts as false is taken for a success with no value *)
Theorem C30_false_exception_refuted : exists p e, state p = Some (Failed e false) /\ result true p = Some (Ok None) /\ is_failed p = false /\ is_succeeded p = true.
Proof. exists (P (Some (Failed 1 false)) []), 1. repeat split. Qed.

(** ** C31 *)
Theorem C31_await_all : forall ignore_error ps now now', await_all ignore_error now ps = Returned now' ->
  Forall (settled_by now') ps /\ (ignore_error = false -> Forall (fun p => forall e, ~ fails p e) ps).
Proof. intros ig ps now now' H. apply await_all_returned in H. tauto. Qed.
Theorem C31_await_all_failure : forall ps now e b now', await_all false now ps = Raised e b now' ->
  exists before p after, ps = before ++ p :: after /\ fails p e /\ settled_by now' p /\
    Forall (settled_by now') before /\ Forall (fun q => forall x, ~ fails q x) before.
Proof.
  intros ps now e b now' H. apply await_all_raised in H. destruct H as (bef & p & aft & A & B & _ & C & D & E & _). exists bef, p, aft. auto.
Qed.
(** Missing: that the failure is noticed when it happens, see the refutation.  When the call raises an [Exception],
    every promise was asked to cancel, has accepted or is settled, and the first failure in list order is reported. *)
Theorem C31_cancel_partial : forall ps now e now' asked, await_all_or_cancel now ps = (Raised e false now', asked) ->
  asked = ps /\ Forall (fun p => accepts_cancel p = true \/ settled_by now' p) ps /\
  exists before p after, ps = before ++ p :: after /\ fails p e /\ Forall (fun q => forall x, ~ fails q x) before.
Proof.
  intros ps now e now' asked H. unfold await_all_or_cancel in H. destruct (await_all false now ps) as [t|x [|] t|] eqn:E; try discriminate.
  destruct (await_all true t (filter (fun p => negb (accepts_cancel p)) ps)) as [u|y b u|] eqn:F; try discriminate.
  - injection H as -> -> <-. split; [reflexivity|]. apply await_all_returned in F. destruct F as (_ & F & _). split.
    + apply Forall_forall. intros p Ip. destruct (accepts_cancel p) eqn:EA; [left; reflexivity|right]. rewrite Forall_forall in F. apply F. apply filter_In. rewrite EA. auto.
    + apply await_all_raised in E. destruct E as (bef & p & aft & A & B & _ & C & D & G & _). exists bef, p, aft. auto.
  - exfalso. exact (await_ignoring_never_raises _ _ _ _ _ F).
Qed.
Theorem C31_cancel_success : forall ps now now' asked, await_all_or_cancel now ps = (Returned now', asked) ->
  asked = [] /\ Forall (settled_by now') ps /\ Forall (fun p => forall e, ~ fails p e) ps.
Proof.
  intros ps now now' asked H. unfold await_all_or_cancel in H. destruct (await_all false now ps) as [t|x [|] t|] eqn:E; try discriminate.
  - injection H as <- <-. apply await_all_returned in E. destruct E as (_ & A & B). auto.
  - destruct (await_all true t _); discriminate.
Qed.
Definition ok_at t := A (Some t) (Done 1) false false.
Example C31_example : await_all_or_cancel 0 [ok_at 3; A (Some 2) (Failed 8 true) false false; A None (Done 1) true false; ok_at 9] =
  (Raised 8 false 9, [ok_at 3; A (Some 2) (Failed 8 true) false false; A None (Done 1) true false; ok_at 9]).
Proof. reflexivity. Qed.
Example C31_return_example : await_all true 0 [ok_at 3; A (Some 2) (Failed 8 true) false false] = Returned 3.
Proof. reflexivity. Qed.
(** a promise that never settles hides the failure of a later one: nothing is cancelled *)
Theorem C31_late_notice_refuted : exists ps, (exists p e, In p ps /\ fails p e /\ settles_at p = Some 0) /\ (exists p, In p ps /\ accepts_cancel p = true) /\
  await_all_or_cancel 0 ps = (Blocked, []).
Proof.
  exists [A None (Done 1) true false; A (Some 0) (Failed 8 true) false false]. split; [|split; [|reflexivity]].
  - eexists _, 8. split; [right; left; reflexivity|]. split; reflexivity.
  - eexists. split; [left; reflexivity|reflexivity].
Qed.
(** nor when the failure is a [BaseException] *)
Theorem C31_base_exception_refuted : exists ps e now', await_all_or_cancel 0 ps = (Raised e true now', []) /\ exists p, In p ps /\ accepts_cancel p = true /\ settles_at p = None.
Proof.
  exists [A (Some 0) (Failed 8 true) false true; A None (Done 1) true false], 8, 0. split; [reflexivity|]. eexists. split; [right; left; reflexivity|]. split; reflexivity.
Qed.

Print Assumptions C30_settled_once.
Print Assumptions C30_second_raises.
Print Assumptions C30_at_most_once.
Print Assumptions C30_sees_the_settled_state.
Print Assumptions C30_exactly_once.
Print Assumptions C30_value_was_given.
Print Assumptions C30_await_partial.
Print Assumptions C30_false_exception_refuted.
Print Assumptions C31_await_all.
Print Assumptions C31_await_all_failure.
Print Assumptions C31_cancel_partial.
Print Assumptions C31_cancel_success.
Print Assumptions C31_late_notice_refuted.
Print Assumptions C31_base_exception_refuted.
