From Coq Require Import List Bool Arith Lia.
From Verif Require Import Base PromiseModel.
Import ListNotations.
Open Scope nat_scope.
Open Scope list_scope.
Open Scope bool_scope.

(** the calls threads may make: settling a promise or registering a callback *)
Definition child_of (a : action) : list nat := match a with AListen _ (c, _) => [c] | _ => [] end.
Definition children (prog : list action) : list nat := flat_map child_of prog.
Definition call_ok (n : nat) (prog : list action) (a : action) : Prop :=
  match a with
  | ASettle p _ => p < n /\ ~ In p (children prog)
  | AListen p (c, _) => p < n /\ c < n
  | _ => False
  end.
(** Every [when_completed] makes a new promise, which only its callback settles. *)
Definition program (n : nat) (prog : list action) : Prop := Forall (call_ok n prog) prog /\ NoDup (children prog).

Definition total {X} (f : X -> nat) (l : list X) : nat := list_sum (map f l).
Lemma total_app : forall X (f : X -> nat) a b, total f (a ++ b) = total f a + total f b.
Proof. intros. unfold total. rewrite map_app, list_sum_app. reflexivity. Qed.
Lemma total_cons : forall X (f : X -> nat) x l, total f (x :: l) = f x + total f l.
Proof. reflexivity. Qed.
Lemma total_set : forall X (f : X -> nat) l i x d, i < length l -> total f (set_nth l i x) + f (nth i l d) = total f l + f x.
Proof.
  intros X f l. induction l as [|y l IH]; intros [|i] x d H; cbn in H; try lia; cbn [set_nth nth]; rewrite !total_cons; [lia|].
  specialize (IH i x d). assert (i < length l) by lia. specialize (IH H0). lia.
Qed.
Lemma set_length : forall X (l : list X) i x, length (set_nth l i x) = length l.
Proof. induction l as [|y l IH]; intros [|i] x; cbn; auto. Qed.
Lemma nth_set : forall X (l : list X) i j x d, i < length l -> nth j (set_nth l i x) d = if Nat.eqb j i then x else nth j l d.
Proof.
  induction l as [|y l IH]; intros [|i] [|j] x d H; cbn in *; try lia; try reflexivity. rewrite IH by lia. reflexivity.
Qed.
Lemma in_set : forall X (l : list X) i x y, In y (set_nth l i x) -> y = x \/ In y l.
Proof.
  induction l as [|z l IH]; intros [|i] x y H; cbn in H; try contradiction.
  - destruct H as [<-|H]; [left; reflexivity|right; right; exact H].
  - destruct H as [<-|H]; [right; left; reflexivity|]. destruct (IH i x y H); [left; assumption|right; right; assumption].
Qed.
Lemma total_zero : forall X (f : X -> nat) l, (forall x, In x l -> f x = 0) -> total f l = 0.
Proof. intros X f l H. induction l as [|x l IH]; [reflexivity|]. rewrite total_cons, (H x (or_introl eq_refl)), IH; auto. intros; apply H; right; assumption. Qed.
Lemma total_pos : forall X (f : X -> nat) l x, In x l -> f x <= total f l.
Proof. intros X f l x. induction l as [|y l IH]; [contradiction|]. rewrite total_cons. intros [->|H]; [lia|specialize (IH H); lia]. Qed.
Lemma total_in : forall X (f : X -> nat) l, total f l <> 0 -> exists x, In x l /\ f x <> 0.
Proof.
  intros X f l. induction l as [|y l IH]; [cbn; congruence|]. rewrite total_cons. intro H. destruct (f y) eqn:E.
  - destruct IH as (x & I & N); [exact H|]. exists x. split; [right; exact I|exact N].
  - exists y. split; [left; reflexivity|congruence].
Qed.

Definition is (c d : nat) : nat := if Nat.eqb c d then 1 else 0.
Lemma is_refl : forall c, is c c = 1. Proof. intro c. unfold is. rewrite Nat.eqb_refl. reflexivity. Qed.
Lemma is_eq : forall c d, is c d <> 0 -> c = d. Proof. intros c d. unfold is. destruct (Nat.eqb c d) eqn:E; [apply Nat.eqb_eq in E; auto|congruence]. Qed.
Definition lw (c : nat) (l : listener) : nat := is c (fst l).
Definition waitA (c : nat) (a : action) : nat :=
  match a with AListen _ l | ACall _ l | ACallNow _ l => lw c l | ASettle _ _ => 0 end.
Definition setA (c : nat) (a : action) : nat := match a with ASettle p _ => is c p | _ => 0 end.
Definition of_thread (f : action -> nat) (t : option (list action)) : nat := match t with Some l => total f l | None => 0 end.
Definition heap_wait (c : nat) (h : list promise) : nat := total (fun p => total (lw c) (listeners p)) h.
Definition waiting (c : nat) (w : world) : nat := heap_wait c (heap w) + total (of_thread (waitA c)) (threads w).
Definition settling (c : nat) (w : world) : nat := total (of_thread (setA c)) (threads w).
Definition calls_of (c : nat) (w : world) : nat := total (fun k => is c (called_child k)) (log w).
Definition flag (c : nat) (h : list promise) : nat := match state (get h c) with Some _ => 1 | None => 0 end.
Definition expected (c : nat) (prog : list action) : nat := total (is c) (children prog).

Section Run.
Variable n : nat.
Variable prog : list action.
Hypothesis OK : program n prog.

Lemma expected_one : forall c, In c (children prog) -> expected c prog = 1.
Proof.
  destruct OK as [_ ND]. intros c. unfold expected. induction ND as [|d l N ND IH]; [contradiction|]. rewrite total_cons. intros [->|H].
  - rewrite is_refl. rewrite total_zero; [reflexivity|]. intros x I. unfold is. destruct (Nat.eqb c x) eqn:E; [apply Nat.eqb_eq in E; subst; contradiction|reflexivity].
  - rewrite IH by exact H. unfold is. destruct (Nat.eqb c d) eqn:E; [apply Nat.eqb_eq in E; subst; contradiction|reflexivity].
Qed.

Definition from_prog (p : nat) (l : listener) : Prop := In (AListen p l) prog.
Definition why_settled (lg : list call) (p : nat) (s : settled) : Prop :=
  In (ASettle p s) prog \/ exists q f sq, In (AListen q (p, f)) prog /\ In (Call q p sq) lg /\ s = f sq.
Definition act_ok (h : list promise) (lg : list call) (a : action) : Prop :=
  match a with
  | ASettle p s => In p (children prog) /\ why_settled lg p s
  | AListen p l => from_prog p l
  | ACall p l | ACallNow p l => from_prog p l /\ state (get h p) <> None
  end.
Definition thread_ok (h : list promise) (lg : list call) (t : option (list action)) : Prop :=
  match t with
  | None => True
  | Some l => (exists d s, l = [ASettle d s] /\ In (ASettle d s) prog) \/ Forall (act_ok h lg) l
  end.
Record inv (w : world) : Prop := {
  v_len : length (heap w) = n;
  v_done : forall p, state (get (heap w) p) <> None -> listeners (get (heap w) p) = [];
  v_threads : Forall (thread_ok (heap w) (log w)) (threads w);
  v_listeners : forall p l, In l (listeners (get (heap w) p)) -> from_prog p l;
  v_wait : forall c, waiting c w + calls_of c w = expected c prog;
  v_calls : forall c, In c (children prog) -> calls_of c w = settling c w + flag c (heap w);
  v_log : forall k, In k (log w) -> state (get (heap w) (called_on k)) = Some (called_with k) /\ exists f, In (AListen (called_on k) (called_child k, f)) prog;
  v_why : forall p s, state (get (heap w) p) = Some s -> why_settled (log w) p s }.

Lemma why_mono : forall lg lg' p s, incl lg lg' -> why_settled lg p s -> why_settled lg' p s.
Proof. intros lg lg' p s I [H|(q & f & sq & A & B & C)]; [left; exact H|right; exists q, f, sq; auto]. Qed.
Lemma listen_bounds : forall p c f, In (AListen p (c, f)) prog -> p < n /\ c < n.
Proof. intros p c f H. destruct OK as [F _]. rewrite Forall_forall in F. exact (F _ H). Qed.
Lemma listen_child : forall p c f, In (AListen p (c, f)) prog -> In c (children prog).
Proof. intros p c f H. unfold children. apply in_flat_map. exists (AListen p (c, f)). split; [exact H|left; reflexivity]. Qed.
Lemma settle_bounds : forall p s, In (ASettle p s) prog -> p < n /\ ~ In p (children prog).
Proof. intros p s H. destruct OK as [F _]. rewrite Forall_forall in F. exact (F _ H). Qed.
Lemma child_bounds : forall c, In c (children prog) -> c < n.
Proof.
  intros c H. unfold children in H. apply in_flat_map in H. destruct H as (a & I & H). destruct a as [|p [d f]| |]; try contradiction. destruct H as [<-|[]].
  apply (listen_bounds p d f I).
Qed.

(** states are never changed once set *)
Definition keeps (h h' : list promise) : Prop := forall p s, state (get h p) = Some s -> state (get h' p) = Some s.
Lemma act_ok_mono : forall h h' lg lg' a, keeps h h' -> incl lg lg' -> act_ok h lg a -> act_ok h' lg' a.
Proof.
  intros h h' lg lg' a K I H. destruct a as [p s|p l|p l|p l]; cbn in *; try exact H.
  - destruct H as [H1 H2]. split; [exact H1|exact (why_mono _ _ _ _ I H2)].
  - destruct H as [H1 H2]. split; [exact H1|]. destruct (state (get h p)) as [s|] eqn:E; [|congruence]. rewrite (K p s E). discriminate.
  - destruct H as [H1 H2]. split; [exact H1|]. destruct (state (get h p)) as [s|] eqn:E; [|congruence]. rewrite (K p s E). discriminate.
Qed.
Lemma thread_ok_mono : forall h h' lg lg' t, keeps h h' -> incl lg lg' -> thread_ok h lg t -> thread_ok h' lg' t.
Proof.
  intros h h' lg lg' [l|] K I H; [|exact Logic.I]. destruct H as [H|H]; [left; exact H|right]. revert H. apply Forall_impl. intro a. apply act_ok_mono; assumption.
Qed.
Lemma total_map : forall X Y (g : X -> Y) (f : Y -> nat) l, total f (map g l) = total (fun x => f (g x)) l.
Proof. intros. unfold total. rewrite map_map. reflexivity. Qed.

Lemma step_cases : forall w i a rest, nth i (threads w) None = Some (a :: rest) -> i < length (threads w).
Proof. intros w i a rest H. destruct (Nat.lt_ge_cases i (length (threads w))) as [L|L]; [exact L|]. rewrite nth_overflow in H by exact L. discriminate. Qed.

Lemma get_set : forall h p q x, p < length h -> get (set_nth h p x) q = if Nat.eqb q p then x else get h q.
Proof. intros. unfold get. apply nth_set. assumption. Qed.

Lemma step_inv : forall w i, inv w -> inv (step w i) /\ keeps (heap w) (heap (step w i)).
Proof.
  intros w i V. unfold step. destruct (nth i (threads w) None) as [[|a rest]|] eqn:ET; try (split; [exact V|intros p s H; exact H]).
  pose proof (step_cases w i a rest ET) as LI.
  pose proof V as [VL VD VT VLs VW VC VLog VY].
  assert (TI : thread_ok (heap w) (log w) (Some (a :: rest))).
  { rewrite Forall_forall in VT. apply VT. rewrite <- ET. apply nth_In, LI. }
  assert (TOT : forall g x, total (of_thread g) (set_nth (threads w) i x) + of_thread g (Some (a :: rest)) = total (of_thread g) (threads w) + of_thread g x).
  { intros g x. pose proof (total_set _ (of_thread g) (threads w) i x None LI) as T. rewrite ET in T. exact T. }
  destruct a as [p s|p [c f]|p [c f]|p [c f]]; cbn [act].
  - (* settle *)
    destruct (state (get (heap w) p)) as [s0|] eqn:ES.
    + (* already settled: raises *)
      split; [|intros q z H; exact H].
      destruct TI as [(d & z & E & IP)|TI].
      * injection E as -> -> ->. constructor; cbn [heap log threads].
        -- exact VL.
        -- exact VD.
        -- apply Forall_forall. intros t It. apply in_set in It. destruct It as [->|It]; [exact I|]. rewrite Forall_forall in VT. apply VT, It.
        -- exact VLs.
        -- intro c. unfold waiting in *. cbn [heap threads]. specialize (TOT (waitA c) None). cbn in TOT. specialize (VW c). unfold calls_of in *. cbn [log]. lia.
        -- intros c Ic. specialize (VC c Ic). unfold settling, calls_of in *. cbn [heap threads log]. specialize (TOT (setA c) None). cbn in TOT.
           assert (is c d = 0). { unfold is. destruct (Nat.eqb c d) eqn:E; [|reflexivity]. apply Nat.eqb_eq in E. subst. exfalso. apply (settle_bounds _ _ IP), Ic. }
           rewrite H in TOT. lia.
        -- exact VLog.
        -- exact VY.
      * exfalso. destruct (Forall_inv TI) as [IC _]. specialize (VC p IC). specialize (VW p). rewrite (expected_one p IC) in VW.
        unfold flag in VC. rewrite ES in VC.
        assert (1 <= settling p w); [|lia]. unfold settling. pose proof (total_pos _ (of_thread (setA p)) (threads w) (Some (ASettle p s :: rest))) as T.
        assert (In (Some (ASettle p s :: rest)) (threads w)) as IT by (rewrite <- ET; apply nth_In, LI). specialize (T IT). cbn [of_thread] in T.
        rewrite total_cons in T. cbn [setA] in T. rewrite is_refl in T. lia.
    + (* settles *)
      assert (PB : p < n).
      { destruct TI as [(d & z & E & IP)|TI]; [injection E as -> -> _; apply (settle_bounds _ _ IP)|]. destruct (Forall_inv TI) as [IC _]. apply child_bounds, IC. }
      assert (PB' : p < length (heap w)) by (rewrite VL; exact PB).
      assert (WHY : why_settled (log w) p s).
      { destruct TI as [(d & z & E & IP)|TI]; [injection E as -> -> _; left; exact IP|]. destruct (Forall_inv TI) as [IC Wy]. exact Wy. }
      assert (K : keeps (heap w) (set_nth (heap w) p (P (Some s) []))).
      { intros q z H. rewrite get_set by exact PB'. destruct (Nat.eqb q p) eqn:E; [apply Nat.eqb_eq in E; subst; congruence|exact H]. }
      split; [|exact K].
      constructor; cbn [heap log threads].
      * rewrite set_length. exact VL.
      * intros q H. rewrite get_set in * by exact PB'. destruct (Nat.eqb q p); [reflexivity|apply VD, H].
      * apply Forall_forall. intros t It. apply in_set in It. destruct It as [->|It].
        -- right. apply Forall_app. split.
           ++ apply Forall_forall. intros x Ix. apply in_map_iff in Ix. destruct Ix as (l & <- & Il). cbn. split; [apply VLs, Il|].
              rewrite get_set by exact PB'. rewrite Nat.eqb_refl. discriminate.
           ++ destruct TI as [(d & z & E & IP)|TI]; [injection E as -> -> ->; apply Forall_nil|]. pose proof (Forall_inv_tail TI) as TR.
              revert TR. apply Forall_impl. intro x. apply act_ok_mono; [exact K|apply incl_refl].
        -- rewrite Forall_forall in VT. apply thread_ok_mono with (1 := K) (2 := incl_refl _). apply VT, It.
      * intros q l H. rewrite get_set in H by exact PB'. destruct (Nat.eqb q p); [contradiction|apply VLs, H].
      * intro c. specialize (VW c). unfold waiting, calls_of in *. cbn [heap threads log].
        specialize (TOT (waitA c) (Some (map (ACall p) (listeners (get (heap w) p)) ++ rest))). cbn [of_thread] in TOT.
        rewrite total_cons, total_app, total_map in TOT. cbn [waitA] in TOT. change (fun x : listener => lw c x) with (lw c) in TOT.
        pose proof (total_set _ (fun p => total (lw c) (listeners p)) (heap w) p (P (Some s) []) new_promise PB') as TH.
        cbv beta in TH. cbn [listeners] in TH. fold (get (heap w) p) in TH. unfold heap_wait in *. change (total (lw c) []) with 0 in TH. lia.
      * intros c Ic. specialize (VC c Ic). unfold settling, calls_of, flag in *. cbn [heap threads log].
        specialize (TOT (setA c) (Some (map (ACall p) (listeners (get (heap w) p)) ++ rest))). cbn [of_thread] in TOT.
        rewrite total_cons, total_app, total_map in TOT. cbn [setA] in TOT. rewrite get_set by exact PB'.
        assert (Z : total (fun _ : listener => 0) (listeners (get (heap w) p)) = 0) by (apply total_zero; reflexivity). rewrite Z in TOT.
        unfold is in TOT. destruct (Nat.eqb c p) eqn:E; [|lia]. apply Nat.eqb_eq in E. subst c. rewrite ES in VC. cbn [state]. lia.
      * intros k Ik. destruct (VLog k Ik) as [A B]. split; [apply K, A|exact B].
      * intros q z H. rewrite get_set in H by exact PB'. destruct (Nat.eqb q p) eqn:E; [|apply VY, H]. apply Nat.eqb_eq in E. subst q. cbn in H. injection H as <-. exact WHY.
  - (* listen *)
    destruct TI as [(d & z & E & _)|TI]; [discriminate|]. pose proof (Forall_inv TI) as FP. pose proof (Forall_inv_tail TI) as TR. cbn in FP.
    destruct (state (get (heap w) p)) as [s0|] eqn:ES.
    + split; [|intros q z H; exact H]. constructor; cbn [heap log threads].
      * exact VL.
      * exact VD.
      * apply Forall_forall. intros t It. apply in_set in It. destruct It as [->|It]; [|rewrite Forall_forall in VT; apply VT, It].
        right. apply Forall_cons; [|exact TR]. cbn. split; [exact FP|congruence].
      * exact VLs.
      * intro d. specialize (VW d). unfold waiting, calls_of in *. cbn [heap threads log]. specialize (TOT (waitA d) (Some (ACallNow p (c, f) :: rest))). cbn [of_thread] in TOT.
        rewrite !total_cons in TOT. cbn [waitA] in TOT. cbn [app]. lia.
      * intros d Id. specialize (VC d Id). unfold settling, calls_of in *. cbn [heap threads log]. specialize (TOT (setA d) (Some (ACallNow p (c, f) :: rest))). cbn [of_thread] in TOT.
        rewrite !total_cons in TOT. cbn [setA] in TOT. cbn [app]. lia.
      * exact VLog.
      * exact VY.
    + assert (PB' : p < length (heap w)) by (rewrite VL; apply (listen_bounds _ _ _ FP)).
      set (pr := P None (listeners (get (heap w) p) ++ [(c, f)])).
      assert (K : keeps (heap w) (set_nth (heap w) p pr)).
      { intros q z H. rewrite get_set by exact PB'. destruct (Nat.eqb q p) eqn:E; [apply Nat.eqb_eq in E; subst; congruence|exact H]. }
      split; [|exact K]. constructor; cbn [heap log threads app].
      * rewrite set_length. exact VL.
      * intros q H. rewrite get_set in * by exact PB'. destruct (Nat.eqb q p); [cbn in H; congruence|apply VD, H].
      * apply Forall_forall. intros t It. apply in_set in It. destruct It as [->|It].
        -- right. revert TR. apply Forall_impl. intro x. apply act_ok_mono; [exact K|apply incl_refl].
        -- rewrite Forall_forall in VT. apply thread_ok_mono with (1 := K) (2 := incl_refl _). apply VT, It.
      * intros q l H. rewrite get_set in H by exact PB'. destruct (Nat.eqb q p) eqn:E; [|apply VLs, H]. apply Nat.eqb_eq in E. subst q. cbn in H.
        apply in_app_iff in H. destruct H as [H|[<-|[]]]; [apply VLs, H|exact FP].
      * intro d. specialize (VW d). unfold waiting, calls_of in *. cbn [heap threads log]. specialize (TOT (waitA d) (Some rest)). cbn [of_thread] in TOT.
        rewrite !total_cons in TOT. cbn [waitA fst] in TOT.
        pose proof (total_set _ (fun p => total (lw d) (listeners p)) (heap w) p pr new_promise PB') as TH.
        cbv beta in TH. fold (get (heap w) p) in TH. unfold pr at 2 in TH. cbn [listeners] in TH. rewrite total_app, total_cons in TH. change (total (lw d) []) with 0 in TH.
        enough (EQ : heap_wait d (set_nth (heap w) p pr) + total (of_thread (waitA d)) (set_nth (threads w) i (Some rest)) + total (fun k : call => is d (called_child k)) (log w) = expected d prog) by exact EQ. unfold heap_wait in *. lia.
      * intros d Id. specialize (VC d Id). unfold settling, calls_of, flag in *. cbn [heap threads log]. specialize (TOT (setA d) (Some rest)). cbn [of_thread] in TOT.
        rewrite !total_cons in TOT. cbn [setA] in TOT. rewrite get_set by exact PB'. destruct (Nat.eqb d p) eqn:E; [apply Nat.eqb_eq in E; subst d; rewrite ES in VC; cbn [state pr]; lia|lia].
      * intros k Ik. destruct (VLog k Ik) as [A B]. split; [apply K, A|exact B].
      * intros q z H. rewrite get_set in H by exact PB'. destruct (Nat.eqb q p) eqn:E; [cbn in H; discriminate|apply VY, H].
  - (* call *)
    destruct TI as [(d & z & E & _)|TI]; [discriminate|]. pose proof (Forall_inv TI) as [FP NS]. pose proof (Forall_inv_tail TI) as TR.
    destruct (state (get (heap w) p)) as [s0|] eqn:ES; [|congruence].
    assert (IL : incl (log w) (log w ++ [Call p c s0])) by (apply incl_appl, incl_refl).
    assert (KR : keeps (heap w) (heap w)) by (intros q z H; exact H).
    split; [|exact KR]. constructor; cbn [heap log threads app].
    + exact VL.
    + exact VD.
    + apply Forall_forall. intros t It. apply in_set in It. destruct It as [->|It].
      * right. apply Forall_cons.
        -- cbn. split; [exact (listen_child _ _ _ FP)|]. right. exists p, f, s0. split; [exact FP|]. split; [apply in_app_iff; right; left; reflexivity|reflexivity].
        -- revert TR. apply Forall_impl. intro x. apply act_ok_mono; assumption.
      * rewrite Forall_forall in VT. apply thread_ok_mono with (1 := KR) (2 := IL). apply VT, It.
    + exact VLs.
    + intro d. specialize (VW d). unfold waiting, calls_of in *. cbn [heap threads log]. rewrite total_app, total_cons. cbn [called_child].
      specialize (TOT (waitA d) (Some (ASettle c (f s0) :: rest))). cbn [of_thread] in TOT. rewrite !total_cons in TOT. cbn [waitA] in TOT. unfold lw in TOT at 1. cbn [fst] in TOT.
      change (total (fun k : call => is d (called_child k)) []) with 0. lia.
    + intros d Id. specialize (VC d Id). unfold settling, calls_of in *. cbn [heap threads log]. rewrite total_app, total_cons. cbn [called_child].
      specialize (TOT (setA d) (Some (ASettle c (f s0) :: rest))). cbn [of_thread] in TOT. rewrite !total_cons in TOT. cbn [setA] in TOT.
      change (total (fun k : call => is d (called_child k)) []) with 0. lia.
    + intros k Ik. apply in_app_iff in Ik. destruct Ik as [Ik|[<-|[]]]; [apply VLog, Ik|]. cbn. split; [exact ES|]. exists f. exact FP.
    + intros q z H. apply why_mono with (1 := IL). apply VY, H.
  - (* call at once *)
    destruct TI as [(d & z & E & _)|TI]; [discriminate|]. pose proof (Forall_inv TI) as [FP NS]. pose proof (Forall_inv_tail TI) as TR.
    destruct (state (get (heap w) p)) as [s0|] eqn:ES; [|congruence].
    assert (IL : incl (log w) (log w ++ [Call p c s0])) by (apply incl_appl, incl_refl).
    assert (KR : keeps (heap w) (heap w)) by (intros q z H; exact H).
    split; [|exact KR]. constructor; cbn [heap log threads app].
    + exact VL.
    + exact VD.
    + apply Forall_forall. intros t It. apply in_set in It. destruct It as [->|It].
      * right. apply Forall_cons.
        -- cbn. split; [exact (listen_child _ _ _ FP)|]. right. exists p, f, s0. split; [exact FP|]. split; [apply in_app_iff; right; left; reflexivity|reflexivity].
        -- revert TR. apply Forall_impl. intro x. apply act_ok_mono; assumption.
      * rewrite Forall_forall in VT. apply thread_ok_mono with (1 := KR) (2 := IL). apply VT, It.
    + exact VLs.
    + intro d. specialize (VW d). unfold waiting, calls_of in *. cbn [heap threads log]. rewrite total_app, total_cons. cbn [called_child].
      specialize (TOT (waitA d) (Some (ASettle c (f s0) :: rest))). cbn [of_thread] in TOT. rewrite !total_cons in TOT. cbn [waitA] in TOT. unfold lw in TOT at 1. cbn [fst] in TOT.
      change (total (fun k : call => is d (called_child k)) []) with 0. lia.
    + intros d Id. specialize (VC d Id). unfold settling, calls_of in *. cbn [heap threads log]. rewrite total_app, total_cons. cbn [called_child].
      specialize (TOT (setA d) (Some (ASettle c (f s0) :: rest))). cbn [of_thread] in TOT. rewrite !total_cons in TOT. cbn [setA] in TOT.
      change (total (fun k : call => is d (called_child k)) []) with 0. lia.
    + intros k Ik. apply in_app_iff in Ik. destruct Ik as [Ik|[<-|[]]]; [apply VLog, Ik|]. cbn. split; [exact ES|]. exists f. exact FP.
    + intros q z H. apply why_mono with (1 := IL). apply VY, H.
Qed.

Lemma get_new : forall p, get (repeat new_promise n) p = new_promise.
Proof. intro p. unfold get. clear OK. revert p. induction n as [|m IH]; intros [|p]; cbn; auto. Qed.
Lemma start_wait : forall c pl l, Forall (call_ok n pl) l -> total (fun x => of_thread (waitA c) (Some [x])) l = total (is c) (children l).
Proof.
  intros c pl l F. induction l as [|a l IH]; [reflexivity|]. rewrite total_cons. unfold children in *. cbn [flat_map].
  inversion F; subst. rewrite total_app, IH by assumption. destruct a as [p s|p [d f]| |]; try contradiction; cbn; unfold lw; cbn; lia.
Qed.
Lemma start_inv : inv (start n prog).
Proof.
  constructor; cbn [start heap log threads].
  - apply repeat_length.
  - intros p H. rewrite get_new in *. reflexivity.
  - apply Forall_forall. intros t It. apply in_map_iff in It. destruct It as (a & <- & Ia). destruct OK as [F _]. rewrite Forall_forall in F. specialize (F a Ia).
    destruct a as [p s|p [c f]| |]; try contradiction; [left; eauto|right]. apply Forall_cons; [exact Ia|apply Forall_nil].
  - intros p l H. rewrite get_new in H. contradiction.
  - intro c. unfold waiting, calls_of, expected, start. cbn [heap threads log]. change (total (fun k : call => is c (called_child k)) []) with 0. rewrite Nat.add_0_r.
    assert (Z : heap_wait c (repeat new_promise n) = 0) by (apply total_zero; intros x Ix; apply repeat_spec in Ix; subst; reflexivity). rewrite Z, Nat.add_0_l, total_map.
    exact (start_wait c prog prog (proj1 OK)).
  - intros c Ic. unfold calls_of, settling, flag, start. cbn [heap threads log]. rewrite get_new. cbn [state new_promise]. rewrite total_map.
    assert (Z : total (fun x => of_thread (setA c) (Some [x])) prog = 0); [|rewrite Z; reflexivity].
    apply total_zero. intros a Ia. destruct a as [p s|p [d f]|p [d f]|p [d f]]; try reflexivity. unfold of_thread. rewrite total_cons. cbn [setA].
    unfold is. destruct (Nat.eqb c p) eqn:E; [|reflexivity]. apply Nat.eqb_eq in E. subst p. exfalso. apply (settle_bounds _ _ Ia), Ic.
  - contradiction.
  - intros p s H. rewrite get_new in H. discriminate.
Qed.
Lemma keeps_trans : forall a b c, keeps a b -> keeps b c -> keeps a c.
Proof. intros a b c H1 H2 p s H. apply H2, H1, H. Qed.
Lemma run_from : forall sched w, inv w -> inv (run w sched) /\ keeps (heap w) (heap (run w sched)).
Proof.
  induction sched as [|i sched IH]; intros w V; [split; [exact V|intros p s H; exact H]|]. cbn [run fold_left]. destruct (step_inv w i V) as [V1 K1].
  destruct (IH _ V1) as [V2 K2]. split; [exact V2|exact (keeps_trans _ _ _ K1 K2)].
Qed.
Lemma run_inv : forall sched, inv (run (start n prog) sched).
Proof. intro sched. apply run_from, start_inv. Qed.

Lemma calls_le_one : forall sched c, In c (children prog) -> calls_of c (run (start n prog) sched) <= 1.
Proof. intros sched c Ic. pose proof (v_wait _ (run_inv sched) c) as H. rewrite (expected_one c Ic) in H. lia. Qed.

(** the callback whose promise is [c] is registered once *)
Lemma one_listen : forall p c f p' f', In (AListen p (c, f)) prog -> In (AListen p' (c, f')) prog -> p = p' /\ f = f'.
Proof.
  assert (ND := proj2 OK). clear OK. intros p c f p' f'. unfold children in ND. induction prog as [|a l IH]; [contradiction|]. cbn [flat_map] in ND. intros H1 H2.
  assert (ND' : NoDup (flat_map child_of l)) by (destruct a as [|? [? ?]| |]; cbn in ND; try exact ND; inversion ND; assumption).
  assert (A : forall q g m, In (AListen q (c, g)) m -> In c (flat_map child_of m)) by (intros q g m H; apply in_flat_map; exists (AListen q (c, g)); split; [exact H|left; reflexivity]).
  destruct H1 as [H1|H1], H2 as [H2|H2].
  - rewrite H1 in H2. injection H2 as -> ->. auto.
  - subst a. cbn in ND. inversion ND as [|? ? N _]; subst. exfalso. apply N, (A p' f'), H2.
  - subst a. cbn in ND. inversion ND as [|? ? N _]; subst. exfalso. apply N, (A p f), H1.
  - apply IH; assumption.
Qed.

Lemma at_the_end : forall sched p c f, In (AListen p (c, f)) prog -> let w := run (start n prog) sched in finished w ->
  match state (get (heap w) p) with
  | Some s => calls_of c w = 1 /\ In (Call p c s) (log w) /\ state (get (heap w) c) = Some (f s)
  | None => calls_of c w = 0 /\ state (get (heap w) c) = None
  end.
Proof.
  intros sched p c f Il w Fin. pose proof (run_inv sched) as V. fold w in V.
  pose proof (listen_child _ _ _ Il) as Ic. pose proof (v_wait w V c) as HW. rewrite (expected_one c Ic) in HW. pose proof (v_calls w V c Ic) as HC.
  assert (T0 : forall g, total (of_thread g) (threads w) = 0).
  { intro g. apply total_zero. intros t It. destruct (Fin t It) as [->| ->]; reflexivity. }
  unfold waiting in HW. unfold settling in HC. rewrite T0 in HW, HC.
  assert (HP : heap_wait c (heap w) <> 0 -> listeners (get (heap w) p) <> []).
  { intro H. apply total_in in H. destruct H as (pr & Ipr & H). apply total_in in H. destruct H as ([d g] & Id & H). unfold lw in H. apply is_eq in H. cbn in H. subst d.
    apply (In_nth _ _ new_promise) in Ipr. destruct Ipr as (q & Lq & Eq). fold (get (heap w) q) in Eq. subst pr.
    pose proof (v_listeners w V q (c, g) Id) as Hq. destruct (one_listen _ _ _ _ _ Il Hq) as [-> ->]. intro X. rewrite X in Id. contradiction. }
  assert (LG : calls_of c w <> 0 -> exists s, In (Call p c s) (log w) /\ state (get (heap w) p) = Some s).
  { intro H. apply total_in in H. destruct H as (k & Ik & H). apply is_eq in H. destruct (v_log w V k Ik) as [A (g & B)]. destruct k as [q d s]. cbn in *. subst d.
    destruct (one_listen _ _ _ _ _ Il B) as [-> ->]. exists s. auto. }
  destruct (state (get (heap w) p)) as [s|] eqn:ES.
  - assert (H0 : heap_wait c (heap w) = 0).
    { destruct (heap_wait c (heap w)) eqn:E; [reflexivity|]. exfalso. apply HP; [congruence|]. apply (v_done w V). congruence. }
    assert (H1 : calls_of c w = 1) by lia. split; [exact H1|].
    destruct LG as (s' & Il' & Es'); [lia|]. injection Es' as <-. split; [exact Il'|].
    unfold flag in HC. destruct (state (get (heap w) c)) as [z|] eqn:EZ; [|lia].
    destruct (v_why w V c z EZ) as [Hs|(q & g & sq & A & B & C)].
    + exfalso. apply (settle_bounds _ _ Hs), Ic.
    + destruct (one_listen _ _ _ _ _ Il A) as [<- <-]. destruct (v_log w V _ B) as [X _]. cbn in X. rewrite ES in X. injection X as ->. subst z. reflexivity.
  - assert (H1 : calls_of c w = 0) by (destruct (calls_of c w) eqn:E; [reflexivity|]; destruct LG as (s & _ & X); [lia|congruence]).
    split; [exact H1|]. unfold flag in HC. destruct (state (get (heap w) c)); [lia|reflexivity].
Qed.
End Run.

(** ** Awaiting *)
Definition settled_by (now : nat) (p : awaited) : Prop := exists t, settles_at p = Some t /\ t <= now.
Definition fails (p : awaited) (e : nat) : Prop := outcome_of p = Failed e true.
Lemma await_all_returned : forall ig ps now now', await_all ig now ps = Returned now' ->
  now <= now' /\ Forall (settled_by now') ps /\ (ig = false -> Forall (fun p => forall e, ~ fails p e) ps).
Proof.
  intros ig ps. induction ps as [|p ps IH]; intros now now' H; cbn in H.
  - injection H as ->. split; [lia|]. split; [apply Forall_nil|intros _; apply Forall_nil].
  - unfold wait_for in H. destruct (settles_at p) as [t|] eqn:E; [|discriminate].
    assert (G : await_all ig (Nat.max now t) ps = Returned now' -> now <= now' /\ Forall (settled_by now') (p :: ps) /\ (ig = false -> Forall (fun p => forall e, ~ fails p e) ps)).
    { intro H'. destruct (IH _ _ H') as (A & B & C). split; [lia|]. split; [|exact C]. apply Forall_cons; [|exact B]. exists t. split; [exact E|lia]. }
    destruct (outcome_of p) as [v|e [|]] eqn:EO.
    + destruct (G H) as (A & B & C). split; [exact A|]. split; [exact B|]. intro X. apply Forall_cons; [|exact (C X)]. intros e F. unfold fails in F. congruence.
    + destruct ig; [|discriminate]. destruct (G H) as (A & B & C). split; [exact A|]. split; [exact B|discriminate].
    + destruct (G H) as (A & B & C). split; [exact A|]. split; [exact B|]. intro X. apply Forall_cons; [|exact (C X)]. intros e' F. unfold fails in F. congruence.
Qed.
Lemma await_ignoring_never_raises : forall ps now e b now', await_all true now ps <> Raised e b now'.
Proof.
  induction ps as [|p ps IH]; intros now e b now'; cbn; [discriminate|]. destruct (wait_for now p); [apply IH|apply IH|discriminate].
Qed.
Lemma await_all_raised : forall ps now e b now', await_all false now ps = Raised e b now' ->
  exists before p after, ps = before ++ p :: after /\ fails p e /\ b = base_exception p /\ settled_by now' p /\ Forall (settled_by now') before /\
    Forall (fun q => forall x, ~ fails q x) before /\ now <= now'.
Proof.
  induction ps as [|p ps IH]; intros now e b now' H; cbn in H; [discriminate|]. unfold wait_for in H. destruct (settles_at p) as [t|] eqn:E; [|discriminate].
  assert (G : (forall x, ~ fails p x) -> await_all false (Nat.max now t) ps = Raised e b now' ->
    exists before q after, p :: ps = before ++ q :: after /\ fails q e /\ b = base_exception q /\ settled_by now' q /\ Forall (settled_by now') before /\
    Forall (fun q => forall x, ~ fails q x) before /\ now <= now').
  { intros NF H'. destruct (IH _ _ _ _ H') as (bef & q & aft & -> & F & B & S & FB & FN & L). exists (p :: bef), q, aft.
    split; [reflexivity|]. split; [exact F|]. split; [exact B|]. split; [exact S|]. split; [apply Forall_cons; [exists t; split; [exact E|lia]|exact FB]|].
    split; [apply Forall_cons; [exact NF|exact FN]|lia]. }
  destruct (outcome_of p) as [v|e' [|]] eqn:EO.
  - apply G; [intros x F; unfold fails in F; congruence|exact H].
  - injection H as <- <- <-. exists [], p, ps. split; [reflexivity|]. split; [exact EO|]. split; [reflexivity|]. split; [exists t; split; [exact E|lia]|].
    split; [apply Forall_nil|]. split; [apply Forall_nil|lia].
  - apply G; [intros x F; unfold fails in F; congruence|exact H].
Qed.
