From Coq Require Import String Ascii List Bool NArith Arith Lia.
From Verif Require Import Base BaseFacts ParserModel ParserFacts UrlModel HttpModel.
Import ListNotations.
Open Scope nat_scope.
Open Scope list_scope.
Open Scope bool_scope.

(** ** Pool *)
Definition releases (ops : list pool_op) : list nat := flat_map (fun o => match o with PRelease i => [i] | _ => [] end) ops.
Lemma nat_mem_iff : forall x l, nat_mem x l = true <-> In x l.
Proof.
  intros x l. unfold nat_mem. rewrite existsb_exists. split.
  - intros (y & I & E). apply Nat.eqb_eq in E. subst. exact I.
  - intro I. exists x. rewrite Nat.eqb_refl. auto.
Qed.
Record pinv (limit : nat) (R : list nat) (s : conns) : Prop := {
  p_limit : length (cached s) <= limit;
  p_nodup : NoDup (cached s);
  p_fresh : forall c, In c (cached s) -> c < next_conn s;
  p_fresh2 : forall i c, nth i (proxies s) None = Some c -> c < next_conn s;
  p_held : forall i c, ~ In i R -> nth i (proxies s) None = Some c -> ~ In c (cached s) /\ ~ In c (shut s);
  p_excl : forall i j c, ~ In i R -> ~ In j R -> nth i (proxies s) None = Some c -> nth j (proxies s) None = Some c -> i = j;
  p_shut : forall c, In c (shut s) -> ~ In c (cached s) /\ c < next_conn s;
  p_closed : closed_ s = true -> cached s = [] }.
Lemma nth_snoc : forall A (l : list A) x i d, nth i (l ++ [x]) d = if Nat.eqb i (length l) then x else nth i l d.
Proof.
  intros A l x i d. destruct (Nat.eqb i (length l)) eqn:E.
  - apply Nat.eqb_eq in E. subst. rewrite app_nth2, Nat.sub_diag by lia. reflexivity.
  - apply Nat.eqb_neq in E. destruct (Nat.lt_ge_cases i (length l)); [apply app_nth1; assumption|]. rewrite !nth_overflow; [reflexivity|lia|]. rewrite app_length. cbn. lia.
Qed.
Lemma nth_clear : forall l i j, nth j (clear_nth l i) None = if Nat.eqb j i then None else nth j l None.
Proof.
  induction l as [|x l IH]; intros [|i] [|j]; cbn; try reflexivity; try (destruct (Nat.eqb j i); reflexivity). apply IH.
Qed.
Lemma rev_last : forall (l : list nat) c r, rev l = c :: r -> l = rev r ++ [c].
Proof. intros l c r H. rewrite <- (rev_involutive l), H. reflexivity. Qed.
Lemma nodup_snoc : forall A (l : list A) x, NoDup l -> ~ In x l -> NoDup (l ++ [x]).
Proof. intros A l x ND NI. apply NoDup_rev in ND. rewrite <- (rev_involutive (l ++ [x])). apply NoDup_rev. rewrite rev_app_distr. cbn. constructor; [rewrite <- in_rev; exact NI|exact ND]. Qed.

Lemma pinv_new : forall limit, pinv limit [] conns_new.
Proof.
  intro limit. assert (E : forall i, nth i (proxies conns_new) None = None) by (intros [|i]; reflexivity).
  constructor; try (intros; rewrite E in *; discriminate); cbn [conns_new cached shut closed_].
  - cbn. lia.
  - apply NoDup_nil.
  - contradiction.
  - contradiction.
  - reflexivity.
Qed.
Lemma pinv_acquire : forall limit R s, pinv limit R s -> pinv limit R (acquire s).
Proof.
  intros limit R s [PL PN PF PF2 PH PE PS PC]. unfold acquire. destruct (rev (cached s)) as [|c r] eqn:ER.
  - assert (EC : cached s = []) by (apply (f_equal (@rev nat)) in ER; rewrite rev_involutive in ER; exact ER). rewrite EC in *.
    constructor; cbn [cached next_conn proxies closed_ shut].
    + cbn. lia.
    + constructor.
    + contradiction.
    + intros i c H. rewrite nth_snoc in H. destruct (Nat.eqb i _); [injection H as <-; lia|apply PF2 in H; lia].
    + intros i c N H. rewrite nth_snoc in H. destruct (Nat.eqb i _).
      * injection H as <-. split; [auto|]. intro X. apply PS in X. lia.
      * exact (PH i c N H).
    + intros i j c Ni Nj Hi Hj. rewrite nth_snoc in Hi, Hj. destruct (Nat.eqb i _) eqn:Ei, (Nat.eqb j _) eqn:Ej.
      * apply Nat.eqb_eq in Ei, Ej. congruence.
      * injection Hi as <-. apply PF2 in Hj. lia.
      * injection Hj as <-. apply PF2 in Hi. lia.
      * exact (PE i j c Ni Nj Hi Hj).
    + intros c H. destruct (PS c H). split; [auto|lia].
    + reflexivity.
  - apply rev_last in ER. rewrite ER in *. rewrite app_length in PL. cbn in PL.
    assert (NC : ~ In c (rev r) /\ NoDup (rev r)).
    { apply NoDup_remove in PN. rewrite app_nil_r in PN. split; apply PN. }
    destruct NC as [NC ND].
    constructor; cbn [cached next_conn proxies closed_ shut].
    + lia.
    + exact ND.
    + intros d H. apply PF. apply in_app_iff. left. exact H.
    + intros i d H. rewrite nth_snoc in H. destruct (Nat.eqb i _); [injection H as <-; apply PF, in_app_iff; right; left; reflexivity|exact (PF2 i d H)].
    + intros i d N H. rewrite nth_snoc in H. destruct (Nat.eqb i _).
      * injection H as <-. split; [exact NC|]. intro X. destruct (PS c X) as [Y _]. apply Y, in_app_iff. right. left. reflexivity.
      * destruct (PH i d N H) as [A B]. split; [|exact B]. intro X. apply A, in_app_iff. left. exact X.
    + intros i j d Ni Nj Hi Hj. rewrite nth_snoc in Hi, Hj. destruct (Nat.eqb i _) eqn:Ei, (Nat.eqb j _) eqn:Ej.
      * apply Nat.eqb_eq in Ei, Ej. congruence.
      * injection Hi as <-. destruct (PH j c Nj Hj) as [A _]. exfalso. apply A, in_app_iff. right. left. reflexivity.
      * injection Hj as <-. destruct (PH i c Ni Hi) as [A _]. exfalso. apply A, in_app_iff. right. left. reflexivity.
      * exact (PE i j d Ni Nj Hi Hj).
    + intros d H. destruct (PS d H) as [A B]. split; [|exact B]. intro X. apply A, in_app_iff. left. exact X.
    + intro H. specialize (PC H). destruct (rev r); discriminate.
Qed.
Lemma pinv_release : forall limit R s i, pinv limit R s -> ~ In i R -> pinv limit (R ++ [i]) (proxy_release limit s i).
Proof.
  intros limit R s i PI NI. pose proof PI as [PL PN PF PF2 PH PE PS PC]. unfold proxy_release.
  assert (NR : forall j, ~ In j (R ++ [i]) -> ~ In j R /\ j <> i).
  { intros j H. rewrite in_app_iff in H. cbn in H. split; intro X; apply H; auto. }
  assert (W : pinv limit (R ++ [i]) s).
  { constructor; try assumption.
    - intros j c N. apply PH. apply NR, N.
    - intros j k c N1 N2. apply PE; apply NR; assumption. }
  destruct (nth i (proxies s) None) as [c|] eqn:E; [|exact W]. unfold release_conn. destruct (nat_mem c (cached s)) eqn:EM; [exact W|].
  destruct (PH i c NI E) as [NC NS]. pose proof (PF2 i c E) as LC.
  destruct (negb (closed_ s) && (length (cached s) <? limit)) eqn:EB.
  - apply andb_true_iff in EB. destruct EB as [EB1 EB2]. apply negb_true_iff in EB1. apply Nat.ltb_lt in EB2.
    constructor; cbn [cached next_conn proxies closed_ shut].
    + rewrite app_length. cbn. lia.
    + apply nodup_snoc; assumption.
    + intros d H. apply in_app_iff in H. destruct H as [H|[<-|[]]]; auto.
    + exact PF2.
    + intros j d N H. destruct (NR j N) as [N1 N2]. destruct (PH j d N1 H) as [A B]. split; [|exact B]. rewrite in_app_iff. intros [X|[X|[]]]; [auto|]. subst d.
      apply N2. exact (PE j i c N1 NI H E).
    + intros j k d N1 N2. apply PE; apply NR; assumption.
    + intros d H. destruct (PS d H) as [A B]. split; [|exact B]. rewrite in_app_iff. intros [X|[X|[]]]; [auto|]. subst d. contradiction.
    + congruence.
  - constructor; cbn [cached next_conn proxies closed_ shut]; try assumption.
    + intros j d N H. destruct (NR j N) as [N1 N2]. destruct (PH j d N1 H) as [A B]. split; [exact A|]. rewrite in_app_iff. intros [X|[X|[]]]; [auto|]. subst d.
      apply N2. exact (PE j i c N1 NI H E).
    + intros j k d N1 N2. apply PE; apply NR; assumption.
    + intros d H. apply in_app_iff in H. destruct H as [H|[<-|[]]]; [apply PS, H|auto].
Qed.
Lemma pinv_clear : forall limit R s i, pinv limit R s -> pinv limit R (proxy_clear s i).
Proof.
  intros limit R s i [PL PN PF PF2 PH PE PS PC]. constructor; cbn [cached next_conn proxies closed_ shut proxy_clear]; try assumption.
  - intros j c H. rewrite nth_clear in H. destruct (Nat.eqb j i); [discriminate|eauto].
  - intros j c N H. rewrite nth_clear in H. destruct (Nat.eqb j i); [discriminate|eauto].
  - intros j k c N1 N2 H1 H2. rewrite nth_clear in H1, H2. destruct (Nat.eqb j i), (Nat.eqb k i); try discriminate. eauto.
Qed.
Lemma pinv_close : forall limit R s, pinv limit R s -> pinv limit R (close_all s).
Proof.
  intros limit R s [PL PN PF PF2 PH PE PS PC]. constructor; cbn [cached next_conn proxies closed_ shut close_all]; try assumption; try contradiction.
  - cbn. lia.
  - constructor.
  - intros j c N H. destruct (PH j c N H) as [A B]. split; [auto|]. rewrite in_app_iff. tauto.
  - intros c H. apply in_app_iff in H. split; [auto|]. destruct H as [H|H]; [apply PS, H|apply PF, H].
  - reflexivity.
Qed.
Lemma pool_inv_from : forall limit ops s R, pinv limit R s -> NoDup (R ++ releases ops) -> pinv limit (R ++ releases ops) (fold_left (pool_step limit) ops s).
Proof.
  intros limit ops. induction ops as [|o ops IH]; intros s R PI ND; cbn [fold_left releases flat_map]; [rewrite app_nil_r; exact PI|].
  destruct o as [|i|i|]; cbn [releases flat_map app pool_step] in *.
  - apply IH; [apply pinv_acquire, PI|exact ND].
  - fold (releases ops) in *. replace (R ++ i :: releases ops) with ((R ++ [i]) ++ releases ops) in * by (rewrite <- app_assoc; reflexivity).
    apply IH; [|exact ND]. apply pinv_release; [exact PI|]. rewrite <- app_assoc in ND. cbn in ND.
    intro X. apply (NoDup_remove_2 _ _ _ ND). apply in_app_iff. left. exact X.
  - apply IH; [apply pinv_clear, PI|exact ND].
  - apply IH; [apply pinv_close, PI|exact ND].
Qed.
Lemma pool_inv : forall limit ops, NoDup (releases ops) -> pinv limit (releases ops) (pool_run limit ops).
Proof. intros limit ops ND. apply (pool_inv_from limit ops conns_new [] (pinv_new limit) ND). Qed.
(** without any discipline *)
Lemma step_limit : forall limit s o, length (cached s) <= limit /\ (closed_ s = true -> cached s = []) ->
  length (cached (pool_step limit s o)) <= limit /\ (closed_ (pool_step limit s o) = true -> cached (pool_step limit s o) = []).
Proof.
  intros limit s o [L C]. destruct o as [|i|i|]; cbn [pool_step].
  - unfold acquire. destruct (rev (cached s)) as [|c r] eqn:E; cbn [cached closed_].
    + split; [cbn; lia|reflexivity].
    + apply rev_last in E. rewrite E in *. rewrite app_length in L. cbn in L. split; [lia|]. intro H. specialize (C H). destruct (rev r); discriminate.
  - unfold proxy_release. destruct (nth i (proxies s) None) as [c|]; [|auto]. unfold release_conn. destruct (nat_mem c (cached s)); [auto|].
    destruct (negb (closed_ s) && (length (cached s) <? limit)) eqn:EB; cbn [cached closed_]; [|auto].
    apply andb_true_iff in EB. destruct EB as [EB1 EB2]. apply negb_true_iff in EB1. apply Nat.ltb_lt in EB2. rewrite app_length. cbn. split; [lia|congruence].
  - auto.
  - cbn. split; [lia|reflexivity].
Qed.
Lemma run_limit : forall limit ops s, length (cached s) <= limit /\ (closed_ s = true -> cached s = []) ->
  length (cached (fold_left (pool_step limit) ops s)) <= limit /\ (closed_ (fold_left (pool_step limit) ops s) = true -> cached (fold_left (pool_step limit) ops s) = []).
Proof. intros limit ops. induction ops as [|o ops IH]; intros s H; [exact H|]. cbn [fold_left]. apply IH, step_limit, H. Qed.
Lemma closed_stays : forall limit o s, closed_ s = true -> closed_ (pool_step limit s o) = true.
Proof.
  intros limit [|i|i|] s H; cbn [pool_step]; auto.
  - unfold acquire. destruct (rev (cached s)); exact H.
  - unfold proxy_release. destruct (nth i (proxies s) None); [|exact H]. unfold release_conn. destruct (nat_mem _ _); [exact H|]. destruct (_ && _); exact H.
Qed.
Lemma closed_after : forall limit ops s, (closed_ s = true \/ In PClose ops) -> closed_ (fold_left (pool_step limit) ops s) = true.
Proof.
  intros limit ops. induction ops as [|o ops IH]; intros s H; cbn [fold_left].
  - destruct H as [H|[]]; exact H.
  - apply IH. destruct H as [H|[->|H]]; [left; apply closed_stays, H|left; reflexivity|right; exact H].
Qed.

(** ** Requests *)
Lemma request_bound : forall maxred maxret srv fuel n red ret u contacts, ret <= maxret ->
  let '(r, cs) := request_loop fuel maxred maxret srv n red ret u contacts in
  length cs <= length contacts + (S maxred - red) * maxret - ret \/ (length cs <= length contacts).
Proof.
  intros maxred maxret srv fuel. induction fuel as [|fuel IH]; intros n red ret u contacts LR; cbn [request_loop].
  - destruct ((ret <? maxret) && (red <=? maxred)); right; lia.
  - destruct ((ret <? maxret) && (red <=? maxred)) eqn:E; [|right; lia]. apply andb_true_iff in E. destruct E as [E1 E2]. apply Nat.ltb_lt in E1. apply Nat.leb_le in E2.
    assert (B : 1 <= (S maxred - red) * maxret - ret).
    { replace (S maxred - red) with (S (maxred - red)) by lia. cbn. lia. }
    assert (LC : length (contacts ++ [u]) = S (length contacts)) by (rewrite app_length; cbn; lia).
    destruct (srv n) as [|[[|c r]|]|st].
    + specialize (IH (S n) red (S ret) u (contacts ++ [u])). destruct (request_loop _ _ _ _ _ _ _ _ _) as [r' cs]. rewrite LC in IH. specialize (IH ltac:(lia)). lia.
    + left. lia.
    + assert (G : forall u', let '(_, cs) := request_loop fuel maxred maxret srv (S n) (S red) 0 u' (contacts ++ [u]) in length cs <= length contacts + (S maxred - red) * maxret - ret \/ length cs <= length contacts).
      { intro u'. specialize (IH (S n) (S red) 0 u' (contacts ++ [u])). destruct (request_loop _ _ _ _ _ _ _ _ _) as [r' cs]. rewrite LC in IH. specialize (IH ltac:(lia)).
        replace (S maxred - red) with (S (maxred - red)) in * by lia. cbn [Nat.mul Nat.sub] in *. lia. }
      destruct (Ascii.eqb c "/"); [apply G|]. destruct (url_parse (c :: r)); [apply G|]. left. lia.
    + left. lia.
    + left. lia.
Qed.
Lemma request_ends : forall maxred maxret srv fuel n red ret u contacts, ret <= maxret -> (S maxred - red) * maxret - ret <= fuel ->
  fst (request_loop fuel maxred maxret srv n red ret u contacts) <> StillRunning.
Proof.
  intros maxred maxret srv fuel. induction fuel as [|fuel IH]; intros n red ret u contacts LR LF; cbn [request_loop].
  - destruct ((ret <? maxret) && (red <=? maxred)) eqn:E; [|discriminate]. apply andb_true_iff in E. destruct E as [E1 E2]. apply Nat.ltb_lt in E1. apply Nat.leb_le in E2.
    replace (S maxred - red) with (S (maxred - red)) in LF by lia. cbn in LF. lia.
  - destruct ((ret <? maxret) && (red <=? maxred)) eqn:E; [|discriminate]. apply andb_true_iff in E. destruct E as [E1 E2]. apply Nat.ltb_lt in E1. apply Nat.leb_le in E2.
    replace (S maxred - red) with (S (maxred - red)) in LF by lia. cbn [Nat.mul] in LF.
    destruct (srv n) as [|[[|c r]|]|st]; try discriminate.
    + apply IH; [lia|]. replace (S maxred - red) with (S (maxred - red)) by lia. cbn [Nat.mul]. lia.
    + assert (G : forall u', fst (request_loop fuel maxred maxret srv (S n) (S red) 0 u' (contacts ++ [u])) <> StillRunning).
      { intro u'. apply IH; [lia|]. cbn [Nat.sub]. lia. }
      destruct (Ascii.eqb c "/"); [apply G|]. destruct (url_parse (c :: r)); [apply G|discriminate].
Qed.
Definition same_host (u v : url) : Prop := u_scheme u = u_scheme v /\ u_host u = u_host v /\ u_port u = u_port v.
Definition stays_home (a : answer) : Prop :=
  match a with ARedirect (Some (c :: _)) => c = "/"%char | _ => True end.
Lemma request_home : forall maxred maxret srv u0, (forall n, stays_home (srv n)) -> forall fuel n red ret u contacts,
  same_host u0 u -> Forall (same_host u0) contacts -> Forall (same_host u0) (snd (request_loop fuel maxred maxret srv n red ret u contacts)).
Proof.
  intros maxred maxret srv u0 HS fuel. induction fuel as [|fuel IH]; intros n red ret u contacts HU HC; cbn [request_loop].
  - destruct (_ && _); exact HC.
  - destruct ((ret <? maxret) && (red <=? maxred)); [|exact HC].
    assert (HC' : Forall (same_host u0) (contacts ++ [u])) by (apply Forall_app; split; [exact HC|apply Forall_cons; [exact HU|apply Forall_nil]]).
    specialize (HS n). destruct (srv n) as [|[[|c r]|]|st]; try exact HC'.
    + apply IH; assumption.
    + cbn in HS. subst c. cbn. apply IH; [|exact HC']. destruct HU as (A & B & C). repeat split; assumption.
Qed.

(** ** Fetching *)
Lemma nth_put : forall A (l : list A) i j x d, i < length l -> nth j (put_nth l i x) d = if Nat.eqb j i then x else nth j l d.
Proof. induction l as [|y l IH]; intros [|i] [|j] x d H; cbn in *; try lia; try reflexivity. rewrite IH by lia. reflexivity. Qed.
Lemma put_over : forall A (l : list A) i x, length l <= i -> put_nth l i x = l.
Proof. induction l as [|y l IH]; intros [|i] x H; cbn in *; try lia; try reflexivity. rewrite IH by lia. reflexivity. Qed.
Definition caller (s : fclient) (i : nat) : fstate := nth i (callers s) (FEnd true).
(** owns the entry *)
Definition active (f : fstate) (p : nat) : Prop := (exists d, f = FPerform p d) \/ f = FDownload p.
Definition delivering (f : fstate) (p : nat) : Prop := exists ok, f = FDeliver p ok.
Record finv (s : fclient) : Prop := {
  f_entry : forall i p, active (caller s i) p -> in_progress s = Some p;
  f_one : forall i j p q, active (caller s i) p -> active (caller s j) q -> i = j;
  f_old : forall p, in_progress s = Some p -> p < promises_made s;
  f_known : forall i p, (active (caller s i) p \/ delivering (caller s i) p \/ caller s i = FWait p) -> p < promises_made s;
  f_promise : forall p, p < promises_made s -> settled_of (settled_p s) p <> None \/ exists i, active (caller s i) p \/ delivering (caller s i) p }.
Definition no_abort (sched : list (nat * download * bool)) : Prop := Forall (fun e => snd (fst e) <> DlAbort) sched.
Lemma settled_cons : forall p ok l q, settled_of ((p, ok) :: l) q = if Nat.eqb p q then Some ok else settled_of l q.
Proof. intros. unfold settled_of. cbn. destruct (Nat.eqb p q); reflexivity. Qed.

Lemma finv_step : forall s i dl bad, finv s -> dl <> DlAbort -> finv (fetch_step s i dl bad).
Proof.
  intros s i dl bad V ND. unfold fetch_step.
  destruct (Nat.lt_ge_cases i (length (callers s))) as [LI|LI].
  2:{ rewrite nth_overflow by exact LI. exact V. }
  assert (C' : forall ip pm se st sv x j, caller (FC ip pm se st sv (put_nth (callers s) i x)) j = if Nat.eqb j i then x else caller s j).
  { intros. unfold caller. cbn [callers]. apply nth_put, LI. }
  fold (caller s i). destruct V as [VE V1 VO VK VP].
  assert (NA : forall x p, (match x with FIdle _ | FWait _ | FEnd _ | FAborted | FDeliver _ _ => True | _ => False end) -> active x p -> False).
  { intros x p H [(d & ->)| ->]; exact H. }
  destruct (caller s i) as [d|p d|p|p ok|p|ok|] eqn:EI.
  - (* idle *)
    destruct (in_progress s) as [p|] eqn:EP.
    + constructor; cbn [in_progress promises_made settled_p].
      * intros j q A. rewrite C' in A. destruct (Nat.eqb j i); [exfalso; eapply NA; [|exact A]; exact I|]. exact (VE j q A).
      * intros j k q r A B. rewrite C' in A, B. destruct (Nat.eqb j i); [exfalso; eapply NA; [|exact A]; exact I|]. destruct (Nat.eqb k i); [exfalso; eapply NA; [|exact B]; exact I|]. exact (V1 j k q r A B).
      * intros q H. apply VO. congruence.
      * intros j q H. rewrite C' in H. destruct (Nat.eqb j i); [|exact (VK j q H)]. destruct H as [H|[(ok & H)|H]]; try discriminate; [exfalso; eapply NA; [|exact H]; exact I|].
        injection H as <-. apply VO. reflexivity.
      * intros q H. destruct (VP q H) as [X|(j & X)]; [left; exact X|right]. exists j. rewrite C'. destruct (Nat.eqb j i) eqn:E; [|exact X].
        apply Nat.eqb_eq in E. subst j. rewrite EI in X. destruct X as [X|(ok & X)]; [exfalso; eapply NA; [|exact X]; exact I|discriminate].
    + cbv zeta. constructor; cbn [in_progress promises_made settled_p].
      * intros j q A. rewrite C' in A. destruct (Nat.eqb j i); [|specialize (VE j q A); congruence]. destruct A as [(d' & A)|A]; [injection A as -> _; reflexivity|discriminate].
      * intros j k q r A B. rewrite C' in A, B. destruct (Nat.eqb j i) eqn:E1; [|specialize (VE j q A); congruence]. destruct (Nat.eqb k i) eqn:E2; [|specialize (VE k r B); congruence].
        apply Nat.eqb_eq in E1, E2. congruence.
      * intros q H. injection H as <-. lia.
      * intros j q H. rewrite C' in H. destruct (Nat.eqb j i); [|specialize (VK j q H); lia]. destruct H as [[(d' & H)|H]|[(ok & H)|H]]; try discriminate. injection H as -> _. lia.
      * intros q H. destruct (Nat.eq_dec q (promises_made s)) as [->|N].
        -- right. exists i. rewrite C', Nat.eqb_refl. left. left. exists d. reflexivity.
        -- destruct (VP q) as [X|(j & X)]; [lia|left; exact X|right]. exists j. rewrite C'. destruct (Nat.eqb j i) eqn:E; [|exact X].
           apply Nat.eqb_eq in E. subst j. rewrite EI in X. destruct X as [X|(ok & X)]; [exfalso; eapply NA; [|exact X]; exact I|discriminate].
  - (* perform *)
    assert (AI : active (caller s i) p) by (left; exists d; exact EI).
    assert (IP : in_progress s = Some p) by exact (VE i p AI).
    assert (Deliver : forall ok, finv (FC (in_progress s) (promises_made s) (settled_p s) (stored s) (server s) (put_nth (callers s) i (FDeliver p ok)))).
    { intro ok. constructor; cbn [in_progress promises_made settled_p].
      * intros j q A. rewrite C' in A. destruct (Nat.eqb j i); [exfalso; eapply NA; [|exact A]; exact I|]. exact (VE j q A).
      * intros j k q r A B. rewrite C' in A, B. destruct (Nat.eqb j i); [exfalso; eapply NA; [|exact A]; exact I|]. destruct (Nat.eqb k i); [exfalso; eapply NA; [|exact B]; exact I|]. exact (V1 j k q r A B).
      * exact VO.
      * intros j q H. rewrite C' in H. destruct (Nat.eqb j i); [|exact (VK j q H)]. destruct H as [H|[(ok' & H)|H]]; try discriminate; [exfalso; eapply NA; [|exact H]; exact I|].
        injection H as <- _. apply VO. exact IP.
      * intros q H. destruct (VP q H) as [X|(j & X)]; [left; exact X|right]. exists j. rewrite C'. destruct (Nat.eqb j i) eqn:E; [|exact X].
        apply Nat.eqb_eq in E. subst j. rewrite EI in X. right. exists ok. destruct X as [[(d' & X)|X]|(ok' & X)]; try discriminate. injection X as -> _. reflexivity. }
    destruct bad; [apply Deliver|]. destruct (stored s && is_cache_valid d); [apply Deliver|].
    constructor; cbn [in_progress promises_made settled_p].
    + intros j q A. rewrite C' in A. destruct (Nat.eqb j i); [|exact (VE j q A)]. destruct A as [(d' & A)|A]; [discriminate|]. injection A as ->. exact IP.
    + intros j k q r A B. rewrite C' in A, B. destruct (Nat.eqb j i) eqn:E1, (Nat.eqb k i) eqn:E2.
      * apply Nat.eqb_eq in E1, E2. congruence.
      * apply Nat.eqb_eq in E1. subst j. exact (V1 i k p r AI B).
      * apply Nat.eqb_eq in E2. subst k. exact (V1 j i q p A AI).
      * exact (V1 j k q r A B).
    + exact VO.
    + intros j q H. rewrite C' in H. destruct (Nat.eqb j i); [|exact (VK j q H)]. destruct H as [[(d' & H)|H]|[(ok & H)|H]]; try discriminate. injection H as <-. apply VO, IP.
    + intros q H. destruct (VP q H) as [X|(j & X)]; [left; exact X|right]. exists j. rewrite C'. destruct (Nat.eqb j i) eqn:E; [|exact X].
      apply Nat.eqb_eq in E. subst j. rewrite EI in X. left. right. destruct X as [[(d' & X)|X]|(ok' & X)]; try discriminate. injection X as -> _. reflexivity.
  - (* download *)
    assert (AI : active (caller s i) p) by (right; exact EI).
    assert (Deliver : forall ok st, finv (FC None (promises_made s) (settled_p s) st (server s) (put_nth (callers s) i (FDeliver p ok)))).
    { intros ok st. constructor; cbn [in_progress promises_made settled_p].
      * intros j q A. rewrite C' in A. destruct (Nat.eqb j i) eqn:E; [exfalso; eapply NA; [|exact A]; exact I|]. exfalso. apply Nat.eqb_neq in E. apply E. exact (V1 j i q p A AI).
      * intros j k q r A B. rewrite C' in A, B. destruct (Nat.eqb j i); [exfalso; eapply NA; [|exact A]; exact I|]. destruct (Nat.eqb k i); [exfalso; eapply NA; [|exact B]; exact I|]. exact (V1 j k q r A B).
      * discriminate.
      * intros j q H. rewrite C' in H. destruct (Nat.eqb j i); [|exact (VK j q H)]. destruct H as [H|[(ok' & H)|H]]; try discriminate; [exfalso; eapply NA; [|exact H]; exact I|].
        injection H as <- _. apply VO. exact (VE i p AI).
      * intros q H. destruct (VP q H) as [X|(j & X)]; [left; exact X|right]. exists j. rewrite C'. destruct (Nat.eqb j i) eqn:E; [|exact X].
        apply Nat.eqb_eq in E. subst j. rewrite EI in X. right. exists ok. destruct X as [[(d' & X)|X]|(ok' & X)]; try discriminate. injection X as ->. reflexivity. }
    destruct dl; try apply Deliver. congruence.
  - (* deliver *)
    constructor; cbn [in_progress promises_made settled_p].
    + intros j q A. rewrite C' in A. destruct (Nat.eqb j i); [exfalso; eapply NA; [|exact A]; exact I|]. exact (VE j q A).
    + intros j k q r A B. rewrite C' in A, B. destruct (Nat.eqb j i); [exfalso; eapply NA; [|exact A]; exact I|]. destruct (Nat.eqb k i); [exfalso; eapply NA; [|exact B]; exact I|]. exact (V1 j k q r A B).
    + exact VO.
    + intros j q H. rewrite C' in H. destruct (Nat.eqb j i); [|exact (VK j q H)]. destruct H as [H|[(ok' & H)|H]]; try discriminate; [exfalso; eapply NA; [|exact H]; exact I|].
      injection H as <-. apply (VK i). right. left. exists ok. exact EI.
    + intros q H. rewrite settled_cons. destruct (Nat.eqb p q) eqn:EQ; [left; discriminate|]. destruct (VP q H) as [X|(j & X)]; [left; exact X|right]. exists j. rewrite C'. destruct (Nat.eqb j i) eqn:E; [|exact X].
      apply Nat.eqb_eq in E. subst j. rewrite EI in X. destruct X as [X|(ok' & X)]; [exfalso; eapply NA; [|exact X]; exact I|]. injection X as -> _. rewrite Nat.eqb_refl in EQ. discriminate.
  - (* wait *)
    destruct (settled_of (settled_p s) p) as [ok|] eqn:ES; [|constructor; assumption].
    constructor; cbn [in_progress promises_made settled_p].
    + intros j q A. rewrite C' in A. destruct (Nat.eqb j i); [exfalso; eapply NA; [|exact A]; exact I|]. exact (VE j q A).
    + intros j k q r A B. rewrite C' in A, B. destruct (Nat.eqb j i); [exfalso; eapply NA; [|exact A]; exact I|]. destruct (Nat.eqb k i); [exfalso; eapply NA; [|exact B]; exact I|]. exact (V1 j k q r A B).
    + exact VO.
    + intros j q H. rewrite C' in H. destruct (Nat.eqb j i); [|exact (VK j q H)]. destruct H as [H|[(ok' & H)|H]]; try discriminate. exfalso; eapply NA; [|exact H]; exact I.
    + intros q H. destruct (VP q H) as [X|(j & X)]; [left; exact X|right]. exists j. rewrite C'. destruct (Nat.eqb j i) eqn:E; [|exact X].
      apply Nat.eqb_eq in E. subst j. rewrite EI in X. destruct X as [X|(ok' & X)]; [exfalso; eapply NA; [|exact X]; exact I|discriminate].
  - constructor; assumption.
  - constructor; assumption.
Qed.
Lemma caller_start : forall st ds i, (exists d, caller (fetch_start st ds) i = FIdle d) \/ caller (fetch_start st ds) i = FEnd true.
Proof.
  intros st ds i. unfold caller, fetch_start. cbn [callers]. destruct (Nat.lt_ge_cases i (length ds)) as [L|L].
  - left. exists (nth i ds DAlways). rewrite (nth_indep _ (FEnd true) (FIdle DAlways)) by (rewrite map_length; exact L). apply map_nth.
  - right. apply nth_overflow. rewrite map_length. exact L.
Qed.
Lemma finv_start : forall st ds, finv (fetch_start st ds).
Proof.
  intros st ds. constructor; cbn [in_progress promises_made settled_p fetch_start].
  - intros i p [(d & A)|A]; destruct (caller_start st ds i) as [(d' & B)|B]; unfold fetch_start in *; congruence.
  - intros i j p q [(d & A)|A]; destruct (caller_start st ds i) as [(d' & B)|B]; unfold fetch_start in *; congruence.
  - discriminate.
  - intros i p H. destruct (caller_start st ds i) as [(d' & B)|B]; unfold fetch_start in *; rewrite B in H; destruct H as [[(d & H)|H]|[(ok & H)|H]]; discriminate.
  - intros p H. lia.
Qed.
Lemma finv_run : forall sched s, finv s -> no_abort sched -> finv (fetch_run s sched).
Proof.
  induction sched as [|e sched IH]; intros s V NA; [exact V|]. cbn [fetch_run fold_left]. inversion NA; subst. apply IH; [apply finv_step; assumption|assumption].
Qed.
(** two callers downloading: one of them is the other, also with aborted downloads *)
Record finv2 (s : fclient) : Prop := {
  g_entry : forall i p, active (caller s i) p -> in_progress s = Some p;
  g_one : forall i j p q, active (caller s i) p -> active (caller s j) q -> i = j }.
Lemma finv2_step : forall s i dl bad, finv2 s -> finv2 (fetch_step s i dl bad).
Proof.
  intros s i dl bad V. unfold fetch_step. destruct (Nat.lt_ge_cases i (length (callers s))) as [LI|LI].
  2:{ rewrite nth_overflow by exact LI. exact V. }
  assert (C' : forall ip pm se st sv x j, caller (FC ip pm se st sv (put_nth (callers s) i x)) j = if Nat.eqb j i then x else caller s j).
  { intros. unfold caller. cbn [callers]. apply nth_put, LI. }
  fold (caller s i). destruct V as [VE V1].
  assert (NA : forall x p, (match x with FIdle _ | FWait _ | FEnd _ | FAborted | FDeliver _ _ => True | _ => False end) -> active x p -> False).
  { intros x p H [(d & ->)| ->]; exact H. }
  assert (Leave : forall x pm se st sv, (match x with FIdle _ | FWait _ | FEnd _ | FAborted | FDeliver _ _ => True | _ => False end) ->
    finv2 (FC (in_progress s) pm se st sv (put_nth (callers s) i x)) /\ ((exists p, active (caller s i) p) -> finv2 (FC None pm se st sv (put_nth (callers s) i x)))).
  { intros x pm se st sv HX. split.
    - constructor; cbn [in_progress].
      + intros j q A. rewrite C' in A. destruct (Nat.eqb j i); [exfalso; eapply NA; eassumption|exact (VE j q A)].
      + intros j k q r A B. rewrite C' in A, B. destruct (Nat.eqb j i); [exfalso; eapply NA; eassumption|]. destruct (Nat.eqb k i); [exfalso; eapply NA; [exact HX|exact B]|]. exact (V1 j k q r A B).
    - intros (p & AI). constructor; cbn [in_progress].
      + intros j q A. rewrite C' in A. destruct (Nat.eqb j i) eqn:E; [exfalso; eapply NA; eassumption|]. exfalso. apply Nat.eqb_neq in E. apply E. exact (V1 j i q p A AI).
      + intros j k q r A B. rewrite C' in A, B. destruct (Nat.eqb j i); [exfalso; eapply NA; eassumption|]. destruct (Nat.eqb k i); [exfalso; eapply NA; [exact HX|exact B]|]. exact (V1 j k q r A B). }
  destruct (caller s i) as [d|p d|p|p ok|p|ok|] eqn:EI.
  - destruct (in_progress s) as [p|] eqn:EP; [apply (proj1 (Leave (FWait p) _ _ _ _ I))|]. cbv zeta. constructor; cbn [in_progress].
    + intros j q A. rewrite C' in A. destruct (Nat.eqb j i); [|specialize (VE j q A); congruence]. destruct A as [(d' & A)|A]; [injection A as -> _; reflexivity|discriminate].
    + intros j k q r A B. rewrite C' in A, B. destruct (Nat.eqb j i) eqn:E1; [|specialize (VE j q A); congruence]. destruct (Nat.eqb k i) eqn:E2; [|specialize (VE k r B); congruence].
      apply Nat.eqb_eq in E1, E2. congruence.
  - assert (AI : active (caller s i) p) by (left; exists d; exact EI).
    destruct bad; [apply (proj1 (Leave (FDeliver p false) _ _ _ _ I))|]. destruct (stored s && is_cache_valid d); [apply (proj1 (Leave (FDeliver p true) _ _ _ _ I))|].
    constructor; cbn [in_progress].
    + intros j q A. rewrite C' in A. destruct (Nat.eqb j i); [|exact (VE j q A)]. destruct A as [(d' & A)|A]; [discriminate|]. injection A as ->. exact (VE i _ AI).
    + intros j k q r A B. rewrite C' in A, B. destruct (Nat.eqb j i) eqn:E1, (Nat.eqb k i) eqn:E2.
      * apply Nat.eqb_eq in E1, E2. congruence.
      * apply Nat.eqb_eq in E1. subst j. exact (V1 i k p r AI B).
      * apply Nat.eqb_eq in E2. subst k. exact (V1 j i q p A AI).
      * exact (V1 j k q r A B).
  - assert (AI : exists q, active (FDownload p) q) by (exists p; right; reflexivity).
    destruct dl; [apply (proj2 (Leave (FDeliver p true) _ _ _ _ I))|apply (proj2 (Leave (FDeliver p true) _ _ _ _ I))|apply (proj2 (Leave (FDeliver p false) _ _ _ _ I))|apply (proj2 (Leave FAborted _ _ _ _ I))]; exact AI.
  - apply (proj1 (Leave (FWait p) _ _ _ _ I)).
  - destruct (settled_of (settled_p s) p) as [ok|]; [apply (proj1 (Leave (FEnd ok) _ _ _ _ I))|constructor; assumption].
  - constructor; assumption.
  - constructor; assumption.
Qed.
Lemma finv2_run : forall sched s, finv2 s -> finv2 (fetch_run s sched).
Proof. induction sched as [|e sched IH]; intros s V; [exact V|]. cbn [fetch_run fold_left]. apply IH, finv2_step, V. Qed.
Lemma finv2_start : forall st ds, finv2 (fetch_start st ds).
Proof. intros st ds. destruct (finv_start st ds). constructor; assumption. Qed.

(** nobody can move: everybody is through *)
Lemma stuck_means_done : forall s, finv s -> (forall i, caller s i <> FAborted) ->
  (forall i dl bad, fetch_step s i dl bad = s) -> forall i, exists ok, caller s i = FEnd ok.
Proof.
  intros s V NAb ST i. 
  assert (C' : forall j ip pm se st sv x, j < length (callers s) -> FC ip pm se st sv (put_nth (callers s) j x) = s -> caller s j = x).
  { intros j ip pm se st sv x L E. rewrite <- E at 1. unfold caller. cbn [callers]. rewrite nth_put by exact L. rewrite Nat.eqb_refl. reflexivity. }
  assert (LT : forall j, caller s j <> FEnd true -> j < length (callers s)).
  { intros j H. destruct (Nat.lt_ge_cases j (length (callers s))) as [L|L]; [exact L|]. exfalso. apply H. unfold caller. apply nth_overflow, L. }
  assert (NoAct : forall j p, active (caller s j) p -> False).
  { intros j p A. assert (L : j < length (callers s)) by (apply LT; destruct A as [(d & ->)| ->]; discriminate).
    destruct A as [(d & A)|A].
    - specialize (ST j DlStored false). unfold fetch_step in ST. fold (caller s j) in ST. rewrite A in ST. destruct (stored s && is_cache_valid d); apply C' in ST; try exact L; congruence.
    - specialize (ST j DlStored false). unfold fetch_step in ST. fold (caller s j) in ST. rewrite A in ST. apply C' in ST; [congruence|exact L]. }
  assert (NoDel : forall j p, delivering (caller s j) p -> False).
  { intros j p (ok & A). assert (L : j < length (callers s)) by (apply LT; rewrite A; discriminate).
    specialize (ST j DlStored false). unfold fetch_step in ST. fold (caller s j) in ST. rewrite A in ST. apply C' in ST; [congruence|exact L]. }
  destruct (caller s i) as [d|p d|p|p ok|p|ok|] eqn:EI.
  - exfalso. assert (L : i < length (callers s)) by (apply LT; rewrite EI; discriminate). specialize (ST i DlStored false). unfold fetch_step in ST. fold (caller s i) in ST. rewrite EI in ST.
    destruct (in_progress s) as [p|]; [apply C' in ST; [congruence|exact L]|]. cbv zeta in ST. apply C' in ST; [congruence|exact L].
  - exfalso. apply (NoAct i p). left. exists d. exact EI.
  - exfalso. apply (NoAct i p). right. exact EI.
  - exfalso. apply (NoDel i p). exists ok. exact EI.
  - exfalso. assert (L : i < length (callers s)) by (apply LT; rewrite EI; discriminate). destruct (f_promise s V p) as [X|(j & [X|X])].
    + apply (f_known s V i p). right. right. exact EI.
    + specialize (ST i DlStored false). unfold fetch_step in ST. fold (caller s i) in ST. rewrite EI in ST. destruct (settled_of (settled_p s) p) as [ok|]; [|congruence].
      apply C' in ST; [congruence|exact L].
    + exact (NoAct j p X).
    + exact (NoDel j p X).
  - exists ok. reflexivity.
  - congruence.
Qed.
Lemma no_abort_state : forall sched s, (forall i, caller s i <> FAborted) -> no_abort sched -> forall i, caller (fetch_run s sched) i <> FAborted.
Proof.
  induction sched as [|[[k dl] bad] sched IH]; intros s H NA; [exact H|]. cbn [fetch_run fold_left]. inversion NA as [|? ? N1 N2]; subst. cbn in N1. apply IH; [|exact N2]. intro i. cbn [fst snd].
  assert (C' : forall ip pm se st sv x, x <> FAborted -> caller (FC ip pm se st sv (put_nth (callers s) k x)) i <> FAborted).
  { intros ip pm se st sv x N. unfold caller. cbn [callers]. destruct (Nat.lt_ge_cases k (length (callers s))) as [L|L].
    - rewrite nth_put by exact L. destruct (Nat.eqb i k); [exact N|apply H].
    - rewrite put_over by exact L. apply H. }
  unfold fetch_step. fold (caller s k). destruct (caller s k) as [d|p d|p|p ok|p|ok|] eqn:EI; try apply H.
  - destruct (in_progress s); apply C'; discriminate.
  - destruct bad; [apply C'; discriminate|]. destruct (_ && _); apply C'; discriminate.
  - destruct dl; try (apply C'; discriminate). congruence.
  - apply C'. discriminate.
  - destruct (settled_of _ _); [apply C'; discriminate|apply H].
Qed.

(** ** Multipart *)
Lemma chunks_concat : forall fuel size s, 0 < size -> length s <= fuel -> concat (chunks fuel size s) = s.
Proof.
  induction fuel as [|fuel IH]; intros size s P L; [destruct s; [reflexivity|cbn in L; lia]|]. destruct s as [|c s]; [reflexivity|]. cbn [chunks concat].
  rewrite IH; [apply firstn_skipn|exact P|]. destruct size as [|size]; [lia|]. cbn [skipn]. pose proof (skipn_length size s) as SL. cbn [length] in L. unfold str in *. lia.
Qed.
Lemma pieces_concat : forall boundary size f, 0 < size ->
  concat (field_pieces boundary size f) = lit "--" ++ boundary ++ crlf ++ render f ++ f_payload f ++ crlf.
Proof.
  intros boundary size f P. unfold field_pieces. rewrite !concat_app. cbn [concat]. rewrite !app_nil_r, <- !app_assoc. f_equal. f_equal. f_equal. f_equal. f_equal.
  destruct (f_stream f); [apply chunks_concat; [exact P|lia]|cbn; apply app_nil_r].
Qed.
Lemma body_concat : forall boundary size fs, 0 < size ->
  concat (body_pieces boundary size fs) = flat_map (fun f => lit "--" ++ boundary ++ crlf ++ render f ++ f_payload f ++ crlf) fs.
Proof.
  intros boundary size fs P. unfold body_pieces. induction fs as [|f fs IH]; [reflexivity|]. cbn [flat_map]. rewrite concat_app, IH, pieces_concat by exact P. reflexivity.
Qed.

(** ** Urls *)
Record wf_url (u : url) : Prop := {
  w_scheme : exists c r, u_scheme u = c :: r /\ is_alpha c = true;
  w_scheme_chars : forallb is_scheme_char (u_scheme u) = true;
  w_scheme_lower : lower (u_scheme u) = u_scheme u;
  w_host : forallb (fun c => negb (netloc_stop c) && negb (Ascii.eqb c ":")) (u_host u) = true;
  w_brackets : str_has "[" (u_host u) = str_has "]" (u_host u);
  w_path : u_path u = [] \/ exists r, u_path u = "/"%char :: r;
  w_path_chars : forallb (fun c => not_char "?" c && not_char "#" c) (u_path u) = true;
  w_query : forallb (not_char "#") (u_query u) = true;
  w_safe : forallb (fun c => negb (is_unsafe c)) (u_host u ++ u_path u ++ u_query u ++ u_fragment u) = true }.

Ltac by_char c := destruct c as [[|] [|] [|] [|] [|] [|] [|] [|]]; vm_compute; try reflexivity; try discriminate; try tauto.
Lemma scheme_char_ok : forall c, is_scheme_char c = true -> not_char ":" c = true /\ is_unsafe c = false.
Proof. intro c. by_char c; intros; split; reflexivity. Qed.
Lemma alpha_not_blank : forall c, is_alpha c = true -> is_c0_or_space c = false.
Proof. intro c. by_char c. Qed.
Lemma digit_ok : forall c, is_digit c = true -> negb (netloc_stop c) = true /\ not_char ":" c = true /\ is_unsafe c = false /\ Ascii.eqb "[" c = false /\ Ascii.eqb "]" c = false.
Proof. intro c. by_char c; intros; repeat split; reflexivity. Qed.
Lemma filter_all : forall A (f : A -> bool) l, forallb f l = true -> filter f l = l.
Proof. induction l as [|x l IH]; intro H; [reflexivity|]. cbn in *. apply andb_true_iff in H. destruct H as [H1 H2]. rewrite H1, IH by exact H2. reflexivity. Qed.
Lemma forallb_impl : forall A (f g : A -> bool) l, (forall x, f x = true -> g x = true) -> forallb f l = true -> forallb g l = true.
Proof. intros A f g l H. rewrite !forallb_forall. auto. Qed.
Lemma str_has_app : forall c a b, str_has c (a ++ b) = str_has c a || str_has c b.
Proof. intros. apply existsb_app. Qed.
Lemma str_has_in : forall c s, str_has c s = true <-> In c s.
Proof.
  intros c s. unfold str_has. rewrite existsb_exists. split.
  - intros (x & I & E). apply Ascii.eqb_eq in E. subst. exact I.
  - intro I. exists c. rewrite Ascii.eqb_refl. auto.
Qed.
Lemma split_once_hit : forall c a b, forallb (not_char c) a = true -> split_once c (a ++ c :: b) = (a, Some b).
Proof. intros c a b H. unfold split_once. rewrite span_app; [reflexivity|exact H|]. unfold head_not, opt_test. cbn. unfold not_char. rewrite Ascii.eqb_refl. reflexivity. Qed.
Lemma split_once_miss : forall c a, forallb (not_char c) a = true -> split_once c a = (a, None).
Proof. intros c a H. unfold split_once. pose proof (span_app (not_char c) a [] H eq_refl) as S. rewrite app_nil_r in S. rewrite S. reflexivity. Qed.

Definition port_part (u : url) : str := if default_port u then [] else ":"%char :: show_N (u_port u).
Lemma port_digits : forall n c, In c (show_N n) -> is_digit c = true.
Proof. intros n c I. exact (proj1 (forallb_forall _ _) (show_N_digits n) c I). Qed.
Lemma resource_head : forall u, (u_path u = [] \/ exists r, u_path u = "/"%char :: r) -> head_not (fun c => negb (netloc_stop c)) (resource_part u).
Proof.
  intros u [E|(r & E)]; unfold resource_part; rewrite E; [|reflexivity]. cbn [app]. destruct (u_query u) as [|q Q]; [|reflexivity]. destruct (u_fragment u); reflexivity.
Qed.
Lemma resource_split : forall u, forallb (fun c => not_char "?" c && not_char "#" c) (u_path u) = true -> forallb (not_char "#") (u_query u) = true ->
  let '(u3, fragment) := split_once "#" (resource_part u) in
  let '(path, query) := split_once "?" u3 in
  path = u_path u /\ opt_or query [] = u_query u /\ opt_or fragment [] = u_fragment u.
Proof.
  intros u HP HQ. unfold resource_part.
  assert (P1 : forallb (not_char "?") (u_path u) = true) by (eapply forallb_impl; [|exact HP]; intros x H; apply andb_true_iff in H; apply H).
  assert (P2 : forallb (not_char "#") (u_path u) = true) by (eapply forallb_impl; [|exact HP]; intros x H; apply andb_true_iff in H; apply H).
  assert (PQ : forallb (not_char "#") (u_path u ++ opt_part "?" (u_query u)) = true).
  { rewrite forallb_app, P2. cbn [andb]. destruct (u_query u); [reflexivity|]. cbn [opt_part]. exact HQ. }
  assert (Q : split_once "?" (u_path u ++ opt_part "?" (u_query u)) = (u_path u, match u_query u with [] => None | _ => Some (u_query u) end)).
  { destruct (u_query u) as [|q r] eqn:E; cbn [opt_part]; [rewrite app_nil_r; apply split_once_miss, P1|apply split_once_hit, P1]. }
  rewrite app_assoc. destruct (u_fragment u) as [|f F] eqn:EF; cbn [opt_part].
  - rewrite app_nil_r, split_once_miss by exact PQ. rewrite Q. repeat split. destruct (u_query u); reflexivity.
  - rewrite split_once_hit by exact PQ. rewrite Q. repeat split. destruct (u_query u); reflexivity.
Qed.
Lemma url_round : forall u, wf_url u -> url_parse (show_url u) = Ok u.
Proof.
  intros u [(c0 & r0 & ES & EA) SC SL H HB P PC Q SF].
  assert (SHOW : show_url u = u_scheme u ++ ":"%char :: "/"%char :: "/"%char :: (u_host u ++ port_part u) ++ resource_part u).
  { unfold show_url. fold (port_part u). rewrite <- !app_assoc. reflexivity. }
  rewrite !forallb_app in SF. apply andb_true_iff in SF. destruct SF as [SF1 SF]. apply andb_true_iff in SF. destruct SF as [SF2 SF]. apply andb_true_iff in SF. destruct SF as [SF3 SF4].
  assert (PORT : forallb (fun c => negb (netloc_stop c)) (port_part u) = true /\ forallb (fun c => negb (is_unsafe c)) (port_part u) = true /\ str_has "[" (port_part u) = false /\ str_has "]" (port_part u) = false).
  { unfold port_part. destruct (default_port u); [repeat split; reflexivity|]. pose proof (port_digits (u_port u)) as PD. split; [|split; [|split]].
    - cbn. apply forallb_forall. intros x I. apply digit_ok, PD, I.
    - cbn. apply forallb_forall. intros x I. apply negb_true_iff. apply (digit_ok x (PD x I)).
    - apply not_true_is_false. intro E. apply str_has_in in E. destruct E as [E|E]; [discriminate|]. apply PD in E. discriminate.
    - apply not_true_is_false. intro E. apply str_has_in in E. destruct E as [E|E]; [discriminate|]. apply PD in E. discriminate. }
  destruct PORT as (PO1 & PO2 & PO3 & PO4).
  assert (CLEAN : url_clean (show_url u) = show_url u).
  { unfold url_clean. assert (S0 : span is_c0_or_space (show_url u) = ([], show_url u)).
    { rewrite SHOW, ES. cbn [app span]. rewrite (alpha_not_blank c0 EA). reflexivity. }
    rewrite S0. cbn [snd]. apply filter_all. rewrite SHOW, forallb_app. apply andb_true_iff. split.
    - eapply forallb_impl; [|exact SC]. intros x Hx. apply negb_true_iff. apply (scheme_char_ok x Hx).
    - change (forallb (fun c => negb (is_unsafe c)) ((u_host u ++ port_part u) ++ resource_part u) = true). unfold resource_part. rewrite !forallb_app, SF1, PO2, SF2. cbn [andb].
      destruct (u_query u), (u_fragment u); cbn [opt_part forallb] in *; repeat (apply andb_true_iff; split); first [reflexivity|apply andb_true_iff in SF3; apply SF3|apply andb_true_iff in SF4; apply SF4].
    }
  unfold url_parse, urlsplit. rewrite CLEAN.
  assert (SS : split_scheme (show_url u) = (u_scheme u, "/"%char :: "/"%char :: (u_host u ++ port_part u) ++ resource_part u)).
  { unfold split_scheme. rewrite SHOW, split_once_hit.
    - rewrite ES at 1. rewrite EA, SC, SL. reflexivity.
    - eapply forallb_impl; [|exact SC]. intros x Hx. apply (scheme_char_ok x Hx). }
  rewrite SS. cbn [split_netloc]. rewrite span_app.
  2:{ rewrite forallb_app, PO1, andb_true_r. eapply forallb_impl; [|exact H]. intros x Hx. apply andb_true_iff in Hx. apply Hx. }
  2:{ apply resource_head, P. }
  rewrite !str_has_app, PO3, PO4, !orb_false_r, HB, xorb_nilpotent.
  pose proof (resource_split u PC Q) as RS. destruct (split_once "#" (resource_part u)) as [u3 fr]. destruct (split_once "?" u3) as [pa qu]. destruct RS as (R1 & R2 & R3). rewrite R1, R2, R3.
  assert (NH : ~ In ":"%char (u_host u)).
  { intro I. pose proof (proj1 (forallb_forall _ _) H _ I) as X. cbn in X. discriminate. }
  assert (HH : str_has ":" (u_host u) = false) by (destruct (str_has ":" (u_host u)) eqn:E; [apply str_has_in in E; contradiction|reflexivity]).
  cbn [bind]. rewrite str_has_app, HH. cbn [orb]. unfold port_part. destruct (default_port u) eqn:DP.
  - cbn [str_has existsb]. rewrite app_nil_r. destruct u as [us uh up upa uq uf]. cbn [u_scheme u_host u_port u_path u_query u_fragment] in *. f_equal. f_equal.
    unfold default_port in DP. cbn [u_scheme u_port] in DP. apply orb_true_iff in DP. destruct DP as [DP|DP]; apply andb_true_iff in DP; destruct DP as [D1 D2]; apply str_eqb_eq in D1; apply N.eqb_eq in D2; rewrite D1, D2; reflexivity.
  - cbn [str_has existsb]. rewrite Ascii.eqb_refl. cbn [orb]. rewrite split_on_app by exact NH. rewrite split_on_single.
    + rewrite show_N_all_digits, read_show_N. destruct u; reflexivity.
    + intro I. apply port_digits in I. discriminate.
Qed.

(** the pieces of a parsed text *)
Lemma span_spec : forall f s, let '(a, b) := span f s in s = a ++ b /\ forallb f a = true /\ head_not f b.
Proof.
  intros f s. induction s as [|c s IH]; cbn [span]; [repeat split|]. destruct (f c) eqn:E.
  - destruct (span f s) as [a b]. destruct IH as (I1 & I2 & I3). cbn. rewrite E, I1. repeat split; assumption.
  - repeat split. unfold head_not. cbn. exact E.
Qed.
Lemma split_once_spec : forall c s, let '(a, b) := split_once c s in forallb (not_char c) a = true /\ s = a ++ match b with Some r => c :: r | None => [] end.
Proof.
  intros c s. unfold split_once. pose proof (span_spec (not_char c) s) as H. destruct (span (not_char c) s) as [a [|x b]]; destruct H as (H1 & H2 & H3).
  - auto.
  - split; [exact H2|]. unfold head_not, opt_test in H3. cbn in H3. unfold not_char in H3. apply negb_false_iff in H3. apply Ascii.eqb_eq in H3. subst. reflexivity.
Qed.
Lemma lower_scheme : forall c, is_scheme_char c = true -> is_scheme_char (lower_char c) = true.
Proof. intro c. by_char c. Qed.
Lemma lower_alpha : forall c, is_alpha c = true -> is_alpha (lower_char c) = true.
Proof. intro c. by_char c. Qed.
Lemma lower_lower : forall c, lower_char (lower_char c) = lower_char c.
Proof. intro c. by_char c. Qed.
Lemma clean_safe : forall u, forallb (fun c => negb (is_unsafe c)) (url_clean u) = true.
Proof. intro u. unfold url_clean. apply forallb_forall. intros x I. apply filter_In in I. apply I. Qed.
Lemma url_parse_wf : forall t u, url_parse t = Ok u -> u_scheme u <> [] -> (u_path u = [] \/ exists r, u_path u = "/"%char :: r) -> wf_url u.
Proof.
  intros t u H NS HP. unfold url_parse, urlsplit in H. pose proof (clean_safe t) as CS. set (v := url_clean t) in *. clearbody v.
  unfold split_scheme in H. pose proof (split_once_spec ":" v) as S1. destruct (split_once ":" v) as [sc ro].
  assert (SCH : exists r, ro = Some r /\ (exists c s, sc = c :: s /\ is_alpha c = true) /\ forallb is_scheme_char sc = true /\
     (match split_netloc r with (netloc, u2) => if xorb (str_has "[" netloc) (str_has "]" netloc) then Err ValueError else
        let '(u3, fragment) := split_once "#" u2 in let '(path, query) := split_once "?" u3 in Ok (lower sc, netloc, path, opt_or query [], opt_or fragment []) end) = 
     (let '(scheme, u1) := (lower sc, r) in let '(netloc, u2) := split_netloc u1 in if xorb (str_has "[" netloc) (str_has "]" netloc) then Err ValueError else
        let '(u3, fragment) := split_once "#" u2 in let '(path, query) := split_once "?" u3 in Ok (scheme, netloc, path, opt_or query [], opt_or fragment []))
     /\ u_scheme u = lower sc).
  { assert (NO : forall w, (do (scheme, netloc, path, query, fragment) <- (let '(netloc, u2) := split_netloc w in if xorb (str_has "[" netloc) (str_has "]" netloc) then Err ValueError else
        let '(u3, fragment) := split_once "#" u2 in let '(path, query) := split_once "?" u3 in Ok (@nil ascii, netloc, path, opt_or query [], opt_or fragment []));
        if str_has ":" netloc then match split_on ":" netloc with [host; port] => if all_digits port then Ok (Url scheme host (read_N port) path query fragment) else Err ValueError | _ => Err ValueError end
        else Ok (Url scheme netloc (if str_eqb scheme "http" then 80 else 443)%N path query fragment)) = Ok u -> False).
    { intros w E. apply NS. destruct (split_netloc w) as [nl u2]. destruct (xorb _ _); [discriminate|]. destruct (split_once "#" u2) as [u3 fr]. destruct (split_once "?" u3) as [pa qu]. cbn [bind] in E.
      destruct (str_has ":" nl); [|injection E as <-; reflexivity]. destruct (split_on ":" nl) as [|h [|p [|]]]; try discriminate. destruct (all_digits p); [|discriminate]. injection E as <-. reflexivity. }
    destruct ro as [r|]; [|exfalso; exact (NO _ H)]. destruct sc as [|c s]; [exfalso; exact (NO _ H)|]. destruct (is_alpha c && forallb is_scheme_char (c :: s)) eqn:E; [|exfalso; exact (NO _ H)].
    apply andb_true_iff in E. destruct E as [E1 E2]. exists r. split; [reflexivity|]. split; [exists c, s; auto|]. split; [exact E2|]. split; [reflexivity|].
    destruct (split_netloc r) as [nl u2]. destruct (xorb _ _); [discriminate|]. destruct (split_once "#" u2) as [u3 fr]. destruct (split_once "?" u3) as [pa qu]. cbn [bind] in H.
    destruct (str_has ":" nl); [|injection H as <-; reflexivity]. destruct (split_on ":" nl) as [|h [|p [|]]]; try discriminate. destruct (all_digits p); [|discriminate]. injection H as <-. reflexivity. }
  destruct SCH as (r & -> & (c & s & -> & EA) & SC & _ & EU). destruct S1 as [_ S1]. rewrite EA, SC in H. cbn [andb] in H.
  rewrite S1, forallb_app in CS. apply andb_true_iff in CS. destruct CS as [_ CS]. cbn [forallb] in CS. apply andb_true_iff in CS. destruct CS as [_ CS].
  assert (NL : let '(nl, u2) := split_netloc r in forallb (fun c => negb (netloc_stop c)) nl = true /\ forallb (fun c => negb (is_unsafe c)) nl = true /\ forallb (fun c => negb (is_unsafe c)) u2 = true).
  { assert (D : split_netloc r = ([], r) \/ exists r', r = "/"%char :: "/"%char :: r' /\ split_netloc r = span (fun c => negb (netloc_stop c)) r').
    { destruct r as [|x [|y r']]; [left; reflexivity|left; cbn; destruct x as [[][][][][][][][]]; reflexivity|].
      destruct (Ascii.eqb x "/") eqn:E1; [|left; by_char x]. destruct (Ascii.eqb y "/") eqn:E2; [|left; apply Ascii.eqb_eq in E1; subst x; by_char y].
      apply Ascii.eqb_eq in E1, E2. subst. right. exists r'. auto. }
    destruct D as [D|(r' & -> & D)]; rewrite D; [auto|]. pose proof (span_spec (fun c => negb (netloc_stop c)) r') as SP. destruct (span _ r') as [a b]. destruct SP as (-> & A1 & _).
    change (forallb (fun c => negb (is_unsafe c)) (a ++ b) = true) in CS. rewrite forallb_app in CS. apply andb_true_iff in CS. tauto. }
  destruct (split_netloc r) as [nl u2]. destruct NL as (N1 & N2 & N3). destruct (xorb (str_has "[" nl) (str_has "]" nl)) eqn:XB; [discriminate|].
  pose proof (split_once_spec "#" u2) as SF. destruct (split_once "#" u2) as [u3 fr]. destruct SF as [F1 F2].
  pose proof (split_once_spec "?" u3) as SQ. destruct (split_once "?" u3) as [pa qu]. destruct SQ as [Q1 Q2]. cbn [bind] in H.
  rewrite F2, forallb_app in N3. apply andb_true_iff in N3. destruct N3 as [N3 N4]. rewrite Q2, forallb_app in N3. apply andb_true_iff in N3. destruct N3 as [N3 N5].
  rewrite Q2, forallb_app in F1. apply andb_true_iff in F1. destruct F1 as [F1 F3].
  assert (XH : forall h, (forall x, In x h -> In x nl) -> (str_has "[" h = str_has "]" h) -> (~ In ":"%char h) -> u_host u = h -> u_path u = pa -> u_query u = opt_or qu [] -> u_fragment u = opt_or fr [] -> wf_url u).
  { intros h IH BH NC E1 E2 E3 E4. constructor.
    - exists (lower_char c), (lower s). split; [exact EU|apply lower_alpha, EA].
    - rewrite EU. unfold lower. rewrite forallb_forall. intros x I. apply in_map_iff in I. destruct I as (y & <- & I). apply lower_scheme. exact (proj1 (forallb_forall _ _) SC y I).
    - rewrite EU. unfold lower. rewrite map_map. apply map_ext. apply lower_lower.
    - rewrite E1. apply forallb_forall. intros x I. apply andb_true_iff. split; [exact (proj1 (forallb_forall _ _) N1 x (IH x I))|]. apply negb_true_iff. apply Ascii.eqb_neq. intros ->. contradiction.
    - rewrite E1. exact BH.
    - exact HP.
    - rewrite E2. apply forallb_forall. intros x I. apply andb_true_iff. split; [exact (proj1 (forallb_forall _ _) Q1 x I)|exact (proj1 (forallb_forall _ _) F1 x I)].
    - rewrite E3. destruct qu as [q|]; [|reflexivity]. cbn [opt_or]. cbn [forallb] in F3. apply andb_true_iff in F3. apply F3.
    - rewrite E1, E2, E3, E4, !forallb_app, N3. apply andb_true_iff. split; [apply forallb_forall; intros x I; exact (proj1 (forallb_forall _ _) N2 x (IH x I))|]. cbn [andb]. apply andb_true_iff. split.
      + destruct qu as [q|]; [|reflexivity]. cbn [forallb opt_or] in *. apply andb_true_iff in N5. apply N5.
      + destruct fr as [f|]; [|reflexivity]. cbn [forallb opt_or] in *. apply andb_true_iff in N4. apply N4. }
  apply xorb_eq in XB. destruct (str_has ":" nl) eqn:EC.
  - destruct (split_on ":" nl) as [|h [|p [|]]] eqn:EN; try discriminate. destruct (all_digits p) eqn:EP; [|discriminate]. injection H as <-.
    assert (EJ : nl = h ++ ":"%char :: p) by (rewrite <- (join_split ":" nl), EN; cbn; reflexivity).
    assert (DP : forall x, In x p -> is_digit x = true).
    { unfold all_digits in EP. destruct p; [discriminate|]. exact (proj1 (forallb_forall _ _) EP). }
    apply (XH h); try reflexivity.
    + intros x I. rewrite EJ. apply in_app_iff. left. exact I.
    + rewrite EJ, !str_has_app in XB. assert (Z : forall b, (b = "[" \/ b = "]")%char -> str_has b (":"%char :: p) = false).
      { intros b Hb. destruct (str_has b _) eqn:E; [|reflexivity]. apply str_has_in in E. destruct E as [E|E]; [destruct Hb as [-> | ->]; discriminate|]. apply DP in E. destruct Hb as [-> | ->]; discriminate. }
      rewrite !Z, !orb_false_r in XB by auto. exact XB.
    + apply (split_on_no_char ":" nl). rewrite EN. left. reflexivity.
  - injection H as <-. apply (XH nl); auto. intro I. apply str_has_in in I. congruence.
Qed.
Lemma url_reparse : forall t u, url_parse t = Ok u -> u_scheme u <> [] -> (u_path u = [] \/ exists r, u_path u = "/"%char :: r) -> url_parse (show_url u) = Ok u.
Proof. intros t u H NS HP. apply url_round. exact (url_parse_wf t u H NS HP). Qed.

(** ** The entry of a url *)
Definition refreshing (f : fstate) : Prop := forall d p, f = FIdle d \/ f = FPerform p d -> is_cache_valid d = false.
Definition live (s : fclient) : Prop := forall p, in_progress s = Some p -> exists i, active (caller s i) p.
Lemma live_step : forall s i dl, live s -> (forall j, refreshing (caller s j)) -> finv2 s ->
  live (fetch_step s i dl false) /\ forall j, refreshing (caller (fetch_step s i dl false) j).
Proof.
  intros s i dl L R V. unfold fetch_step. destruct (Nat.lt_ge_cases i (length (callers s))) as [LI|LI].
  2:{ rewrite nth_overflow by exact LI. split; assumption. }
  assert (C' : forall ip pm se st sv x j, caller (FC ip pm se st sv (put_nth (callers s) i x)) j = if Nat.eqb j i then x else caller s j).
  { intros. unfold caller. cbn [callers]. apply nth_put, LI. }
  fold (caller s i).
  assert (RR : forall ip pm se st sv x, refreshing x -> forall j, refreshing (caller (FC ip pm se st sv (put_nth (callers s) i x)) j)).
  { intros ip pm se st sv x HX j. rewrite C'. destruct (Nat.eqb j i); [exact HX|apply R]. }
  assert (TR : forall x, (match x with FWait _ | FEnd _ | FAborted | FDeliver _ _ | FDownload _ => True | _ => False end) -> refreshing x).
  { intros x HX d p [-> | ->]; contradiction. }
  assert (KEEP : forall pm se st sv x, (forall p, ~ active (caller s i) p) -> live (FC (in_progress s) pm se st sv (put_nth (callers s) i x))).
  { intros pm se st sv x NA p H. cbn [in_progress] in H. destruct (L p H) as (j & A). exists j. rewrite C'. destruct (Nat.eqb j i) eqn:E; [|exact A]. apply Nat.eqb_eq in E. subst j. exfalso. exact (NA p A). }
  pose proof (R i) as RI. destruct (caller s i) as [d|p d|p|p ok|p|ok|] eqn:EI.
  - assert (NA : forall p, ~ active (FIdle d) p) by (intros p [(d' & A)|A]; discriminate).
    destruct (in_progress s) as [p|] eqn:EP.
    + split; [apply KEEP, NA|apply RR, TR, I].
    + cbv zeta. split.
      * intros p H. cbn [in_progress] in H. injection H as <-. exists i. rewrite C', Nat.eqb_refl. left. exists d. reflexivity.
      * apply RR. intros d' p [X|X]; [discriminate|]. injection X as _ <-. apply (RI d 0). left. reflexivity.
  - rewrite (RI d p (or_intror eq_refl)), andb_false_r. split; [|apply RR, TR, I].
    intros q H. cbn [in_progress] in H. destruct (L q H) as (j & A). exists j. rewrite C'. destruct (Nat.eqb j i) eqn:E; [|exact A]. apply Nat.eqb_eq in E. subst j. rewrite EI in A.
    destruct A as [(d' & A)|A]; [|discriminate]. injection A as -> _. right. reflexivity.
  - destruct dl; (split; [intros q H; discriminate|apply RR, TR, I]).
  - split; [apply KEEP; intros q [(d' & A)|A]; discriminate|apply RR, TR, I].
  - destruct (settled_of _ _); [|split; [exact L|exact R]]. split; [apply KEEP; intros q [(d' & A)|A]; discriminate|apply RR, TR, I].
  - split; assumption.
  - split; assumption.
Qed.
Definition good_info (sched : list (nat * download * bool)) : Prop := Forall (fun e => snd e = false) sched.
Lemma live_run : forall sched s, live s -> (forall j, refreshing (caller s j)) -> finv2 s -> good_info sched ->
  live (fetch_run s sched) /\ forall j, refreshing (caller (fetch_run s sched) j).
Proof.
  induction sched as [|[[i dl] bad] sched IH]; intros s L R V G; [split; assumption|]. inversion G as [|? ? G1 G2]; subst. cbn in G1. subst bad.
  cbn [fetch_run fold_left fst snd]. destruct (live_step s i dl L R V) as [L' R']. apply IH; [exact L'|exact R'|apply finv2_step, V|exact G2].
Qed.
Lemma refresh_asks : forall st ds sched i d dl, Forall (fun d => is_cache_valid d = false) ds -> good_info sched ->
  (forall j p, ~ active (caller (fetch_run (fetch_start st ds) sched) j) p) -> caller (fetch_run (fetch_start st ds) sched) i = FIdle d ->
  let s := fetch_run (fetch_start st ds) sched in
  server (fetch_run s [(i, dl, false); (i, dl, false)]) = S (server s).
Proof.
  intros st ds sched i d dl HD G NA EI s. destruct (live_run sched (fetch_start st ds)) as [L R].
  - intros p H. discriminate.
  - intros j d' p H. unfold caller, fetch_start in H. cbn [callers] in H. destruct (Nat.lt_ge_cases j (length ds)) as [LJ|LJ].
    + rewrite (nth_indep _ (FEnd true) (FIdle DAlways)), map_nth in H by (rewrite map_length; exact LJ). destruct H as [H|H]; [|discriminate]. injection H as <-.
      exact (proj1 (Forall_forall _ _) HD _ (nth_In _ _ LJ)).
    + rewrite nth_overflow in H by (rewrite map_length; exact LJ). destruct H; discriminate.
  - apply finv2_start.
  - exact G.
  - fold s in NA, EI, L, R. clearbody s. assert (IP : in_progress s = None).
    { destruct (in_progress s) as [p|] eqn:E; [|reflexivity]. destruct (L p E) as (j & A). exfalso. exact (NA j p A). }
    assert (VD : is_cache_valid d = false) by (apply (R i d 0); left; exact EI).
    assert (LI : i < length (callers s)). { destruct (Nat.lt_ge_cases i (length (callers s))) as [X|X]; [exact X|]. unfold caller in EI. rewrite nth_overflow in EI by exact X. discriminate. }
    cbn [fetch_run fold_left fst snd]. unfold fetch_step at 2. fold (caller s i). rewrite EI, IP. cbv zeta. unfold fetch_step. cbn [callers]. rewrite nth_put, Nat.eqb_refl by exact LI. rewrite VD, andb_false_r. reflexivity.
Qed.
Lemma stale_forever : forall sched s p, in_progress s = Some p -> (forall i q, ~ active (caller s i) q) -> server (fetch_run s sched) = server s.
Proof.
  induction sched as [|[[i dl] bad] sched IH]; intros s p IP NA; [reflexivity|]. cbn [fetch_run fold_left fst snd].
  destruct (Nat.lt_ge_cases i (length (callers s))) as [LI|LI].
  2:{ assert (E : fetch_step s i dl bad = s) by (unfold fetch_step; rewrite nth_overflow by exact LI; reflexivity). rewrite E. exact (IH s p IP NA). }
  assert (G : forall pm se st x, (match x with FWait _ | FEnd _ | FAborted | FDeliver _ _ => True | _ => False end) ->
     server (fetch_run (FC (in_progress s) pm se st (server s) (put_nth (callers s) i x)) sched) = server s).
  { intros pm se st x HX. change (server s) with (server (FC (in_progress s) pm se st (server s) (put_nth (callers s) i x))) at 2. apply (IH _ p); [exact IP|].
    intros j q A. unfold caller in A. cbn [callers] in A. rewrite nth_put in A by exact LI. destruct (Nat.eqb j i); [destruct A as [(d & ->)| ->]; contradiction|exact (NA j q A)]. }
  change (server (fetch_run (fetch_step s i dl bad) sched) = server s). unfold fetch_step. fold (caller s i). pose proof (NA i) as NI.
  destruct (caller s i) as [d|q d|q|q ok|q|ok|] eqn:EI.
  - pose proof IP as IP'. destruct (in_progress s) as [q|]; [|discriminate]. apply (G (promises_made s) (settled_p s) (stored s) (FWait q) I).
  - exfalso. apply (NI q). left. exists d. reflexivity.
  - exfalso. apply (NI q). right. reflexivity.
  - apply (G (promises_made s) ((q, ok) :: settled_p s) (stored s) (FWait q) I).
  - destruct (settled_of _ _) as [ok|]; [apply (G (promises_made s) (settled_p s) (stored s) (FEnd ok) I)|exact (IH s p IP NA)].
  - exact (IH s p IP NA).
  - exact (IH s p IP NA).
Qed.
