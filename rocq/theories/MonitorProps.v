(** Properties of monitors (C205-C208) *)
From Coq Require Import List Bool NArith Ascii String Arith Lia.
From Verif Require Import Base BaseFacts ParserModel MonitorModel MonitorProofs.
Import ListNotations.
Open Scope string_scope. Open Scope nat_scope. Open Scope list_scope. Open Scope bool_scope.

(** ** C205: listening *)
(** blocks that only listen, one after the other or one in the other *)
Inductive blocks : (callbacks -> callbacks) -> Prop :=
| blocks_none : blocks (fun c => c)
| blocks_next : forall f g, blocks f -> blocks g -> blocks (fun c => g (f c))
| blocks_in : forall ls f, blocks f -> blocks (listen ls f).
(** after such blocks every class has the callback it had before *)
Theorem C205_restored_partial : forall f, blocks f -> forall c t, callback_of t (f c) = callback_of t c.
Proof.
  intros f B. induction B as [|f g _ IF _ IG|ls f _ IH]; intros c t; [reflexivity|rewrite IG; apply IF|].
  unfold listen, restore. set (new := create_callbacks c ls). assert (N : NoDup (map fst new)) by (apply create_nodup; constructor).
  rewrite (fold_callback cb_parent) by exact N. destruct (dict_get t new) as [x|] eqn:G.
  - apply (create_parent c ls [] ltac:(discriminate) t x G).
  - rewrite IH. unfold install. rewrite (fold_callback (fun x => Some x)) by exact N. rewrite G. reflexivity.
Qed.
(** in the block the last listener of a class is told of it, and of a class without listeners those are told that were told before *)
Theorem C205_told : forall a l b cur t m, listens l t m -> (m = MEnter \/ m = MWith) -> (forall l' m', In l' b -> listens l' t m' -> m' = MLeave \/ m' = MFail) ->
  exists c, callback_of t (add_listeners (a ++ l :: b) cur) = Some c /\ cb_enter c = Some (match m with MWith => OfGen (l_method l) | _ => Direct (l_method l) end).
Proof.
  intros a l b cur t m L M B. unfold add_listeners, install, create_callbacks. rewrite (fold_callback (fun x => Some x)) by (apply create_nodup; constructor).
  rewrite fold_left_app. cbn [fold_left]. set (acc := fold_left (add_listener cur) a []).
  assert (H0 : exists c, dict_get t (add_listener cur acc l) = Some c /\ cb_enter c = Some (match m with MWith => OfGen (l_method l) | _ => Direct (l_method l) end)).
  { destruct L as (C & A & N). apply mode_spec in N. rewrite add_spec, N, C, A, str_eqb_refl. eexists. split; [reflexivity|]. destruct (match dict_get t acc with Some c => c | None => CB (callback_of t cur) None None None end). destruct M as [->| ->]; reflexivity. }
  revert H0. generalize (add_listener cur acc l) as d. clear acc L. induction b as [|l' b IH]; intros d (c & G & E); [exists c; cbn [fold_left]; rewrite G; auto|].
  cbn [fold_left]. apply IH; [intros x y I; apply B; right; exact I|]. rewrite add_spec. destruct (mode_of (l_name l')) as [m'|] eqn:N; [|exists c; auto]. destruct (l_callable l') eqn:C; [|exists c; auto].
  destruct (l_arg l') as [[u|]|] eqn:A; try (exists c; split; assumption). destruct (str_eqb t u) eqn:Q; [|exists c; auto]. apply str_eqb_eq in Q. subst u. rewrite G. eexists. split; [reflexivity|].
  assert (X : m' = MLeave \/ m' = MFail) by (apply (B l' m' (or_introl eq_refl)); split; [exact C|split; [exact A|apply mode_spec, N]]). destruct c; cbn in *. destruct X as [->| ->]; exact E.
Qed.
Theorem C205_others : forall ls cur t, (forall l m, In l ls -> ~ listens l t m) -> callback_of t (add_listeners ls cur) = callback_of t cur.
Proof.
  intros ls cur t N. unfold add_listeners, install. rewrite (fold_callback (fun x => Some x)) by (apply create_nodup; constructor). unfold create_callbacks. rewrite create_none by exact N. reflexivity.
Qed.
Print Assumptions C205_restored_partial. Print Assumptions C205_told. Print Assumptions C205_others.
Definition on_line (h : N) : listener := Listener (lit "on_line") true (Some (Some (lit "Line"))) h.
Example C205_sample : listens (on_line 1) "Line" MEnter /\ blocks (listen [on_line 1] (listen [on_line 2] (fun c => c))) /\
  callback_of (lit "Line") (listen [on_line 1] (listen [on_line 2] (fun c => c)) (add_listeners [on_line 7] [])) = Some (CB None (Some (Direct 7)) None None).
Proof. split; [split; [reflexivity|split; [reflexivity|exists (lit "on_"), (lit "line"); cbn; auto]]|]. split; [|reflexivity]. do 2 apply blocks_in. apply blocks_none. Qed.
(** the listeners of a block that ends before a block that began in it come back when that ends *)
Theorem C205_overlap_refuted : let c0 := [] in let n1 := create_callbacks c0 [on_line 1] in let c1 := install n1 c0 in let n2 := create_callbacks c1 [on_line 2] in let c2 := install n2 c1 in
  let c3 := restore n1 c2 in let c4 := restore n2 c3 in
  callback_of (lit "Line") c0 = None /\ callback_of (lit "Line") c3 = None /\ exists c, callback_of (lit "Line") c4 = Some c /\ cb_enter c = Some (Direct 1).
Proof. cbv zeta. split; [reflexivity|]. split; [reflexivity|]. eexists. split; reflexivity. Qed.
(** listeners that are added for good in a block are gone after it *)
Theorem C205_added_refuted : callback_of (lit "Line") (listen [on_line 1] (add_listeners [on_line 2]) []) = None.
Proof. reflexivity. Qed.

(** ** C206: monitors do not change what is monitored *)
(** what a program does by itself *)
Fixpoint alone (p : prog) : res unit :=
  match p with
  | Raise e => Err e
  | Attempt _ | Notify _ _ _ => Ok tt
  | With _ _ b | Enter _ _ b => fold_right (fun p r => match alone p with Err e => Err e | Ok _ => r end) (Ok tt) b
  end.
(** programs with operations only *)
Inductive operations : prog -> Prop :=
| op_raise : forall e, operations (Raise e)
| op_attempt : forall b, Forall operations b -> operations (Attempt b)
| op_notify : forall o t x, operations (Notify o t x)
| op_with : forall t x b, Forall operations b -> operations (With t x b).
(** listeners that raise nothing of their own *)
Record harmless (start : N -> N -> option gen_result) (resume : N -> N -> gen_result) (throw : N -> N -> exn -> gen_result) (on_enter on_leave : N -> N -> option exn) (on_fail : N -> N -> exn -> option exn) : Prop :=
  { h_start : forall h x e, start h x <> Some (Raises e); h_resume : forall h x e, resume h x <> Raises e; h_throw : forall h x e, throw h x e = Raises e \/ throw h x e = Yields;
    h_enter : forall h x, on_enter h x = None; h_leave : forall h x, on_leave h x = None; h_fail : forall h x e, on_fail h x e = None }.
(** every class that is listened to at all is listened to when it happens *)
Definition complete (c : callbacks) : Prop := forall t x, callback_of t c = Some x -> cb_enter x <> None.

Section Runs.
  Variables (start : N -> N -> option gen_result) (resume : N -> N -> gen_result) (throw : N -> N -> exn -> gen_result) (on_enter on_leave : N -> N -> option exn) (on_fail : N -> N -> exn -> option exn).
  Variables (global : callbacks) (own : N -> callbacks).
  Local Notation RUN := (run start resume throw on_enter on_leave on_fail global own).
  Local Notation RUNS := (run_all start resume throw on_enter on_leave on_fail global own).
  Local Notation ENTER := (call_enter start on_enter).
  Local Notation LEAVE := (call_leave resume on_leave).
  Local Notation FAIL := (call_fail throw on_fail).
  Lemma run_op : forall t x b s, RUN (With t x b) s = run_with start resume throw on_enter on_leave on_fail global t x (RUNS b) s.
  Proof. reflexivity. Qed.
  Lemma run_enter_eq : forall t x b s, RUN (Enter t x b) s = run_enter start resume throw on_enter on_leave on_fail global t x (RUNS b) s.
  Proof. reflexivity. Qed.
  Lemma run_attempt : forall b s, RUN (Attempt b) s = (Ok tt, snd (RUNS b s)).
  Proof. reflexivity. Qed.

Theorem C206_same_partial : harmless start resume throw on_enter on_leave on_fail -> complete global -> (forall o, complete (own o)) -> forall p, operations p -> forall s, fst (RUN p s) = alone p.
  Proof.
    intros H CG CO. assert (HE : forall m x s, fst (ENTER m x s) = Ok tt). { intros [h|h] x s; cbn; [rewrite (h_enter _ _ _ _ _ _ H); reflexivity|]. pose proof (h_start _ _ _ _ _ _ H h x) as X. destruct (start h x) as [[| |e]|]; try reflexivity. exfalso. apply (X e eq_refl). }
    assert (HL : forall m x s, fst (LEAVE m x s) = Ok tt). { intros [h|h] x s; cbn; [rewrite (h_leave _ _ _ _ _ _ H); reflexivity|]. destruct (suspended h x s); [|reflexivity]. cbn. pose proof (h_resume _ _ _ _ _ _ H h x) as X. destruct (resume h x); try reflexivity. exfalso. apply (X e eq_refl). }
    assert (HF : forall m x e s, fst (FAIL m x e s) = Ok tt \/ fst (FAIL m x e s) = Err e). { intros [h|h] x e s; cbn; [rewrite (h_fail _ _ _ _ _ _ H); auto|]. destruct (suspended h x s); [|auto]. cbn. destruct (h_throw _ _ _ _ _ _ H h x e) as [->| ->]; auto. }
    intros p. induction p as [e|b IH|o t x|t x b IH|t x b IH] using prog_rect'; intros OP s.
    - reflexivity.
    - reflexivity.
    - assert (X : forall c, complete c -> fst (notify start on_enter c t x s) = Ok tt). { intros c C. unfold notify. destruct (callback_of t c) as [cb|] eqn:E; [|reflexivity]. pose proof (C t cb E) as N. destruct (cb_enter cb); [apply HE|contradiction]. }
      destruct o; cbn; apply X; auto.
    - inversion OP as [| | |t' x' b' FO]; subst. rewrite run_op. unfold run_with.
      assert (B : forall s, fst (RUNS b s) = fold_right (fun p r => match alone p with Err e => Err e | Ok _ => r end) (Ok tt) b).
      { clear OP s. induction b as [|p b IB]; intros s; [reflexivity|]. inversion IH; subst. inversion FO; subst. cbn [run_all fold_right]. specialize (H2 H4 s). destruct (RUN p s) as [[u|e] s']; cbn in H2; rewrite <- H2; [apply IB; assumption|reflexivity]. }
      change (alone (With t x b)) with (fold_right (fun p r => match alone p with Err e => Err e | Ok _ => r end) (Ok tt) b).
      assert (SE : forall s, fst (slot (callback_of t global) cb_enter (fun m => ENTER m x) s) = Ok tt) by (intros s'; unfold slot; destruct (callback_of t global) as [c|]; [|reflexivity]; destruct (cb_enter c); [apply HE|reflexivity]).
      specialize (SE s). destruct (slot (callback_of t global) cb_enter (fun m => ENTER m x) s) as [r0 s0]. cbn in SE. subst r0. specialize (B s0). destruct (RUNS b s0) as [r s1]. cbn in B. rewrite <- B.
      assert (SF : forall e s, fst (slot (callback_of t global) cb_fail (fun m => FAIL m x e) s) = Ok tt \/ fst (slot (callback_of t global) cb_fail (fun m => FAIL m x e) s) = Err e) by (intros e s'; unfold slot; destruct (callback_of t global) as [c|]; [|auto]; destruct (cb_fail c); [apply HF|auto]).
      assert (SL : forall s, fst (slot (callback_of t global) cb_leave (fun m => LEAVE m x) s) = Ok tt) by (intros s'; unfold slot; destruct (callback_of t global) as [c|]; [|reflexivity]; destruct (cb_leave c); [apply HL|reflexivity]).
      destruct r as [[]|e].
      + specialize (SL s1). destruct (slot (callback_of t global) cb_leave (fun m => LEAVE m x) s1) as [r2 s2]. cbn in SL. subst. reflexivity.
      + specialize (SF e s1). destruct (slot (callback_of t global) cb_fail (fun m => FAIL m x e) s1) as [r2 s2]. cbn in SF. destruct SF as [->| ->]; [|reflexivity].
        specialize (SL s2). destruct (slot (callback_of t global) cb_leave (fun m => LEAVE m x) s2) as [r3 s3]. cbn in SL. subst. reflexivity.
    - inversion OP.
  Qed.

  (** the calls are only ever added to *)
  Lemma enter_calls : forall m x s, exists l, st_calls (snd (ENTER m x s)) = st_calls s ++ l.
  Proof. intros [h|h] x s; cbn; [eexists; reflexivity|]. destruct (start h x) as [[| |e]|]; eexists; reflexivity. Qed.
  Lemma leave_calls : forall m x s, exists l, st_calls (snd (LEAVE m x s)) = st_calls s ++ l.
  Proof. intros [h|h] x s; cbn; [eexists; reflexivity|]. destruct (suspended h x s); [eexists; reflexivity|exists []; cbn; symmetry; apply app_nil_r]. Qed.
  Lemma fail_calls : forall m x e s, exists l, st_calls (snd (FAIL m x e s)) = st_calls s ++ l.
  Proof. intros [h|h] x e s; cbn; [eexists; reflexivity|]. destruct (suspended h x s); [eexists; reflexivity|exists []; cbn; symmetry; apply app_nil_r]. Qed.
  Lemma slot_calls : forall o g f, (forall m s, exists l, st_calls (snd (f m s)) = st_calls s ++ l) -> forall s, exists l, st_calls (snd (slot o g f s)) = st_calls s ++ l.
  Proof. intros o g f H s. unfold slot. destruct o as [c|]; [destruct (g c); [apply H|]|]; exists []; cbn; symmetry; apply app_nil_r. Qed.
  Definition grows (s s' : state) : Prop := exists l, st_calls s' = st_calls s ++ l.
  Lemma grows_trans : forall a b c, grows a b -> grows b c -> grows a c.
  Proof. intros a b c (l & L) (k & K). exists (l ++ k). rewrite K, L, app_assoc. reflexivity. Qed.
  Lemma grows_refl : forall a, grows a a.
  Proof. intros a. exists []. symmetry. apply app_nil_r. Qed.
  Lemma run_grows : forall p s, grows s (snd (RUN p s)).
  Proof.
    assert (SE : forall o x s, grows s (snd (slot o cb_enter (fun m => ENTER m x) s))) by (intros; apply slot_calls; intros; apply enter_calls).
    assert (SL : forall o x s, grows s (snd (slot o cb_leave (fun m => LEAVE m x) s))) by (intros; apply slot_calls; intros; apply leave_calls).
    assert (SF : forall o x e s, grows s (snd (slot o cb_fail (fun m => FAIL m x e) s))) by (intros; apply slot_calls; intros; apply fail_calls).
    intros p. induction p as [e|b IH|o t x|t x b IH|t x b IH] using prog_rect'; intros s.
    - apply grows_refl.
    - rewrite run_attempt. cbn [snd]. revert s. induction b as [|p b IB]; intros s; [apply grows_refl|]. inversion IH; subst. cbn [run_all]. specialize (H1 s). destruct (RUN p s) as [[u|e] s']; [eapply grows_trans; [exact H1|apply IB; assumption]|exact H1].
    - assert (X : forall c, grows s (snd (notify start on_enter c t x s))). { intros c. unfold notify. destruct (callback_of t c) as [cb|]; [|apply grows_refl]. destruct (cb_enter cb); [apply enter_calls|apply grows_refl]. }
      destruct o; cbn; apply X.
    - assert (B : forall s, grows s (snd (RUNS b s))). { clear s. induction b as [|p b IB]; intros s; [apply grows_refl|]. inversion IH; subst. cbn [run_all]. specialize (H1 s). destruct (RUN p s) as [[u|e] s']; [eapply grows_trans; [exact H1|apply IB; assumption]|exact H1]. }
      rewrite run_op. unfold run_with. specialize (SE (callback_of t global) x s). destruct (slot (callback_of t global) cb_enter (fun m => ENTER m x) s) as [[u|e0] s0]; [|exact SE]. cbn [snd] in SE.
      specialize (B s0). destruct (RUNS b s0) as [r s1]. cbn [snd] in B. destruct r as [u1|e].
      + specialize (SL (callback_of t global) x s1). destruct (slot (callback_of t global) cb_leave (fun m => LEAVE m x) s1) as [r2 s2]. eapply grows_trans; [exact SE|]. eapply grows_trans; [exact B|exact SL].
      + specialize (SF (callback_of t global) x e s1). destruct (slot (callback_of t global) cb_fail (fun m => FAIL m x e) s1) as [r2 s2]. cbn [snd] in SF. destruct r2; [|eapply grows_trans; [exact SE|]; eapply grows_trans; [exact B|exact SF]].
        specialize (SL (callback_of t global) x s2). destruct (slot (callback_of t global) cb_leave (fun m => LEAVE m x) s2) as [r3 s3]. eapply grows_trans; [exact SE|]. eapply grows_trans; [exact B|]. eapply grows_trans; [exact SF|exact SL].
    - assert (B : forall s, grows s (snd (RUNS b s))). { clear s. induction b as [|p b IB]; intros s; [apply grows_refl|]. inversion IH; subst. cbn [run_all]. specialize (H1 s). destruct (RUN p s) as [[u|e] s']; [eapply grows_trans; [exact H1|apply IB; assumption]|exact H1]. }
      rewrite run_enter_eq. unfold run_enter. specialize (SE (callback_of t global) x s). destruct (slot (callback_of t global) cb_enter (fun m => ENTER m x) s) as [[u|e0] s0]; cbn [snd] in SE.
      + specialize (B s0). destruct (RUNS b s0) as [r s1]. cbn [snd] in B. assert (G1 : grows s s1) by (eapply grows_trans; eassumption). clear SE B. destruct r as [u1|e].
        * specialize (SL (callback_of t global) x s1). destruct (slot (callback_of t global) cb_leave (fun m => LEAVE m x) s1) as [r2 s2]. eapply grows_trans; eassumption.
        * specialize (SF (callback_of t global) x e s1). destruct (slot (callback_of t global) cb_fail (fun m => FAIL m x e) s1) as [r2 s2]. specialize (SL (callback_of t global) x s2). destruct (slot (callback_of t global) cb_leave (fun m => LEAVE m x) s2) as [r3 s3]. eapply grows_trans; [exact G1|]. eapply grows_trans; eassumption.
      + specialize (SF (callback_of t global) x e0 s0). destruct (slot (callback_of t global) cb_fail (fun m => FAIL m x e0) s0) as [r2 s2]. specialize (SL (callback_of t global) x s2). destruct (slot (callback_of t global) cb_leave (fun m => LEAVE m x) s2) as [r3 s3]. eapply grows_trans; [exact SE|]. eapply grows_trans; eassumption.
  Qed.
  Lemma runs_grows : forall b s, grows s (snd (RUNS b s)).
  Proof. induction b as [|p b IH]; intros s; [apply grows_refl|]. cbn [run_all]. pose proof (run_grows p s) as G. destruct (RUN p s) as [[u|e] s']; [eapply grows_trans; [exact G|apply IH]|exact G]. Qed.

  (** an operation is reported by its beginning, then what happens in it, its failure if it fails, and its end *)
Theorem C206_order : forall t x c a f z, callback_of t global = Some c -> cb_enter c = Some (Direct a) -> cb_fail c = Some (Direct f) -> cb_leave c = Some (Direct z) ->
    (forall h y, on_enter h y = None) -> (forall h y e, on_fail h y e = None) -> forall b s, exists inner r,
    fst (RUNS b (log (Entered a x) s)) = r /\ st_calls (snd (RUNS b (log (Entered a x) s))) = st_calls s ++ Entered a x :: inner /\
    st_calls (snd (RUN (With t x b) s)) = st_calls s ++ Entered a x :: inner ++ (match r with Err e => [Failed f x e] | Ok _ => [] end) ++ [Left z x].
  Proof.
    intros t x c a f z G E F Z OE OF b s. destruct (runs_grows b (log (Entered a x) s)) as (inner & I). exists inner, (fst (RUNS b (log (Entered a x) s))). split; [reflexivity|].
    cbn [log st_calls] in I. rewrite <- app_assoc in I. cbn [app] in I. split; [exact I|]. rewrite run_op. unfold run_with, slot. rewrite G, E. cbn [call_enter]. rewrite OE. cbn [raised]. destruct (RUNS b (log (Entered a x) s)) as [r s1]. cbn [fst snd] in *.
    rewrite F, Z. destruct r as [u|e].
    - cbn [call_leave snd log st_calls]. rewrite I. rewrite <- app_assoc. reflexivity.
    - cbn [call_fail]. rewrite OF. cbn [raised call_leave snd log st_calls]. rewrite I. rewrite <- !app_assoc. reflexivity.
  Qed.

  (** ** C207: generators as listeners *)
  (** the listeners of an operation are one generator, or no generators *)
  Definition whole (o : option callback) : Prop := forall c, o = Some c ->
    (exists h, cb_enter c = Some (OfGen h) /\ cb_leave c = Some (OfGen h) /\ cb_fail c = Some (OfGen h)) \/
    (forall h, cb_enter c <> Some (OfGen h) /\ cb_leave c <> Some (OfGen h) /\ cb_fail c <> Some (OfGen h)).
  Definition no_generator (o : option callback) : Prop := forall c h, o = Some c -> cb_enter c <> Some (OfGen h).
  (** no operation is entered while it runs; [running]: those that run *)
  Inductive fresh : list N -> prog -> Prop :=
  | f_raise : forall u e, fresh u (Raise e)
  | f_attempt : forall u b, Forall (fresh u) b -> fresh u (Attempt b)
  | f_global : forall u t x, no_generator (callback_of t global) -> fresh u (Notify None t x)
  | f_own : forall u o t x, no_generator (callback_of t (own o)) -> fresh u (Notify (Some o) t x)
  | f_with : forall u t x b, ~ In x u -> whole (callback_of t global) -> Forall (fresh (x :: u)) b -> fresh u (With t x b)
  | f_enter : forall u t x b, ~ In x u -> whole (callback_of t global) -> Forall (fresh (x :: u)) b -> fresh u (Enter t x b).
  Definition sus (s s' : state) : Prop := forall h x, suspended h x s' = suspended h x s.
  Definition within (u : list N) (s : state) : Prop := forall h x, suspended h x s = true -> In x u.

  Lemma sus_log : forall c s, sus s (log c s).
  Proof. intros c s h x. reflexivity. Qed.
  Lemma sus_trans : forall a b c, sus a b -> sus b c -> sus a c.
  Proof. intros a b c A B h x. rewrite B. apply A. Qed.
  Lemma within_sus : forall u s s', sus s s' -> within u s -> within u s'.
  Proof. intros u s s' S W h x H. rewrite S in H. apply (W h x H). Qed.
  Lemma same_iff : forall p q, same p q = true <-> p = q.
  Proof. intros [a b] [c d]. unfold same. cbn. rewrite andb_true_iff, !N.eqb_eq. split; [intros [-> ->]; reflexivity|intros [= -> ->]; auto]. Qed.
  Lemma suspended_in : forall h x s, suspended h x s = true <-> In (h, x) (st_suspended s).
  Proof. intros h x s. unfold suspended. rewrite existsb_exists. split; [intros (p & I & S); apply same_iff in S; subst; exact I|intros I; exists (h, x); split; [exact I|apply same_iff; reflexivity]]. Qed.
  Lemma suspended_forget : forall h x s h' x', suspended h' x' (forget h x s) = suspended h' x' s && negb (same (h, x) (h', x')).
  Proof.
    intros h x s h' x'. apply eq_true_iff_eq. rewrite andb_true_iff, !suspended_in. unfold forget. cbn [st_suspended]. rewrite filter_In. reflexivity.
  Qed.
  Lemma suspended_suspend : forall h x s h' x', suspended h' x' (suspend h x s) = suspended h' x' s || same (h, x) (h', x').
  Proof.
    intros h x s h' x'. apply eq_true_iff_eq. rewrite orb_true_iff, !suspended_in. unfold suspend. cbn [st_suspended In]. rewrite filter_In, same_iff. split; [intros [E|[I _]]; auto|].
    intros [I|E]; [|left; exact E]. destruct (same (h, x) (h', x')) eqn:Q; [left; apply same_iff, Q|right; split; [exact I|reflexivity]].
  Qed.
  Lemma not_within : forall u x h s, within u s -> ~ In x u -> suspended h x s = false.
  Proof. intros u x h s W N. destruct (suspended h x s) eqn:E; [exfalso; apply N; apply (W h x E)|reflexivity]. Qed.
  (** after [enter] at most the generator of the operation is new; leaving or failing takes it away *)
  Definition opened (h x : N) (s s' : state) : Prop := sus s s' \/ (forall h' x', suspended h' x' s' = suspended h' x' s || same (h, x) (h', x')).
  Lemma enter_opened : forall h x s, opened h x s (snd (ENTER (OfGen h) x s)).
  Proof. intros h x s. cbn. destruct (start h x) as [[| |e]|]; try (left; apply sus_log). right. intros h' x'. cbn [snd]. rewrite suspended_suspend. reflexivity. Qed.
  Lemma enter_failed : forall h x s e, fst (ENTER (OfGen h) x s) = Err e -> sus s (snd (ENTER (OfGen h) x s)).
  Proof. intros h x s e. cbn. destruct (start h x) as [[| |e']|]; cbn [fst snd]; try discriminate. intros _. apply sus_log. Qed.
  Lemma closed : forall h x s s1 s', suspended h x s = false -> opened h x s s1 -> sus s1 s' -> sus s (forget h x s') /\ (suspended h x s' = false -> sus s s').
  Proof.
    intros h x s s1 s' N O S. split.
    - intros h' x'. rewrite suspended_forget, S. destruct (same (h, x) (h', x')) eqn:Q; [apply same_iff in Q; injection Q as <- <-; rewrite andb_false_r; symmetry; exact N|]. rewrite andb_true_r. destruct O as [O|O]; rewrite O; [reflexivity|]. rewrite Q. apply orb_false_r.
    - intros F. intros h' x'. rewrite S. destruct O as [O|O]; [apply O|]. exfalso. rewrite S, O in F. rewrite (proj2 (same_iff (h, x) (h, x)) eq_refl), orb_true_r in F. discriminate.
  Qed.
  Lemma leave_closed : forall h x s s1 s', suspended h x s = false -> opened h x s s1 -> sus s1 s' -> sus s (snd (LEAVE (OfGen h) x s')).
  Proof.
    intros h x s s1 s' N O S. cbn. destruct (closed h x s s1 s' N O S) as [A B]. destruct (suspended h x s') eqn:F; [|apply B; reflexivity]. cbn [snd]. eapply sus_trans; [exact A|apply sus_log].
  Qed.
  Lemma fail_closed : forall h x e s s1 s', suspended h x s = false -> opened h x s s1 -> sus s1 s' -> sus s (snd (FAIL (OfGen h) x e s')).
  Proof.
    intros h x e s s1 s' N O S. cbn. destruct (closed h x s s1 s' N O S) as [A B]. destruct (suspended h x s') eqn:F; [|apply B; reflexivity]. cbn [snd]. eapply sus_trans; [exact A|apply sus_log].
  Qed.
  Lemma leave_idle : forall h x s, suspended h x s = false -> sus s (snd (LEAVE (OfGen h) x s)).
  Proof. intros h x s N. cbn. rewrite N. intros a b. reflexivity. Qed.
  Lemma slot_direct : forall o g f s, (forall c h, o = Some c -> g c <> Some (OfGen h)) -> (forall h s, sus s (snd (f (Direct h) s))) -> sus s (snd (slot o g f s)).
  Proof. intros o g f s H D. unfold slot. destruct o as [c|]; [|intros a b; reflexivity]. specialize (H c). destruct (g c) as [[h|h]|]; [apply D|exfalso; apply (H h eq_refl); reflexivity|intros a b; reflexivity]. Qed.

Theorem C207_resumed_partial : forall p u s, fresh u p -> within u s -> forall h x, suspended h x (snd (RUN p s)) = suspended h x s.
  Proof.
    intros p. change (forall u s, fresh u p -> within u s -> sus s (snd (RUN p s))).
    assert (LB : forall b, Forall (fun p => forall u s, fresh u p -> within u s -> sus s (snd (RUN p s))) b -> forall u s, Forall (fresh u) b -> within u s -> sus s (snd (RUNS b s))).
    { intros b IH u. induction b as [|p' b IB]; intros s FB W; [intros a c; reflexivity|]. inversion IH; subst. inversion FB; subst. cbn [run_all]. specialize (H1 u s H3 W). destruct (RUN p' s) as [[v|e] s']; [|exact H1]. cbn [snd] in H1. eapply sus_trans; [exact H1|]. apply IB; [assumption|assumption|]. eapply within_sus; eassumption. }
    assert (NO : forall c t x s, no_generator (callback_of t c) -> sus s (snd (notify start on_enter c t x s))).
    { intros c t x s H. unfold notify. destruct (callback_of t c) as [cb|]; [|intros a b; reflexivity]. specialize (H cb). destruct (cb_enter cb) as [[h|h]|]; [apply sus_log|exfalso; apply (H h eq_refl); reflexivity|intros a b; reflexivity]. }
    induction p as [e|b IH|o t x|t x b IH|t x b IH] using prog_rect'; intros u s F W.
    - intros a c. reflexivity.
    - inversion F; subst. rewrite run_attempt. cbn [snd]. eapply LB; eassumption.
    - inversion F; subst; cbn; apply NO; assumption.
    - inversion F as [| | | |u' t' x' b' NI WH FB|]; subst. rewrite run_op. unfold run_with. specialize (LB b IH (x :: u)). destruct (callback_of t global) as [c|].
      2:{ cbn [slot]. assert (W1 : within (x :: u) s) by (intros h' y' Q; right; apply (W h' y' Q)). specialize (LB s FB W1). destruct (RUNS b s) as [[v|e] s1]; exact LB. }
      destruct (WH c eq_refl) as [(h & E & L & FF)|D].
      + cbn [slot]. rewrite E, L, FF. pose proof (not_within u x h s W NI) as N. pose proof (enter_opened h x s) as O. destruct (ENTER (OfGen h) x s) as [[v|e0] s0] eqn:EN; cbn [snd] in O.
        * assert (W0 : within (x :: u) s0). { intros h' y' Q. destruct O as [O|O]; rewrite O in Q; [right; apply (W h' y' Q)|]. apply orb_true_iff in Q as [Q|Q]; [right; apply (W h' y' Q)|apply same_iff in Q; injection Q as <- <-; left; reflexivity]. }
          specialize (LB s0 FB W0). destruct (RUNS b s0) as [[v1|e] s1]; cbn [snd] in LB.
          -- pose proof (leave_closed h x s s0 s1 N O LB) as R. destruct (LEAVE (OfGen h) x s1) as [r2 s2]. exact R.
          -- pose proof (fail_closed h x e s s0 s1 N O LB) as R. destruct (FAIL (OfGen h) x e s1) as [[v2|e2] s2]; [|exact R]. cbn [snd] in R.
             assert (N2 : suspended h x s2 = false) by (rewrite R; exact N). pose proof (leave_idle h x s2 N2) as R2. destruct (LEAVE (OfGen h) x s2) as [r3 s3]. eapply sus_trans; [exact R|exact R2].
        * pose proof (enter_failed h x s e0) as R. rewrite EN in R. apply R. reflexivity.
      + set (o := Some c). assert (DE : sus s (snd (slot o cb_enter (fun m => ENTER m x) s))) by (apply slot_direct; [intros c' h [= <-]; apply D|intros h s'; apply sus_log]).
        destruct (slot o cb_enter (fun m => ENTER m x) s) as [[v|e0] s0]; [|exact DE]. cbn [snd] in DE. assert (W0 : within (x :: u) s0) by (intros h' y' Q; right; rewrite DE in Q; apply (W h' y' Q)).
        specialize (LB s0 FB W0). destruct (RUNS b s0) as [r s1]. cbn [snd] in LB. assert (S1 : sus s s1) by (eapply sus_trans; eassumption).
        assert (DL : forall s, sus s (snd (slot o cb_leave (fun m => LEAVE m x) s))) by (intros s'; apply slot_direct; [intros c' h [= <-]; apply D|intros h s''; apply sus_log]).
        assert (DF : forall e s, sus s (snd (slot o cb_fail (fun m => FAIL m x e) s))) by (intros e s'; apply slot_direct; [intros c' h [= <-]; apply D|intros h s''; apply sus_log]).
        destruct r as [v1|e].
        * specialize (DL s1). destruct (slot o cb_leave (fun m => LEAVE m x) s1) as [r2 s2]. eapply sus_trans; [exact S1|exact DL].
        * specialize (DF e s1). destruct (slot o cb_fail (fun m => FAIL m x e) s1) as [[v2|e2] s2]; cbn [snd] in DF; [|eapply sus_trans; [exact S1|exact DF]].
          specialize (DL s2). destruct (slot o cb_leave (fun m => LEAVE m x) s2) as [r3 s3]. eapply sus_trans; [exact S1|]. eapply sus_trans; [exact DF|exact DL].
    - inversion F as [| | | | |u' t' x' b' NI WH FB]; subst. rewrite run_enter_eq. unfold run_enter. specialize (LB b IH (x :: u)). destruct (callback_of t global) as [c|].
      2:{ cbn [slot]. assert (W1 : within (x :: u) s) by (intros h' y' Q; right; apply (W h' y' Q)). specialize (LB s FB W1). destruct (RUNS b s) as [[v|e] s1]; exact LB. }
      destruct (WH c eq_refl) as [(h & E & L & FF)|D].
      + cbn [slot]. rewrite E, L, FF. pose proof (not_within u x h s W NI) as N. pose proof (enter_opened h x s) as O. pose proof (enter_failed h x s) as EF. destruct (ENTER (OfGen h) x s) as [[v|e0] s0] eqn:EN; cbn [snd fst] in O, EF.
        * assert (W0 : within (x :: u) s0). { intros h' y' Q. destruct O as [O|O]; rewrite O in Q; [right; apply (W h' y' Q)|]. apply orb_true_iff in Q as [Q|Q]; [right; apply (W h' y' Q)|apply same_iff in Q; injection Q as <- <-; left; reflexivity]. }
          specialize (LB s0 FB W0). destruct (RUNS b s0) as [[v1|e] s1]; cbn [snd] in LB.
          -- pose proof (leave_closed h x s s0 s1 N O LB) as R. destruct (LEAVE (OfGen h) x s1) as [r2 s2]. exact R.
          -- pose proof (fail_closed h x e s s0 s1 N O LB) as R. destruct (FAIL (OfGen h) x e s1) as [r2 s2]. cbn [snd] in R.
             assert (N2 : suspended h x s2 = false) by (rewrite R; exact N). pose proof (leave_idle h x s2 N2) as R2. destruct (LEAVE (OfGen h) x s2) as [r3 s3]. eapply sus_trans; [exact R|exact R2].
        * specialize (EF e0 eq_refl). assert (S0 : sus s0 s0) by (intros a c'; reflexivity). pose proof (fail_closed h x e0 s s0 s0 N O S0) as R. destruct (FAIL (OfGen h) x e0 s0) as [r2 s2]. cbn [snd] in R.
          assert (N2 : suspended h x s2 = false) by (rewrite R; exact N). pose proof (leave_idle h x s2 N2) as R2. destruct (LEAVE (OfGen h) x s2) as [r3 s3]. eapply sus_trans; [exact R|exact R2].
      + set (o := Some c). assert (DE : sus s (snd (slot o cb_enter (fun m => ENTER m x) s))) by (apply slot_direct; [intros c' h [= <-]; apply D|intros h s'; apply sus_log]).
        assert (DL : forall s, sus s (snd (slot o cb_leave (fun m => LEAVE m x) s))) by (intros s'; apply slot_direct; [intros c' h [= <-]; apply D|intros h s''; apply sus_log]).
        assert (DF : forall e s, sus s (snd (slot o cb_fail (fun m => FAIL m x e) s))) by (intros e s'; apply slot_direct; [intros c' h [= <-]; apply D|intros h s''; apply sus_log]).
        assert (REST : forall (r : res unit) s1, sus s s1 -> sus s (snd (let (r1, s2) := match r with Err e => slot o cb_fail (fun m => FAIL m x e) s1 | Ok _ => (Ok tt, s1) end in let (r2, s3) := slot o cb_leave (fun m => LEAVE m x) s2 in (match r2 with Err e => Err e | Ok _ => r1 end, s3)))).
        { intros r s1 S1. destruct r as [v1|e].
          - specialize (DL s1). destruct (slot o cb_leave (fun m => LEAVE m x) s1) as [r2 s2]. eapply sus_trans; [exact S1|exact DL].
          - specialize (DF e s1). destruct (slot o cb_fail (fun m => FAIL m x e) s1) as [r2 s2]; cbn [snd] in DF. specialize (DL s2). destruct (slot o cb_leave (fun m => LEAVE m x) s2) as [r3 s3]. eapply sus_trans; [exact S1|]. eapply sus_trans; [exact DF|exact DL]. }
        destruct (slot o cb_enter (fun m => ENTER m x) s) as [[v|e0] s0]; cbn [snd] in DE; [|apply (REST (Err e0)); exact DE]. assert (W0 : within (x :: u) s0) by (intros h' y' Q; right; rewrite DE in Q; apply (W h' y' Q)).
        specialize (LB s0 FB W0). destruct (RUNS b s0) as [r s1]. cbn [snd] in LB. apply REST. eapply sus_trans; eassumption.
  Qed.
  (** the generator of an operation runs before it, and then to its end when it has ended, or gets its exception *)
Theorem C207_around : forall t x c h, callback_of t global = Some c -> cb_enter c = Some (OfGen h) -> cb_fail c = Some (OfGen h) -> cb_leave c = Some (OfGen h) -> start h x = Some Yields ->
    forall b s, within [] s -> Forall (fresh [x]) b -> exists inner r s1, RUNS b (suspend h x (log (Started h x) s)) = (r, s1) /\ st_calls s1 = st_calls s ++ Started h x :: inner /\
    st_calls (snd (RUN (With t x b) s)) = st_calls s ++ Started h x :: inner ++ [match r with Err e => Thrown h x e | Ok _ => Resumed h x end].
  Proof.
    intros t x c h G E F L S b s W FB. set (s0 := suspend h x (log (Started h x) s)). destruct (runs_grows b s0) as (inner & I). destruct (RUNS b s0) as [r s1] eqn:R. exists inner, r, s1. split; [reflexivity|].
    cbn [snd] in I. unfold s0 in I. cbn [suspend log st_calls] in I. rewrite <- app_assoc in I. cbn [app] in I. split; [exact I|].
    assert (IN : suspended h x s0 = true) by (unfold s0; rewrite suspended_suspend, (proj2 (same_iff (h, x) (h, x)) eq_refl); apply orb_true_r).
    assert (W0 : within [x] s0). { intros h' y' Q. unfold s0 in Q. rewrite suspended_suspend in Q. apply orb_true_iff in Q as [Q|Q]; [destruct (W h' y' Q)|apply same_iff in Q; injection Q as <- <-; left; reflexivity]. }
    assert (S1 : suspended h x s1 = true).
    { rewrite <- IN. clearbody s0. clear -R W0 FB. revert s0 R W0. induction b as [|p b IB]; intros s0 R W0; [cbn in R; congruence|]. inversion FB; subst. cbn [run_all] in R. pose proof (C207_resumed_partial p [x] s0 H1 W0) as K. destruct (RUN p s0) as [[v|e] s']; cbn [snd] in K; [|injection R as _ <-; apply K].
      rewrite <- (K h x). apply (IB H2 s' R). intros a d Q. rewrite K in Q. apply (W0 a d Q). }
    rewrite run_op. unfold run_with, slot. rewrite G, E. cbn [call_enter]. rewrite S. fold s0. rewrite R, F, L. destruct r as [u|e].
    - cbn [call_leave]. rewrite S1. cbn [snd log forget st_calls]. rewrite I, <- app_assoc. reflexivity.
    - cbn [call_fail]. rewrite S1. assert (Q : suspended h x (log (Thrown h x e) (forget h x s1)) = false).
      { change (suspended h x (forget h x s1) = false). rewrite suspended_forget, (proj2 (same_iff (h, x) (h, x)) eq_refl). apply andb_false_r. }
      destruct (throw h x e); cbn [call_leave]; rewrite ?Q; cbn [snd log forget st_calls]; rewrite I, <- app_assoc; reflexivity.
  Qed.
End Runs.
Print Assumptions C206_same_partial. Print Assumptions C206_order. Print Assumptions C207_resumed_partial. Print Assumptions C207_around.

(** samples: one class of operations, with a generator or with methods *)
Definition build_with : callbacks := add_listeners [Listener (lit "with_build") true (Some (Some (lit "Build"))) 1] [].
Definition build_methods : callbacks := add_listeners [Listener (lit "enter_build") true (Some (Some (lit "Build"))) 1; Listener (lit "leave_build") true (Some (Some (lit "Build"))) 2; Listener (lit "failed_build") true (Some (Some (lit "Build"))) 3] [].
Definition quiet2 : N -> N -> option exn := fun _ _ => None.
Definition quiet3 : N -> N -> exn -> option exn := fun _ _ _ => None.
Definition yields : N -> N -> option gen_result := fun _ _ => Some Yields.
Definition ends : N -> N -> gen_result := fun _ _ => Ends.
Definition reraises : N -> N -> exn -> gen_result := fun _ _ e => Raises e.
Definition try_run (throw : N -> N -> exn -> gen_result) (c : callbacks) (p : prog) := run yields ends throw quiet2 quiet2 quiet3 c (fun _ => []) p (St [] []).
Example C206_sample : harmless yields ends reraises quiet2 quiet2 quiet3 /\ complete build_methods /\
  try_run reraises build_methods (With (lit "Build") 5 [Notify None (lit "Other") 6; Raise IOErr]) = (Err IOErr, St [Entered 1 5; Failed 3 5 IOErr; Left 2 5] []).
Proof.
  split; [split; intros; try discriminate; auto; reflexivity|]. split; [|reflexivity]. intros t x H. unfold callback_of, build_methods in H. cbn in H. match type of H with match (if ?b then _ else _) with _ => _ end = _ => destruct b end; [injection H as <-; discriminate|discriminate].
Qed.
Example C207_sample : fresh build_with (fun _ => []) [] (With (lit "Build") 5 [With (lit "Build") 6 []; Raise IOErr]) /\ within [] (St [] []) /\
  try_run reraises build_with (With (lit "Build") 5 [With (lit "Build") 6 []; Raise IOErr]) = (Err IOErr, St [Started 1 5; Started 1 6; Resumed 1 6; Thrown 1 5 IOErr] []).
Proof.
  split; [|split; [intros h x H; discriminate|reflexivity]]. assert (WH : whole (callback_of (lit "Build") build_with)) by (intros c [= <-]; left; exists 1%N; repeat split).
  apply f_with; [intros []|exact WH|]. constructor; [|constructor; [apply f_raise|constructor]]. apply f_with; [intros [E|[]]; discriminate|exact WH|constructor].
Qed.
(** a context that is entered through a monitor loses its exceptions, even with nobody listening *)
Theorem C206_enter_refuted : forall throw t x e, alone (Enter t x [Raise e]) = Err e /\ fst (try_run throw [] (Enter t x [Raise e])) = Ok tt.
Proof. intros. split; reflexivity. Qed.
(** a generator that handles the exception of its operation hides it from everybody else: StopIteration is raised instead *)
Theorem C206_handled_refuted : let handles := fun _ _ _ => Ends in fst (try_run handles build_with (With (lit "Build") 5 [Raise ValueError])) = Err OtherErr.
Proof. reflexivity. Qed.
(** who listens only to the end of a class makes its notification fail *)
Theorem C206_notify_refuted : let c := add_listeners [Listener (lit "leave_build") true (Some (Some (lit "Build"))) 1] [] in fst (try_run reraises c (Notify None (lit "Build") 5)) = Err TypeError.
Proof. reflexivity. Qed.
(** a generator is not resumed when its operation was entered again in itself, when somebody listens to the end too, or for an event *)
Theorem C207_again_refuted : let s := snd (try_run reraises build_with (With (lit "Build") 5 [With (lit "Build") 5 []])) in st_calls s = [Started 1 5; Started 1 5; Resumed 1 5].
Proof. reflexivity. Qed.
Theorem C207_beside_refuted : let c := add_listeners [Listener (lit "with_build") true (Some (Some (lit "Build"))) 1; Listener (lit "leave_build") true (Some (Some (lit "Build"))) 2] [] in
  snd (try_run reraises c (With (lit "Build") 5 [])) = St [Started 1 5; Left 2 5] [(1%N, 5%N)] /\ snd (try_run reraises build_with (Notify None (lit "Build") 5)) = St [Started 1 5] [(1%N, 5%N)].
Proof. split; reflexivity. Qed.

(** ** C208: the output of a process *)
(** a process writes lines, can go on for a while after it has closed its output, and ends with a code *)
Definition observed (lines : list (str * option N)) (silent : nat) (code : N) (rest : list (str * option N)) : list (str * option N) := lines ++ repeat ([], None) silent ++ ([], Some code) :: rest.
Theorem C208_lines : forall lines silent code rest, (forall l, In l lines -> fst l <> []) ->
  watch (observed lines silent code rest) = (map (fun l => OutputLine (strip_line (fst l))) lines ++ repeat (OutputLine []) silent ++ [Exited code], Some code).
Proof.
  intros lines silent code rest H. unfold observed. induction lines as [|[l p] lines IH]; cbn [app map].
  - induction silent as [|n IN]; [reflexivity|]. cbn [repeat app watch]. rewrite IN. reflexivity.
  - cbn [watch]. destruct l as [|ch l]; [exfalso; apply (H ([], p) (or_introl eq_refl)); reflexivity|]. rewrite IH by (intros x I; apply H; right; exact I). reflexivity.
Qed.
(** exactly the lines of a process that ends with its output, in order and without the blanks around them, then its code *)
Theorem C208_exact_partial : forall lines code, (forall l, In l lines -> l <> []) -> watch (observed (map (fun l => (l, None)) lines) 0 code []) = (map (fun l => OutputLine (strip_line l)) lines ++ [Exited code], Some code).
Proof. intros lines code H. rewrite C208_lines. 1: rewrite map_map; reflexivity. intros l I. apply in_map_iff in I as (x & <- & I). apply H, I. Qed.
(** the line without its blanks *)
Theorem C208_stripped : forall a s b, forallb is_space a = true -> forallb is_space b = true -> (forall c r, s = c :: r -> is_space c = false) -> (forall r c, s = r ++ [c] -> is_space c = false) -> strip_line (a ++ s ++ b) = s.
Proof.
  intros a s b A B S E. unfold strip_line.
  assert (SP : forall x y, forallb is_space x = true -> (forall c r, y = c :: r -> is_space c = false) -> snd (span is_space (x ++ y)) = y).
  { intros x y X Y. induction x as [|c x IH]; cbn [app]. - destruct y as [|c y]; [reflexivity|]. cbn [span]. rewrite (Y c y eq_refl). reflexivity. - cbn [forallb] in X. apply andb_true_iff in X as [X1 X2]. cbn [span]. rewrite X1. specialize (IH X2). destruct (span is_space (x ++ y)). exact IH. }
  assert (RV : forall x, forallb is_space x = true -> forallb is_space (rev x) = true). { intros x X. apply forallb_forall. intros c I. apply in_rev in I. apply (proj1 (forallb_forall _ _) X c I). }
  destruct s as [|c0 s'] eqn:EQ.
  - cbn [app]. assert (X : snd (span is_space (a ++ b)) = []). { rewrite <- (app_nil_r (a ++ b)). apply SP; [rewrite forallb_app, A, B; reflexivity|discriminate]. } rewrite X. reflexivity.
  - rewrite <- EQ in *. rewrite SP; [|exact A|]. 2:{ intros c r X. subst s. cbn in X. injection X as <- _. apply (S c0 s' eq_refl). }
    rewrite rev_app_distr. rewrite SP; [apply rev_involutive|apply RV, B|]. intros c r X. apply (E (rev r) c). rewrite <- (rev_involutive s), X. reflexivity.
Qed.
Print Assumptions C208_lines. Print Assumptions C208_exact_partial. Print Assumptions C208_stripped.
Example C208_sample : watch (observed [(lit "  Cloning ", None); (lit "done", Some 0%N)] 0 0 []) = ([OutputLine (lit "Cloning"); OutputLine (lit "done"); Exited 0], Some 0%N).
Proof. reflexivity. Qed.
(** for a process that goes on after it has closed its output lines are reported that it never wrote, as fast as they can be *)
Theorem C208_closed_refuted : forall n code, watch (observed [] n code []) = (repeat (OutputLine []) n ++ [Exited code], Some code).
Proof. intros n code. apply (C208_lines [] n code []). intros l []. Qed.
