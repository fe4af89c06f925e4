(** An idealised implementation of the specifier operations: finite and cofinite sets of numbers. It answers like
    version_specifiers.py does for releases of one number ([RestrictAllVersions] allows all of nothing is False there too). *)
From Coq Require Import List Bool NArith Arith Lia.
From Verif Require Import Base PubgrubModel PubgrubSolution PubgrubLaws.
Import ListNotations.
Open Scope nat_scope.
Open Scope list_scope.
Open Scope bool_scope.

(** [(false, l)]: the elements of [l], [(true, l)]: everything but these *)
Definition fset := (bool * list N)%type.
Definition mem (v : N) (l : list N) := existsb (N.eqb v) l.
Definition fallows (s : fset) (v : N) := xorb (fst s) (mem v (snd s)).
Definition lint (a b : list N) := filter (fun v => mem v b) a.
Definition lmin (a b : list N) := filter (fun v => negb (mem v b)) a.
Definition luni (a b : list N) := a ++ lmin b a.
Definition finter (a b : fset) : fset :=
  match a, b with
  | (false, x), (false, y) => (false, lint x y) | (false, x), (true, y) => (false, lmin x y)
  | (true, x), (false, y) => (false, lmin y x) | (true, x), (true, y) => (true, luni x y)
  end.
Definition finv (a : fset) : fset := (negb (fst a), snd a).
Definition funi (a b : fset) := finv (finter (finv a) (finv b)).
Definition fnothing (a : fset) := match a with (false, []) => true | _ => false end.
Definition feverything (a : fset) := match a with (true, []) => true | _ => false end.
Definition feq (a b : fset) := Bool.eqb (fst a) (fst b) && forallb (fun v => mem v (snd b)) (snd a) && forallb (fun v => mem v (snd a)) (snd b).
Definition fall (a b : fset) : res bool :=
  if fnothing a then Ok false else if feverything a then Ok (negb (fnothing b)) else Ok (feq (finter a b) b).
Definition fany (a b : fset) : res bool := Ok (negb (fnothing (finter a b))).
Definition upto (n : N) : list N := map N.of_nat (seq 0 (S (N.to_nat n))).
Definition fwin (a b : option N) : res fset :=
  Ok (finter (match a with Some a => (true, upto a) | None => (true, []) end) (match b with Some b => (false, upto b) | None => (true, []) end)).
Definition ideal : ops fset N :=
  Ops (true, []) (false, []) fnothing (fun v => (false, [v])) fwin fallows fall fany (fun a b => Ok (finter a b)) (fun a b => Ok (funi a b))
      (fun a => Ok (finv a)) (fun a b => Ok (finter a (finv b))) feq (fun _ => None) N.ltb.

Lemma mem_in : forall v l, mem v l = true <-> In v l.
Proof. intros v l. unfold mem. rewrite existsb_exists. split; [intros (x & A & B); apply N.eqb_eq in B; subst; exact A|intro H; exists v; split; [exact H|apply N.eqb_refl]]. Qed.
Lemma mem_filter : forall f v l, mem v (filter f l) = mem v l && f v.
Proof. intros f v l. apply eq_true_iff_eq. rewrite andb_true_iff, !mem_in, filter_In. reflexivity. Qed.
Lemma mem_app : forall v a b, mem v (a ++ b) = mem v a || mem v b.
Proof. intros v a b. apply existsb_app. Qed.
Lemma finter_allows : forall a b w, fallows (finter a b) w = fallows a w && fallows b w.
Proof.
  intros [[|] x] [[|] y] w; unfold fallows, finter, luni, lint, lmin; cbn [fst snd]; rewrite ?mem_app, ?mem_filter; destruct (mem w x), (mem w y); reflexivity.
Qed.
Lemma finv_allows : forall a w, fallows (finv a) w = negb (fallows a w).
Proof. intros [b x] w. unfold fallows, finv. cbn [fst snd]. destruct b, (mem w x); reflexivity. Qed.
Lemma fresh : forall l, exists w, mem w l = false.
Proof.
  intros l. exists (1 + fold_right N.max 0 l)%N. apply not_true_iff_false. rewrite mem_in. intro H.
  assert (G : forall x, In x l -> (x <= fold_right N.max 0 l)%N).
  { clear H. induction l as [|y l IH]; intros x I; [contradiction|]. cbn. destruct I as [->|I]; [lia|]. specialize (IH x I). lia. }
  specialize (G _ H). lia.
Qed.
Lemma fnothing_spec : forall a, fnothing a = true <-> forall w, fallows a w = false.
Proof.
  intros [[|] l]; split; try discriminate.
  - intro H. destruct (fresh l) as (w & W). specialize (H w). unfold fallows in H. cbn [fst snd] in H. rewrite W in H. discriminate.
  - destruct l; [intros _ w; reflexivity|discriminate].
  - intro H. destruct l as [|x l]; [reflexivity|]. specialize (H x). unfold fallows, mem in H. cbn in H. rewrite N.eqb_refl in H. discriminate.
Qed.
Lemma fnothing_false : forall a, fnothing a = false -> exists w, fallows a w = true.
Proof.
  intros [[|] l] H.
  - destruct (fresh l) as (w & W). exists w. unfold fallows. cbn [fst snd]. rewrite W. reflexivity.
  - destruct l as [|x l]; [discriminate|]. exists x. unfold fallows, mem. cbn. rewrite N.eqb_refl. reflexivity.
Qed.
Lemma feq_spec : forall a b, feq a b = true <-> forall w, fallows a w = fallows b w.
Proof.
  intros [x l] [y m]. unfold feq. cbn [fst snd]. rewrite !andb_true_iff, !forallb_forall. split.
  - intros [[A B] C] w. apply Bool.eqb_prop in A. subst y. unfold fallows. cbn [fst snd]. f_equal. apply eq_true_iff_eq. rewrite !mem_in. split; intro H; apply mem_in; [apply B|apply C]; exact H.
  - intro H. assert (E : x = y).
    { destruct (fresh (l ++ m)) as (w & W). rewrite mem_app in W. apply orb_false_iff in W. destruct W as [W1 W2]. specialize (H w). unfold fallows in H. cbn [fst snd] in H. rewrite W1, W2 in H. destruct x, y; auto. }
    subst y. assert (G : forall w, mem w l = mem w m) by (intro w; specialize (H w); unfold fallows in H; cbn [fst snd] in H; destruct x, (mem w l), (mem w m); cbn in H; congruence).
    split; [split; [apply Bool.eqb_reflx|]|]; intros w I; apply mem_in in I; [rewrite <- G|rewrite G]; exact I.
Qed.
Lemma upto_in : forall n w, mem w (upto n) = (w <=? n)%N.
Proof.
  intros n w. apply eq_true_iff_eq. rewrite mem_in, N.leb_le. unfold upto. rewrite in_map_iff. split.
  - intros (k & <- & I). apply in_seq in I. lia.
  - intro H. exists (N.to_nat w). split; [lia|]. apply in_seq. lia.
Qed.
Lemma ideal_lawful : lawful ideal.
Proof.
  constructor; cbn.
  - intros v w. unfold fallows, mem. cbn. rewrite orb_false_r. destruct (w =? v)%N eqn:E; [apply N.eqb_eq in E; split; auto|apply N.eqb_neq in E; split; [discriminate|congruence]].
  - intros a b c w H. injection H as <-. apply finter_allows.
  - intros a c w H. injection H as <-. apply finv_allows.
  - intros a b c w H. injection H as <-. unfold funi. rewrite finv_allows, finter_allows, !finv_allows, negb_andb, !negb_involutive. reflexivity.
  - intros a w H. apply (proj1 (fnothing_spec a) H).
  - reflexivity.
  - intros a b r H NE. unfold fall in H. destruct (fnothing a) eqn:E1; [|destruct (feverything a) eqn:E2]; injection H as <-.
    + split; [discriminate|]. intro X. destruct NE as (w & W). specialize (X w W). rewrite (proj1 (fnothing_spec a) E1 w) in X. discriminate.
    + destruct a as [[|] [|]]; try discriminate. split; [reflexivity|]. intros _. destruct (fnothing b) eqn:E3; [|reflexivity]. destruct NE as (w & W). rewrite (proj1 (fnothing_spec b) E3 w) in W. discriminate.
    + rewrite feq_spec. split.
      * intros X w W. specialize (X w). rewrite finter_allows, W, andb_true_r in X. exact X.
      * intros X w. rewrite finter_allows. specialize (X w). destruct (fallows a w), (fallows b w); auto.
  - intros a b r H. injection H as <-. destruct (fnothing (finter a b)) eqn:E; cbn.
    + split; [discriminate|]. intros (w & A & B). pose proof (proj1 (fnothing_spec _) E w) as X. rewrite finter_allows, A, B in X. discriminate.
    + split; [intros _|reflexivity]. destruct (fnothing_false _ E) as (w & W). rewrite finter_allows in W. apply andb_true_iff in W. exists w. exact W.
  - intros a b w H. apply feq_spec. exact H.
  - discriminate.
  - intros a b s w H. injection H as <-. rewrite finter_allows. f_equal.
    + destruct a as [a|]; [|reflexivity]. unfold fallows. cbn [fst snd]. rewrite upto_in, N.leb_antisym. destruct (a <? w)%N; reflexivity.
    + destruct b as [b|]; [|reflexivity]. unfold fallows. cbn [fst snd]. rewrite upto_in, N.leb_antisym. destruct (b <? w)%N; reflexivity.
  - intros v w H. apply N.ltb_lt in H. apply N.ltb_ge. lia.
  - intros u v w. rewrite !N.ltb_lt. lia.
  - intros v w. rewrite !N.ltb_ge. lia.
Qed.

(** ** problems given by tables *)
(** a requirement on [d]: at least [lo], less than [hi] *)
Definition req (d : pkg) (lo hi : option N) : term fset :=
  T d (match lo, hi with
       | None, None => (true, [])
       | Some a, None => (true, map N.of_nat (seq 0 (N.to_nat a)))
       | None, Some b => (false, map N.of_nat (seq 0 (N.to_nat b)))
       | Some a, Some b => (false, map N.of_nat (seq (N.to_nat a) (N.to_nat b - N.to_nat a)))
       end).
Definition table := list (pkg * list (N * list (term fset))).
Fixpoint dep_get (v : N) (l : list (N * list (term fset))) : option (list (term fset)) :=
  match l with [] => None | (w, ts) :: r => if (v =? w)%N then Some ts else dep_get v r end.
Definition problem_of (t : table) : problem fset N :=
  Problem (fun p => map fst (plist p t)) (fun p v => dep_get v (plist p t)) (fun _ _ => false).
Definition run_ideal (t : table) (fuel : nat) : res (list (pkg * fset)) := solve fset N ideal (problem_of t) 0%N (fun _ => 0) fuel.

(** a decision procedure of [is_solution] *)
Definition sol_get (p : pkg) (ds : list (pkg * fset)) : option N :=
  match pget p ds with Some (false, [v]) => Some v | _ => None end.
Definition solution_b (t : table) (root : pkg) (ds : list (pkg * fset)) : bool :=
  is_some (sol_get root ds) &&
  forallb (fun e => match snd e with
                    | (false, [v]) => match dep_get v (plist (fst e) t) with
                                      | Some ts => forallb (fun r => match sol_get (t_pkg r) ds with Some w => fallows (t_con r) w | None => false end) ts
                                      | None => false
                                      end
                    | _ => false end) ds.
Lemma solution_b_complete : forall t root ds, is_solution ideal (problem_of t) root ds -> solution_b t root ds = true.
Proof.
  intros t root ds (ND & (v & R) & H). assert (G : forall p w, In (p, (false, [w])) ds -> sol_get p ds = Some w).
  { intros p w I. unfold sol_get. rewrite (pget_nodup _ _ _ _ ND I). reflexivity. }
  unfold solution_b. apply andb_true_iff. split; [rewrite (G _ _ R); reflexivity|]. apply forallb_forall. intros [p c] I. cbn [fst snd]. destruct (H p c I) as (w & ts & -> & _ & D & X). cbn in D |- *. rewrite D. apply forallb_forall. intros r J. destruct (X r J) as (u & U1 & U2). rewrite (G _ _ U1). exact U2.
Qed.
Lemma dep_get_in : forall v l ts, dep_get v l = Some ts -> In (v, ts) l.
Proof. intros v l ts. induction l as [|[w us] l IH]; [discriminate|]. cbn. destruct (v =? w)%N eqn:E; [intro H; injection H as <-; apply N.eqb_eq in E; subst; left; reflexivity|intro H; right; auto]. Qed.
Fixpoint nodup_b (l : list N) : bool := match l with [] => true | x :: r => negb (mem x r) && nodup_b r end.
Lemma nodup_b_ok : forall l, nodup_b l = true -> NoDup l.
Proof. intros l. induction l as [|x l IH]; cbn; [constructor|]. intro H. apply andb_true_iff in H. destruct H as [A B]. constructor; [|auto]. intro I. apply mem_in in I. rewrite I in A. discriminate. Qed.
Definition tidy_b (t : table) : bool :=
  forallb (fun e => nodup_b (map fst (snd e)) && forallb (fun d => nodup_b (map t_pkg (snd d))) (snd e)) t.
Lemma plist_in : forall (t : table) p x, In x (plist p t) -> In (p, plist p t) t.
Proof. intros t p x H. unfold plist in *. destruct (pget p t) as [l|] eqn:E; [apply pget_in; exact E|contradiction]. Qed.
Lemma tidy_b_ok : forall t, tidy_b t = true -> tidy (problem_of t).
Proof.
  intros t H. unfold tidy_b in H. rewrite forallb_forall in H. split.
  - intros p. cbn. destruct (plist p t) as [|x l] eqn:E; [constructor|]. assert (I : In (p, plist p t) t) by (apply (plist_in t p x); rewrite E; left; reflexivity). specialize (H _ I). cbn in H. apply andb_true_iff in H. rewrite <- E. apply nodup_b_ok. apply H.
  - intros p v ts D. cbn in D. apply dep_get_in in D. specialize (H _ (plist_in t p _ D)). cbn in H. apply andb_true_iff in H. destruct H as [_ H]. rewrite forallb_forall in H. apply nodup_b_ok. exact (H _ D).
Qed.
Definition unshared_b (t : table) : bool :=
  forallb (fun e => forallb (fun a => forallb (fun b => (fst a =? fst b)%N || forallb (fun r => forallb (fun u => negb (t_pkg r =? t_pkg u)%N || negb (feq (t_con u) (t_con r))) (snd b)) (snd a)) (snd e)) (snd e)) t.
Lemma unshared_b_ok : forall t, unshared_b t = true -> unshared ideal (problem_of t).
Proof.
  intros t H p v w ts us r u _ _ NE D1 D2 I1 I2 EP. cbn in D1, D2. apply dep_get_in in D1. apply dep_get_in in D2. unfold unshared_b in H. rewrite forallb_forall in H. specialize (H _ (plist_in t p _ D1)). cbn in H. rewrite forallb_forall in H. specialize (H _ D1). rewrite forallb_forall in H. specialize (H _ D2). cbn in H.
  apply orb_true_iff in H. destruct H as [H|H]; [apply N.eqb_eq in H; congruence|]. rewrite forallb_forall in H. specialize (H _ I1). rewrite forallb_forall in H. specialize (H _ I2). rewrite EP, N.eqb_refl in H. cbn in H. apply negb_true_iff. exact H.
Qed.
