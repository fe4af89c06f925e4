(** Facts about the partial solution of the resolver: dictionaries, levels, backtracking (C17). *)
From Coq Require Import String Ascii List Bool NArith Arith Lia.
From Verif Require Import Base PubgrubModel.
Import ListNotations.
Open Scope nat_scope.
Open Scope list_scope.
Open Scope bool_scope.

(** ** dictionaries *)
Lemma pget_pset_same : forall A p (v : A) d, pget p (pset p v d) = Some v.
Proof. intros A p v d. induction d as [|[q w] d IH]; cbn; [rewrite N.eqb_refl; reflexivity|]. destruct (p =? q)%N eqn:E; cbn; [rewrite E; reflexivity|rewrite E; exact IH]. Qed.
Lemma pget_pset_other : forall A p q (v : A) d, p <> q -> pget p (pset q v d) = pget p d.
Proof.
  intros A p q v d H. induction d as [|[r w] d IH]; cbn.
  - assert (E : (p =? q)%N = false) by (apply N.eqb_neq; exact H). rewrite E. reflexivity.
  - destruct (q =? r)%N eqn:E; cbn.
    + apply N.eqb_eq in E. subst r. assert (E2 : (p =? q)%N = false) by (apply N.eqb_neq; exact H). rewrite E2. reflexivity.
    + destruct (p =? r)%N; [reflexivity|exact IH].
Qed.
Lemma pget_in : forall A p (v : A) d, pget p d = Some v -> In (p, v) d.
Proof. intros A p v d. induction d as [|[q w] d IH]; cbn; [discriminate|]. destruct (p =? q)%N eqn:E; [|auto]. apply N.eqb_eq in E. intro H. injection H as ->. subst. left. reflexivity. Qed.
Lemma pget_none : forall A p (d : list (pkg * A)), pget p d = None <-> ~ In p (map fst d).
Proof.
  intros A p d. induction d as [|[q w] d IH]; cbn; [split; [intros _ []|reflexivity]|]. destruct (p =? q)%N eqn:E.
  - apply N.eqb_eq in E. subst. split; [discriminate|]. intro H. exfalso. apply H. left. reflexivity.
  - apply N.eqb_neq in E. rewrite IH. split; intros H; [intros [X|X]; [congruence|auto]|intro X; apply H; right; exact X].
Qed.
Lemma pget_nodup : forall A p (v : A) d, NoDup (map fst d) -> In (p, v) d -> pget p d = Some v.
Proof.
  intros A p v d. induction d as [|[q w] d IH]; intros N I; [contradiction|]. inversion N as [|? ? N1 N2]; subst. cbn. destruct I as [E|I].
  - injection E as -> ->. rewrite N.eqb_refl. reflexivity.
  - destruct (p =? q)%N eqn:E; [|exact (IH N2 I)]. apply N.eqb_eq in E. subst. exfalso. apply N1. apply in_map_iff. exists (q, v). auto.
Qed.
Lemma pset_new : forall A p (v : A) d, pget p d = None -> pset p v d = d ++ [(p, v)].
Proof. intros A p v d. induction d as [|[q w] d IH]; cbn; [reflexivity|]. destruct (p =? q)%N; [discriminate|]. intro H. rewrite (IH H). reflexivity. Qed.
Lemma plist_pset_same : forall A p (v : list A) d, plist p (pset p v d) = v.
Proof. intros. unfold plist. rewrite pget_pset_same. reflexivity. Qed.
Lemma plist_pset_other : forall A p q (v : list A) d, p <> q -> plist p (pset q v d) = plist p d.
Proof. intros A p q v d H. unfold plist. rewrite pget_pset_other by exact H. reflexivity. Qed.
Lemma pget_map : forall A B p (f : A -> B) d, pget p (map (fun e => (fst e, f (snd e))) d) = option_map f (pget p d).
Proof. intros A B p f d. induction d as [|[q w] d IH]; cbn; [reflexivity|]. destruct (p =? q)%N; [reflexivity|exact IH]. Qed.
Lemma plist_map_filter : forall A p (f : A -> bool) d, plist p (map (fun e => (fst e, filter f (snd e))) d) = filter f (plist p d).
Proof. intros A p f d. unfold plist. rewrite pget_map. destruct (pget p d); reflexivity. Qed.

Lemma filter_all_true : forall A (f : A -> bool) l, (forall x, In x l -> f x = true) -> filter f l = l.
Proof. intros A f l. induction l as [|x l IH]; intro H; [reflexivity|]. cbn. rewrite (H x (or_introl eq_refl)), IH; [reflexivity|]. intros y I. apply H. right. exact I. Qed.
Lemma filter_app2 : forall A (f : A -> bool) a b, filter f (a ++ b) = filter f a ++ filter f b.
Proof. intros A f a b. induction a as [|x a IH]; [reflexivity|]. cbn. rewrite IH. destruct (f x); reflexivity. Qed.
Lemma seq_filter_le : forall n l, filter (fun k => k <=? l) (seq 0 n) = seq 0 (Nat.min n (S l)).
Proof.
  induction n as [|n IH]; intro l; [reflexivity|]. rewrite seq_S, filter_app2, IH. cbn [filter plus]. destruct (n <=? l) eqn:E.
  - apply Nat.leb_le in E. rewrite (Nat.min_l n), (Nat.min_l (S n)) by lia. rewrite seq_S. reflexivity.
  - apply Nat.leb_gt in E. rewrite app_nil_r. rewrite (Nat.min_r n), (Nat.min_r (S n)) by lia. reflexivity.
Qed.

Section Solution.
Variables S V : Type.
Variable O : ops S V.
Variable root : pkg.
Notation psol := (psol S). Notation term := (term S). Notation assignment := (assignment S).

(** what is done to a partial solution *)
Inductive event := Decide (t : term) | Derive (t : term) (cause : nat) | Require (ps : list pkg).
Definition event_level (s : psol) (e : event) : nat :=
  match e with Decide t => if (t_pkg t =? root)%N then level S s else Datatypes.S (level S s) | _ => level S s end.
Definition step (s : psol) (e : event) : res psol :=
  match e with
  | Decide t => assign_term S V O root s t None
  | Derive t c => assign_term S V O root s t (Some c)
  | Require ps => Ok (require S s ps)
  end.
(** the root is decided first, and no package is decided twice *)
Definition legal (s : psol) (e : event) : Prop :=
  match e with
  | Decide t => pget (t_pkg t) (s_decisions S s) = None /\ (t_pkg t = root <-> s_decisions S s = [])
  | _ => True
  end.
(** a run without backtracking, with the level of each event *)
Inductive run : list (nat * event) -> psol -> Prop :=
| run_nil : run [] (psol0 S)
| run_step : forall es s e s', run es s -> legal s e -> step s e = Ok s' -> run (es ++ [(event_level s e, e)]) s'.
(** any history *)
Inductive reached : psol -> Prop :=
| reached_nil : reached (psol0 S)
| reached_step : forall s e s', reached s -> legal s e -> step s e = Ok s' -> reached s'
| reached_back : forall s l, reached s -> reached (backtrack S s l).

(** the same partial solution (a package without assignments need not have an entry) *)
Definition same (a b : psol) : Prop :=
  s_order S a = s_order S b /\ (forall p, assignments S a p = assignments S b p) /\ s_required S a = s_required S b /\ s_decisions S a = s_decisions S b.
Lemma same_refl : forall a, same a a.
Proof. intro a. repeat split; auto. Qed.
Lemma same_sym : forall a b, same a b -> same b a.
Proof. intros a b (A & B & C & D). repeat split; auto. Qed.
Lemma same_trans : forall a b c, same a b -> same b c -> same a c.
Proof. intros a b c (A & B & C & D) (A' & B' & C' & D'). split; [congruence|]. split; [intro p; rewrite B; apply B'|]. split; congruence. Qed.
Lemma same_level : forall a b, same a b -> level S a = level S b.
Proof. intros a b (_ & _ & _ & D). unfold level. rewrite D. reflexivity. Qed.

(** ** levels *)
Record levels_ok (s : psol) : Prop := {
  lv_decisions : map (fun e => a_level S (snd e)) (s_decisions S s) = seq 0 (length (s_decisions S s));
  lv_keys : NoDup (map fst (s_decisions S s));
  lv_order : forall a, In a (s_order S s) -> a_level S a <= level S s;
  lv_pkgs : forall p a, In a (assignments S s p) -> a_level S a <= level S s;
  lv_required : forall e, In e (s_required S s) -> snd e <= level S s }.
Lemma levels0 : levels_ok (psol0 S).
Proof. constructor; try reflexivity; try contradiction. - constructor. Qed.
Lemma decision_levels : forall s p a, levels_ok s -> In (p, a) (s_decisions S s) -> a_level S a <= level S s.
Proof.
  intros s p a L I. assert (J : In (a_level S a) (map (fun e => a_level S (snd e)) (s_decisions S s))) by (apply in_map_iff; exists (p, a); auto).
  rewrite (lv_decisions _ L) in J. apply in_seq in J. unfold level. lia.
Qed.
Lemma assign_lookup : forall s a p, assignments S (assign S s a) p = if (p =? t_pkg (a_term S a))%N then assignments S s p ++ [a] else assignments S s p.
Proof.
  intros s a p. unfold assign, push, assignments at 1. cbn. destruct (p =? t_pkg (a_term S a))%N eqn:E.
  - apply N.eqb_eq in E. subst p. apply plist_pset_same.
  - apply plist_pset_other. apply N.eqb_neq. exact E.
Qed.
Lemma assign_levels : forall s a, levels_ok s ->
  (a_cause S a = None -> pget (t_pkg (a_term S a)) (s_decisions S s) = None /\ a_level S a = length (s_decisions S s)) ->
  (a_cause S a <> None -> a_level S a <= level S s) -> levels_ok (assign S s a).
Proof.
  intros s a L HD HV. unfold is_decision. destruct (a_cause S a) as [c|] eqn:EC.
  - assert (H := HV ltac:(discriminate)). constructor; unfold assign, is_decision; cbn [s_decisions s_order s_required]; rewrite EC; cbn [is_none]; try apply L; unfold level; cbn [s_decisions].
    + intros b I. apply in_app_iff in I. destruct I as [I|[<-|[]]]; [exact (lv_order _ L b I)|exact H].
    + intros p b I. pose proof (assign_lookup s a p) as X. unfold assign, is_decision in X. rewrite EC in X. cbn [is_none] in X. rewrite X in I.
      destruct (p =? _)%N; [apply in_app_iff in I; destruct I as [I|[<-|[]]]; [exact (lv_pkgs _ L p b I)|exact H]|exact (lv_pkgs _ L p b I)].
  - destruct (HD eq_refl) as [HN HL]. clear HD HV.
    assert (ED : s_decisions S (assign S s a) = s_decisions S s ++ [(t_pkg (a_term S a), a)]).
    { unfold assign, is_decision. cbn. rewrite EC. cbn. apply pset_new. exact HN. }
    assert (EL : level S (assign S s a) = length (s_decisions S s)) by (unfold level; rewrite ED, app_length; cbn; lia).
    assert (LE : level S s <= length (s_decisions S s)) by (unfold level; lia).
    constructor.
    + rewrite ED, map_app, app_length, (lv_decisions _ L). cbn. rewrite Nat.add_1_r, seq_S. cbn. rewrite HL. reflexivity.
    + rewrite ED, map_app. cbn. apply pget_none in HN. pose proof (lv_keys _ L) as ND. clear -HN ND. induction (map fst (s_decisions S s)) as [|x l IH]; cbn; [constructor; [intros []|constructor]|]. inversion ND as [|? ? N1 N2]; subst.
      constructor; [|apply IH; [intro I; apply HN; right; exact I|exact N2]]. rewrite in_app_iff. intros [I|[<-|[]]]; [exact (N1 I)|apply HN; left; reflexivity].
    + intros b I. rewrite EL. cbn in I. apply in_app_iff in I. destruct I as [I|[<-|[]]]; [|lia]. pose proof (lv_order _ L b I). lia.
    + intros p b I. rewrite EL. rewrite assign_lookup in I. destruct (p =? _)%N; [apply in_app_iff in I; destruct I as [I|[<-|[]]]; [pose proof (lv_pkgs _ L p b I); lia|lia]|pose proof (lv_pkgs _ L p b I); lia].
    + intros e I. rewrite EL. cbn in I. pose proof (lv_required _ L e I). lia.
Qed.
Lemma require_fold : forall (k : nat) (ps : list pkg) (d : list (pkg * nat)) (e : pkg * nat), In e (fold_left (fun req p => if is_none (pget p req) then pset p k req else req) ps d) -> In e d \/ snd e = k.
Proof.
  intros k ps. induction ps as [|p ps IH]; intros d e I; [left; exact I|]. cbn in I. destruct (IH _ _ I) as [J|J]; [|right; exact J].
  destruct (pget p d) eqn:G; cbn in J; [left; exact J|]. rewrite (pset_new _ _ _ _ G) in J. apply in_app_iff in J. destruct J as [J|[<-|[]]]; [left; exact J|right; reflexivity].
Qed.
Lemma require_levels : forall s ps, levels_ok s -> levels_ok (require S s ps).
Proof.
  intros s ps L. constructor; try apply L. intros e I. unfold require in I. cbn in I. apply require_fold in I. unfold require, level. cbn. destruct I as [I|I]; [exact (lv_required _ L e I)|rewrite I; unfold level; lia].
Qed.
Lemma back_lookup : forall s l p, assignments S (backtrack S s l) p = filter (fun a => a_level S a <=? l) (assignments S s p).
Proof. intros s l p. unfold assignments, backtrack. cbn. apply plist_map_filter. Qed.
Lemma back_decisions_length : forall s l, levels_ok s -> length (s_decisions S (backtrack S s l)) = Nat.min (length (s_decisions S s)) (Datatypes.S l).
Proof.
  intros s l L. unfold backtrack. cbn. pose proof (lv_decisions _ L) as E.
  assert (G : map (fun e => a_level S (snd e)) (filter (fun e => a_level S (snd e) <=? l) (s_decisions S s)) = filter (fun k => k <=? l) (map (fun e => a_level S (snd e)) (s_decisions S s))).
  { clear. induction (s_decisions S s) as [|e d IH]; [reflexivity|]. cbn. destruct (a_level S (snd e) <=? l); cbn; rewrite IH; reflexivity. }
  rewrite <- (map_length (fun e => a_level S (snd e))), G, E, seq_filter_le. apply seq_length.
Qed.
Lemma back_levels : forall s l, levels_ok s -> levels_ok (backtrack S s l).
Proof.
  intros s l L. pose proof (back_decisions_length s l L) as N.
  assert (LV : forall k, k <= l -> k <= level S s -> k <= level S (backtrack S s l)).
  { intros k K1 K2. unfold level in *. rewrite N. lia. }
  constructor.
  - rewrite N. unfold backtrack. cbn. rewrite <- seq_filter_le, <- (lv_decisions _ L). clear. induction (s_decisions S s) as [|e d IH]; [reflexivity|]. cbn. destruct (a_level S (snd e) <=? l); cbn; rewrite IH; reflexivity.
  - unfold backtrack. cbn. pose proof (lv_keys _ L) as ND. clear -ND. induction (s_decisions S s) as [|e d IH]; [constructor|]. cbn in ND. inversion ND as [|? ? N1 N2]; subst. cbn. destruct (a_level S (snd e) <=? l); [|exact (IH N2)].
    cbn. constructor; [|exact (IH N2)]. intro I. apply N1. apply in_map_iff in I. destruct I as (x & E & I). apply filter_In in I. rewrite <- E. apply in_map. apply I.
  - intros a I. cbn in I. apply filter_In in I. destruct I as [I E]. apply Nat.leb_le in E. apply LV; [exact E|exact (lv_order _ L a I)].
  - intros p a I. rewrite back_lookup in I. apply filter_In in I. destruct I as [I E]. apply Nat.leb_le in E. apply LV; [exact E|exact (lv_pkgs _ L p a I)].
  - intros e I. cbn in I. apply filter_In in I. destruct I as [I E]. apply Nat.leb_le in E. apply LV; [exact E|exact (lv_required _ L e I)].
Qed.
(** backtracking to the current level or above changes nothing *)
Lemma back_id : forall s l, levels_ok s -> level S s <= l -> same (backtrack S s l) s.
Proof.
  intros s l L H. split; [|split; [|split]].
  - cbn. apply filter_all_true. intros a I. apply Nat.leb_le. pose proof (lv_order _ L a I). lia.
  - intro p. rewrite back_lookup. apply filter_all_true. intros a I. apply Nat.leb_le. pose proof (lv_pkgs _ L p a I). lia.
  - cbn. apply filter_all_true. intros e I. apply Nat.leb_le. pose proof (lv_required _ L e I). lia.
  - cbn. apply filter_all_true. intros [p a] I. apply Nat.leb_le. cbn. pose proof (decision_levels s p a L I). lia.
Qed.
Lemma make_assignment_spec : forall s t c a, make_assignment S V O root s t c = Ok a -> a_term S a = t /\ a_cause S a = c /\ a_order S a = length (s_order S s) /\
  a_level S a = (if is_none c && negb (t_pkg t =? root)%N then Datatypes.S (level S s) else level S s) /\
  match accumulated S s (t_pkg t) with Some prev => o_inter O prev (t_con t) = Ok (a_acc S a) | None => a_acc S a = t_con t end.
Proof.
  intros s t c a H. unfold make_assignment in H. destruct (accumulated S s (t_pkg t)) as [prev|] eqn:E.
  - destruct (o_inter O prev (t_con t)) as [r|] eqn:EI; [|discriminate]. cbn [bind] in H. injection H as <-. cbn. auto.
  - cbn [bind] in H. injection H as <-. cbn. auto.
Qed.
Lemma step_levels : forall s e s', levels_ok s -> legal s e -> step s e = Ok s' -> levels_ok s'.
Proof.
  intros s e s' L LG H. destruct e as [t|t c|ps]; cbn [step] in H.
  - unfold assign_term in H. destruct (make_assignment S V O root s t None) as [a|] eqn:E; [|discriminate]. cbn [bind] in H. injection H as <-. apply make_assignment_spec in E. destruct E as (ET & EC & EO & EL & _). destruct LG as [LG1 LG2].
    apply assign_levels; [exact L| |congruence]. intros _. rewrite ET. split; [exact LG1|]. rewrite EL. cbn [is_none andb]. destruct (t_pkg t =? root)%N eqn:X; cbn [negb].
    + apply N.eqb_eq in X. apply LG2 in X. unfold level. rewrite X. reflexivity.
    + apply N.eqb_neq in X. unfold level. destruct (s_decisions S s) as [|d l]; [exfalso; apply X, LG2; reflexivity|]. cbn. lia.
  - unfold assign_term in H. destruct (make_assignment S V O root s t (Some c)) as [a|] eqn:E; [|discriminate]. cbn [bind] in H. injection H as <-. apply make_assignment_spec in E. destruct E as (ET & EC & EO & EL & _).
    apply assign_levels; [exact L|congruence|]. intros _. rewrite EL. cbn. lia.
  - injection H as <-. apply require_levels. exact L.
Qed.
Lemma run_levels : forall es s, run es s -> levels_ok s.
Proof. intros es s R. induction R; [apply levels0|eapply step_levels; eauto]. Qed.
Lemma reached_levels : forall s, reached s -> levels_ok s.
Proof. intros s R. induction R; [apply levels0|eapply step_levels; eauto|apply back_levels; assumption]. Qed.

(** an event leads to its level *)
Lemma event_level_after : forall s e s', levels_ok s -> legal s e -> step s e = Ok s' -> level S s' = event_level s e /\ level S s <= event_level s e.
Proof.
  intros s e s' L LG H. destruct e as [t|t c|ps]; cbn [step] in H; cbn [event_level].
  - unfold assign_term in H. destruct (make_assignment S V O root s t None) as [a|] eqn:E; [|discriminate]. cbn [bind] in H. injection H as <-. apply make_assignment_spec in E. destruct E as (ET & EC & _). destruct LG as [LG1 LG2].
    assert (ED : length (s_decisions S (assign S s a)) = Datatypes.S (length (s_decisions S s))).
    { unfold assign, is_decision. cbn. rewrite EC, ET. cbn. rewrite (pset_new _ _ _ _ LG1), app_length. cbn. lia. }
    unfold level at 1. rewrite ED. destruct (t_pkg t =? root)%N eqn:X.
    + apply N.eqb_eq in X. apply LG2 in X. unfold level. rewrite X. cbn. lia.
    + apply N.eqb_neq in X. unfold level. destruct (s_decisions S s) as [|d l]; [exfalso; apply X, LG2; reflexivity|]. cbn. lia.
  - unfold assign_term in H. destruct (make_assignment S V O root s t (Some c)) as [a|] eqn:E; [|discriminate]. cbn [bind] in H. injection H as <-. apply make_assignment_spec in E. destruct E as (ET & EC & _).
    unfold level, assign, is_decision. cbn. rewrite EC. cbn. lia.
  - injection H as <-. unfold level, require. cbn. lia.
Qed.
(** an event above the level is undone by backtracking *)
Lemma require_filtered : forall k l, l < k -> forall (ps : list pkg) (d : list (pkg * nat)), filter (fun e => snd e <=? l) (fold_left (fun req p => if is_none (pget p req) then pset p k req else req) ps d) = filter (fun e => snd e <=? l) d.
Proof.
  intros k l H ps. induction ps as [|p ps IH]; intro d; [reflexivity|]. cbn. rewrite IH. destruct (pget p d) eqn:G; cbn; [reflexivity|]. rewrite (pset_new _ _ _ _ G), filter_app2. cbn. assert (E : (k <=? l) = false) by (apply Nat.leb_gt; exact H). rewrite E. apply app_nil_r.
Qed.
Lemma undone_above : forall s e s' l, levels_ok s -> legal s e -> step s e = Ok s' -> l < event_level s e -> same (backtrack S s' l) (backtrack S s l).
Proof.
  intros s e s' l L LG H HL.
  assert (AS : forall a, a_level S a = event_level s e -> (a_cause S a = None -> pget (t_pkg (a_term S a)) (s_decisions S s) = None) -> same (backtrack S (assign S s a) l) (backtrack S s l)).
  { intros a EL HN. assert (EF : (a_level S a <=? l) = false) by (apply Nat.leb_gt; lia). split; [|split; [|split]].
    - cbn. rewrite filter_app2. cbn. rewrite EF. apply app_nil_r.
    - intro p. rewrite !back_lookup, assign_lookup. destruct (p =? _)%N; [|reflexivity]. rewrite filter_app2. cbn. rewrite EF. apply app_nil_r.
    - reflexivity.
    - cbn. unfold is_decision. destruct (a_cause S a) eqn:EC; cbn; [reflexivity|]. rewrite (pset_new _ _ _ _ (HN eq_refl)), filter_app2. cbn. rewrite EF. apply app_nil_r. }
  destruct e as [t|t c|ps]; cbn [step] in H.
  - unfold assign_term in H. destruct (make_assignment S V O root s t None) as [a|] eqn:E; [|discriminate]. cbn [bind] in H. injection H as <-. apply make_assignment_spec in E. destruct E as (ET & EC & EO & EL & _). destruct LG as [LG1 LG2].
    apply AS; [|intros _; rewrite ET; exact LG1]. rewrite EL. cbn. destruct (t_pkg t =? root)%N; reflexivity.
  - unfold assign_term in H. destruct (make_assignment S V O root s t (Some c)) as [a|] eqn:E; [|discriminate]. cbn [bind] in H. injection H as <-. apply make_assignment_spec in E. destruct E as (ET & EC & EO & EL & _).
    apply AS; [rewrite EL; reflexivity|congruence].
  - injection H as <-. split; [reflexivity|]. split; [intro p; rewrite !back_lookup; reflexivity|]. split; [|reflexivity]. cbn. apply require_filtered. exact HL.
Qed.
(** C17, runs without backtracking *)
Lemma back_same : forall a b l, same a b -> same (backtrack S a l) (backtrack S b l).
Proof.
  intros a b l (A & B & C & D). split; [cbn; rewrite A; reflexivity|]. split; [intro p; rewrite !back_lookup, B; reflexivity|]. split; cbn; [rewrite C|rewrite D]; reflexivity.
Qed.
Lemma backtrack_replay : forall es s, run es s -> forall l, exists es1 es2 s1, es = es1 ++ es2 /\ run es1 s1 /\ same (backtrack S s l) s1 /\
  (forall e, In e es1 -> fst e <= l) /\ (forall e, In e es2 -> l < fst e).
Proof.
  intros es s R. induction R as [|es s e s' R IH LG H]; intro l.
  - exists [], [], (psol0 S). split; [reflexivity|]. split; [constructor|]. split; [apply back_id; [apply levels0|cbn; lia]|]. split; intros e [].
  - destruct (IH l) as (es1 & es2 & s1 & E & R1 & SM & L1 & L2). pose proof (run_levels es s R) as LV. destruct (event_level_after s e s' LV LG H) as [EA EB].
    destruct (le_lt_dec (event_level s e) l) as [C|C].
    + exists (es ++ [(event_level s e, e)]), [], s'. split; [rewrite app_nil_r; reflexivity|]. split; [eapply run_step; eauto|]. split; [apply back_id; [eapply step_levels; eauto|lia]|]. split; [|intros x []].
      intros x I. apply in_app_iff in I. destruct I as [I|[<-|[]]]; [|exact C].
      (* all earlier levels are at most the level of s *)
      assert (G : forall es s, run es s -> forall x, In x es -> fst x <= level S s).
      { clear. intros es s R. induction R as [|es s e s' R IH LG H]; intros x I; [contradiction|]. destruct (event_level_after s e s' (run_levels es s R) LG H) as [A B]. apply in_app_iff in I. destruct I as [I|[<-|[]]]; [specialize (IH x I); lia|cbn; lia]. }
      specialize (G es s R x I). lia.
    + exists es1, (es2 ++ [(event_level s e, e)]), s1. split; [rewrite E, app_assoc; reflexivity|]. split; [exact R1|]. split; [eapply same_trans; [eapply undone_above; eauto|exact SM]|]. split; [exact L1|].
      intros x I. apply in_app_iff in I. destruct I as [I|[<-|[]]]; [exact (L2 x I)|exact C].
Qed.
(** events act alike on the same partial solutions *)
Lemma same_accumulated : forall a b p, same a b -> accumulated S a p = accumulated S b p.
Proof. intros a b p (_ & B & _). unfold accumulated. rewrite B. reflexivity. Qed.
Lemma same_assign : forall a b x, same a b -> same (assign S a x) (assign S b x).
Proof.
  intros a b x (A & B & C & D). split; [cbn; rewrite A; reflexivity|]. split; [intro p; rewrite !assign_lookup, B; reflexivity|]. split; [exact C|]. cbn. rewrite D. reflexivity.
Qed.
Lemma same_step : forall a b e a', same a b -> step a e = Ok a' -> exists b', step b e = Ok b' /\ same a' b'.
Proof.
  intros a b e a' SM H. assert (G : forall t c, assign_term S V O root a t c = Ok a' -> exists b', assign_term S V O root b t c = Ok b' /\ same a' b').
  { intros t c X. unfold assign_term in *. assert (E : make_assignment S V O root b t c = make_assignment S V O root a t c).
    { unfold make_assignment. rewrite (same_accumulated a b _ SM), (same_level a b SM). destruct SM as (A & _). rewrite A. reflexivity. }
    rewrite E. destruct (make_assignment S V O root a t c) as [x|]; [|discriminate]. cbn [bind] in *. injection X as <-. exists (assign S b x). split; [reflexivity|]. apply same_assign. exact SM. }
  destruct e as [t|t c|ps]; cbn [step] in *; [apply G, H|apply G, H|]. injection H as <-. exists (require S b ps). split; [reflexivity|].
  destruct SM as (A & B & C & D). split; [exact A|]. split; [exact B|]. split; [|exact D]. cbn. rewrite C. unfold level. rewrite D. reflexivity.
Qed.
Lemma same_legal : forall a b e, same a b -> legal a e -> legal b e.
Proof. intros a b e (_ & _ & _ & D) H. destruct e; cbn in *; [rewrite <- D; exact H|exact H|exact H]. Qed.
Lemma reached_run : forall s, reached s -> exists es s1, run es s1 /\ same s s1.
Proof.
  intros s R. induction R as [|s e s' R (es & s1 & R1 & SM) LG H|s l R (es & s1 & R1 & SM)].
  - exists [], (psol0 S). split; [constructor|apply same_refl].
  - destruct (same_step s s1 e s' SM H) as (s2 & H2 & SM2). exists (es ++ [(event_level s1 e, e)]), s2. split; [|exact SM2]. eapply run_step; [exact R1|exact (same_legal _ _ _ SM LG)|exact H2].
  - destruct (backtrack_replay es s1 R1 l) as (es1 & es2 & s2 & _ & R2 & SM2 & _). exists es1, s2. split; [exact R2|]. eapply same_trans; [apply back_same; exact SM|exact SM2].
Qed.
End Solution.
