From Coq Require Import String Ascii List Bool NArith Arith Lia Permutation.
From Verif Require Import Base BaseFacts VersionModel VersionProofs SpecifierModel CollectionModel CollectionProofs LockModel LockSpec.
Import ListNotations.
Open Scope nat_scope.
Open Scope list_scope.
Open Scope bool_scope.

Notation hv k l := (having str_eqb lock_key k l).
Notation fks s l := (first_keys str_eqb s (map lock_key l)).

Definition group_ok (kg : str * list locked) : Prop := snd kg <> [] /\ Forall (fun x => lock_key x = fst kg) (snd kg).
Definition lock_ok (l : lock) : Prop := NoDup (map fst l) /\ Forall group_ok l.

Lemma groupby_ok : forall ls, lock_ok (groupby str_eqb ls lock_key).
Proof.
  intro ls. split; [apply groupby_nodup, str_eqb_eq|]. apply Forall_forall. intros [k g] I.
  apply (groupby_in str_eqb str_eqb_eq) in I. destruct I as [-> I]. split; cbn.
  - intro E. apply in_map_iff in I. destruct I as (x & Ex & Ix).
    assert (In x (hv k ls)) by (apply filter_In; split; [exact Ix|apply str_eqb_eq, Ex]). rewrite E in H. destruct H.
  - apply Forall_forall. intros x Ix. apply filter_In in Ix. apply str_eqb_eq. tauto.
Qed.
Lemma filter_ok : forall p (l : lock), lock_ok l -> lock_ok (filter p l).
Proof.
  intros p l [N F]. split; [apply filter_fst_nodup, N|]. apply Forall_forall. intros x I. apply filter_In in I.
  rewrite Forall_forall in F. apply F. tauto.
Qed.
Lemma unlock_filter : forall l ns, lock_ok l -> unlock_packages l ns = filter (fun kv => negb (str_mem (fst kv) ns)) l.
Proof. intros l ns [N _]. apply dict_del_many, N. Qed.
Lemma lock_step_ok : forall l o, lock_ok l -> lock_ok (lock_step l o).
Proof.
  intros l [e|ns|] H; cbn.
  - apply groupby_ok.
  - rewrite unlock_filter by exact H. apply filter_ok, H.
  - apply groupby_ok.
Qed.
Lemma reachable_ok : forall l, reachable_lock l -> lock_ok l.
Proof.
  intros l (ls & ops & ->). assert (H : lock_ok (lock_init ls)) by apply groupby_ok. revert H.
  generalize (lock_init ls). induction ops as [|o ops IH]; intros l H; [exact H|]. cbn. apply IH, lock_step_ok, H.
Qed.

Lemma entries_cons : forall k g l, lock_entries ((k, g) :: l) = g ++ lock_entries l.
Proof. reflexivity. Qed.
Lemma filter_homog_all : forall k (g : list locked), Forall (fun x => lock_key x = k) g -> hv k g = g.
Proof.
  intros k g F. induction F as [|x g E F IH]; [reflexivity|]. unfold having in *. cbn. rewrite E, str_eqb_refl. f_equal. exact IH.
Qed.
Lemma filter_homog_none : forall k k' (g : list locked), Forall (fun x => lock_key x = k') g -> k <> k' -> hv k g = [].
Proof.
  intros k k' g F N. apply having_none; [apply str_eqb_eq|]. intro I. apply in_map_iff in I. destruct I as (x & E & Ix).
  rewrite Forall_forall in F. apply N. rewrite <- E. symmetry. symmetry. apply F, Ix.
Qed.
Lemma entries_key_in : forall l x, lock_ok l -> In x (lock_entries l) -> In (lock_key x) (map fst l).
Proof.
  intros l x [_ F] I. unfold lock_entries in I. apply in_concat in I. destruct I as (g & Ig & Ix). apply in_map_iff in Ig.
  destruct Ig as (kg & E & Ikg). rewrite Forall_forall in F. destruct (F kg Ikg) as [_ H]. rewrite Forall_forall in H.
  subst g. rewrite (H x Ix). apply in_map, Ikg.
Qed.
Lemma first_keys_homog : forall g k s (r : list str), g <> [] -> Forall (fun x => lock_key x = k) g -> ~ In k s ->
  first_keys str_eqb s (map lock_key g ++ r) = k :: first_keys str_eqb (k :: s) r.
Proof.
  intros [|x g] k s r N F Ns; [congruence|]. inversion F as [|? ? E F']; subst. cbn [map app first_keys].
  replace (existsb (str_eqb (lock_key x)) s) with false by (symmetry; apply memb_not; [apply str_eqb_eq|exact Ns]). f_equal.
  clear N F. induction F' as [|y g E F IH]; [reflexivity|]. cbn [map app first_keys existsb]. rewrite E, str_eqb_refl. cbn [orb]. exact IH.
Qed.
Lemma first_keys_entries : forall l s, lock_ok l -> (forall k, In k s -> ~ In k (map fst l)) ->
  fks s (lock_entries l) = map fst l.
Proof.
  induction l as [|[k g] l IH]; intros s [N F] D; [reflexivity|]. rewrite entries_cons, map_app.
  inversion F as [|? ? [G1 G2] F']; subst. inversion N as [|? ? N1 N2]; subst. cbn [fst snd] in *.
  rewrite first_keys_homog with (k := k); auto.
  - cbn [map fst]. f_equal. apply IH; [split; assumption|]. intros k' [<-|I] I'; [exact (N1 I')|]. apply (D k' I). right. exact I'.
  - intro I. apply (D k I). left. reflexivity.
Qed.
Lemma having_entries : forall l k g, lock_ok l -> In (k, g) l -> hv k (lock_entries l) = g.
Proof.
  induction l as [|[k' g'] l IH]; intros k g [N F] I; [destruct I|]. rewrite entries_cons. unfold having. rewrite filter_app.
  inversion F as [|? ? [G1 G2] F']; subst. inversion N as [|? ? N1 N2]; subst. cbn [fst snd] in *.
  fold (hv k g'). fold (hv k (lock_entries l)). destruct I as [E|I].
  - injection E as -> ->. rewrite filter_homog_all by exact G2. rewrite having_none; [apply app_nil_r|apply str_eqb_eq|].
    intro H. apply in_map_iff in H. destruct H as (x & E & Ix). apply N1. rewrite <- E. apply entries_key_in; [split; assumption|exact Ix].
  - rewrite filter_homog_none with (k' := k'); [apply IH; [split; assumption|exact I]|exact G2|].
    intros ->. apply N1. apply (in_map fst _ _ I).
Qed.
Lemma groupby_entries : forall l, lock_ok l -> groupby str_eqb (lock_entries l) lock_key = l.
Proof.
  intros l H. rewrite groupby_groups by apply str_eqb_eq. unfold groups_of.
  rewrite first_keys_entries by (auto; intros k []). rewrite map_map. transitivity (map (fun x : str * list locked => x) l); [|apply map_id].
  apply map_ext_in. intros [k g] I. cbn [fst]. f_equal. apply having_entries; assumption.
Qed.

(** filtering the entries of a lock gives the entries of a lock *)
Definition filter_lock (p : locked -> bool) (l : lock) : lock :=
  filter (fun kg => match snd kg with [] => false | _ => true end) (map (fun kg => (fst kg, filter p (snd kg))) l).
Lemma filter_lock_ok : forall p l, lock_ok l -> lock_ok (filter_lock p l).
Proof.
  intros p l [N F]. unfold filter_lock. split.
  - apply filter_fst_nodup. rewrite map_map. exact N.
  - apply Forall_forall. intros [k g] I. apply filter_In in I. destruct I as [I G]. cbn in G. split; [cbn; destruct g; congruence|].
    apply in_map_iff in I. destruct I as ([k' g'] & E & I). injection E as <- <-. cbn [fst snd].
    apply Forall_forall. intros x Ix. apply filter_In in Ix. rewrite Forall_forall in F. destruct (F _ I) as [_ H].
    rewrite Forall_forall in H. apply H. tauto.
Qed.
Lemma filter_lock_entries : forall p l, lock_entries (filter_lock p l) = filter p (lock_entries l).
Proof.
  intros p l. induction l as [|[k g] l IH]; [reflexivity|]. rewrite entries_cons, filter_app, <- IH. unfold filter_lock.
  cbn [map filter fst snd]. destruct (filter p g) eqn:E; [reflexivity|]. reflexivity.
Qed.
Lemma regroup_entries : forall p l, lock_ok l ->
  lock_entries (groupby str_eqb (filter p (lock_entries l)) lock_key) = filter p (lock_entries l).
Proof. intros p l H. rewrite <- filter_lock_entries, groupby_entries; [reflexivity|apply filter_lock_ok, H]. Qed.

Lemma concat_having_filter : forall q (L : list locked) ks,
  filter q (concat (map (fun k => hv k L) ks)) = concat (map (fun k => hv k (filter q L)) ks).
Proof.
  intros q L ks. induction ks as [|k ks IH]; [reflexivity|]. cbn. rewrite filter_app, IH. f_equal.
  unfold having. clear. induction L as [|x L IH]; [reflexivity|]. cbn.
  destruct (str_eqb (lock_key x) k) eqn:E1; destruct (q x) eqn:E2; cbn; rewrite ?E1, ?E2; [f_equal|..]; exact IH.
Qed.
Lemma groupby_entries_map : forall L, lock_entries (groupby str_eqb L lock_key) = concat (map (fun k => hv k L) (fks [] L)).
Proof. intro L. unfold lock_entries. rewrite groupby_groups by apply str_eqb_eq. unfold groups_of. rewrite map_map. reflexivity. Qed.
Lemma concat_having_out : forall (X : list locked) ks, (forall k, In k ks -> ~ In k (map lock_key X)) -> concat (map (fun k => hv k X) ks) = [].
Proof.
  intros X ks H. induction ks as [|k ks IH]; [reflexivity|]. cbn. rewrite having_none; [|apply str_eqb_eq|apply H; left; reflexivity].
  apply IH. intros k' I. apply H. right. exact I.
Qed.
(** appending entries that [q] rejects, and grouping, does not disturb those [q] accepts *)
Lemma filter_grouped : forall q p l I, lock_ok l -> (forall x, q x = true -> p x = true) -> (forall x, In x I -> q x = false) ->
  filter q (lock_entries (groupby str_eqb (filter p (lock_entries l) ++ I) lock_key)) = filter q (lock_entries l).
Proof.
  intros q p l I H QP QI. set (X := filter p (lock_entries l)). rewrite groupby_entries_map, concat_having_filter.
  rewrite filter_app. replace (filter q I) with (@nil locked).
  2:{ symmetry. clear - QI. induction I as [|x I IH]; [reflexivity|]. cbn. rewrite (QI x (or_introl eq_refl)). apply IH. intros y Iy. apply QI. right. exact Iy. }
  rewrite app_nil_r, map_app, first_keys_app by apply str_eqb_eq. rewrite map_app, concat_app.
  rewrite (concat_having_out (filter q X) (first_keys str_eqb (map lock_key X ++ []) (map lock_key I))).
  2:{ intros k Ik Ik'. apply first_keys_in in Ik; [|apply str_eqb_eq]. destruct Ik as [_ Ik]. apply Ik. rewrite app_nil_r.
      apply in_map_iff in Ik'. destruct Ik' as (x & E & Ix). apply filter_In in Ix. apply in_map_iff. exists x. tauto. }
  rewrite app_nil_r, <- concat_having_filter, <- groupby_entries_map. unfold X. rewrite regroup_entries by exact H.
  clear - QP. generalize (lock_entries l). intro L. induction L as [|x L IH]; [reflexivity|]. cbn.
  destruct (p x) eqn:E1; cbn; [destruct (q x); [f_equal|]; exact IH|]. destruct (q x) eqn:E2; [rewrite (QP x E2) in E1; discriminate|exact IH].
Qed.

Lemma update_others : forall l e e', lock_ok l -> markers_hash e' <> markers_hash e ->
  env_specific_locks (update_lock l e) e' = env_specific_locks l e'.
Proof.
  intros l e e' H N. unfold env_specific_locks, update_lock. f_equal. apply filter_grouped; [exact H|..].
  - intros x E. apply str_eqb_eq in E. apply negb_true_iff, str_eqb_neq. congruence.
  - intros x I. apply in_map_iff in I. destruct I as (d & <- & _). cbn. apply str_eqb_neq. congruence.
Qed.
Lemma filter_perm : forall A (p : A -> bool) l l', Permutation l l' -> Permutation (filter p l) (filter p l').
Proof.
  intros A p l l' P. induction P; cbn; auto.
  - destruct (p x); auto.
  - destruct (p x), (p y); auto. apply perm_swap.
  - etransitivity; eassumption.
Qed.
Lemma filter_none : forall A (p : A -> bool) l, (forall x, In x l -> p x = false) -> filter p l = [].
Proof. intros A p l H. induction l as [|x l IH]; [reflexivity|]. cbn. rewrite (H x (or_introl eq_refl)). apply IH. intros y I. apply H. right. exact I. Qed.
Lemma filter_all : forall A (p : A -> bool) l, (forall x, In x l -> p x = true) -> filter p l = l.
Proof. intros A p l H. induction l as [|x l IH]; [reflexivity|]. cbn. rewrite (H x (or_introl eq_refl)). f_equal. apply IH. intros y I. apply H. right. exact I. Qed.
Lemma update_own : forall l e, Permutation (env_specific_locks (update_lock l e) e) (installed e).
Proof.
  intros l e. unfold env_specific_locks, update_lock, lock_entries. rewrite (filter_perm _ _ _ _ (groupby_perm str_eqb str_eqb_eq lock_key _)).
  rewrite filter_app, filter_none, filter_all.
  - cbn [app]. rewrite map_map. cbn. rewrite map_id. reflexivity.
  - intros x I. apply in_map_iff in I. destruct I as (d & <- & _). cbn. apply str_eqb_refl.
  - intros x I. apply filter_In in I. destruct I as [_ I]. apply negb_true_iff. exact I.
Qed.
Lemma update_entries : forall l e lp, In lp (lock_entries (update_lock l e)) <->
  (In lp (lock_entries l) /\ lenv lp <> markers_hash e) \/ (lenv lp = markers_hash e /\ In (lpkg lp) (installed e)).
Proof.
  intros l e lp. unfold update_lock.
  assert (P := groupby_perm str_eqb str_eqb_eq lock_key (filter (fun lp => negb (str_eqb (lenv lp) (markers_hash e))) (lock_entries l) ++ map (LV (markers_hash e)) (installed e))).
  fold (lock_entries (groupby str_eqb (filter (fun lp => negb (str_eqb (lenv lp) (markers_hash e))) (lock_entries l) ++ map (LV (markers_hash e)) (installed e)) lock_key)) in P.
  split; intro I.
  - apply (Permutation_in _ P) in I. apply in_app_iff in I. destruct I as [I|I].
    + apply filter_In in I. left. split; [tauto|]. apply str_eqb_neq, negb_true_iff. tauto.
    + apply in_map_iff in I. destruct I as (d & <- & I). right. auto.
  - apply (Permutation_in _ (Permutation_sym P)). apply in_app_iff. destruct I as [[I N]|[E I]].
    + left. apply filter_In. split; [exact I|]. apply negb_true_iff, str_eqb_neq, N.
    + right. destruct lp as [h d]. cbn in *. subst h. apply in_map, I.
Qed.
Lemma update_idem : forall l e, lock_ok l -> update_lock (update_lock l e) e = update_lock l e.
Proof.
  intros l e H. unfold update_lock at 1. unfold update_lock at 1. unfold update_lock. f_equal. f_equal.
  apply filter_grouped; [exact H|auto|]. intros x I. apply in_map_iff in I. destruct I as (d & <- & _). cbn. rewrite str_eqb_refl. reflexivity.
Qed.
Lemma save_load_same : forall l, lock_ok l -> save_load l = l.
Proof. intros l H. apply groupby_entries, H. Qed.

Lemma unlock_entries : forall l ns, lock_ok l ->
  lock_entries (unlock_packages l ns) = filter (fun lp => negb (str_mem (pname (lpkg lp)) ns)) (lock_entries l).
Proof.
  intros l ns H. rewrite unlock_filter by exact H. destruct H as [_ F].
  induction l as [|[k g] l IH]; [reflexivity|]. inversion F as [|? ? [_ G] F']; subst. cbn [fst snd] in G. cbn [filter fst].
  rewrite entries_cons, filter_app, <- (IH F'). destruct (str_mem k ns) eqn:E; cbn [negb].
  - rewrite (filter_none _ _ g); [reflexivity|]. intros x I. rewrite Forall_forall in G. fold (lock_key x). rewrite (G x I), E. reflexivity.
  - rewrite entries_cons. f_equal. symmetry. apply filter_all. intros x I. rewrite Forall_forall in G. fold (lock_key x). rewrite (G x I), E. reflexivity.
Qed.

(** sorting by a 0/1 key *)
Lemma insert_zero : forall A (f : A -> bool) x l, f x = true -> insert_by (fun p => if f p then 0 else 1) x l = x :: l.
Proof. intros A f x [|y l] E; cbn; [reflexivity|]. rewrite E. reflexivity. Qed.
Lemma insert_one : forall A (f : A -> bool) x a b, f x = false -> Forall (fun y => f y = true) a -> Forall (fun y => f y = false) b ->
  insert_by (fun p => if f p then 0 else 1) x (a ++ b) = a ++ x :: b.
Proof.
  intros A f x a b E Fa Fb. induction Fa as [|y a Ey Fa IH].
  - cbn. destruct Fb as [|y b Ey Fb]; cbn; [reflexivity|]. rewrite E, Ey. reflexivity.
  - cbn. rewrite E, Ey. cbn. f_equal. exact IH.
Qed.
Lemma sort_by_partition : forall A (f : A -> bool) l,
  sort_by (fun p => if f p then 0 else 1) l = filter f l ++ filter (fun x => negb (f x)) l.
Proof.
  intros A f l. induction l as [|x l IH]; [reflexivity|]. cbn. rewrite IH. destruct (f x) eqn:E; cbn [negb].
  - apply insert_zero, E.
  - apply insert_one; [exact E|..].
    + apply Forall_forall. intros y I. apply filter_In in I. tauto.
    + apply Forall_forall. intros y I. apply filter_In in I. apply negb_true_iff. tauto.
Qed.

Lemma hash_key_eqb_eq : forall a b, hash_key_eqb a b = true <-> a = b.
Proof.
  assert (O : forall x y : option N, opt_eqb N.eqb x y = true <-> x = y) by (apply opt_eqb_eq, N.eqb_eq).
  assert (L : forall x y : list N, list_eqb N.eqb x y = true <-> x = y) by (apply list_eqb_eq, N.eqb_eq).
  assert (S : forall x y : option str, opt_eqb str_eqb x y = true <-> x = y) by (apply opt_eqb_eq, str_eqb_eq).
  assert (P : forall x y : option (str * N), opt_eqb pre_eqb x y = true <-> x = y) by (apply opt_eqb_eq, pre_eqb_eq).
  intros [u p s|n|[[[[[r e] d] po] pr] ll]] [u' p' s'|n'|[[[[[r' e'] d'] po'] pr'] ll']]; cbn [hash_key_eqb];
    try (split; [discriminate|congruence]).
  - rewrite !andb_true_iff, !str_eqb_eq, S. split; [intros [[-> ->] ->]; reflexivity|intro E; injection E; auto].
  - rewrite str_eqb_eq. split; [intros ->; reflexivity|intro E; injection E; auto].
  - rewrite !andb_true_iff, !O, L, S, P. split; [intros [[[[[-> ->] ->] ->] ->] ->]; reflexivity|].
    intro E. injection E as -> -> -> -> -> ->. repeat split.
Qed.

Lemma dict_get_having : forall l n, lock_ok l -> (match dict_get n l with Some x => x | None => [] end) = hv n (lock_entries l).
Proof.
  intros l n H. destruct (dict_get n l) as [g|] eqn:E.
  - symmetry. apply having_entries; [exact H|]. apply dict_get_in, E.
  - symmetry. apply having_none; [apply str_eqb_eq|]. intro I. apply in_map_iff in I. destruct I as (x & Ex & Ix).
    apply dict_get_none in E. apply E. rewrite <- Ex. apply entries_key_in; assumption.
Qed.
Lemma locked_versions_form : forall l e n, lock_ok l -> n <> [] ->
  let rel := hv n (lock_entries l) in
  locked_versions l e n =
    match find (fun lp => str_eqb (lenv lp) (markers_hash e)) rel with
    | Some lp => lpkg lp :: map lpkg (filter (fun lp => negb (str_eqb (lenv lp) (markers_hash e))) rel)
    | None => map lpkg rel
    end.
Proof.
  intros l e n H N rel. unfold locked_versions.
  replace (match n with [] => lock_entries l | _ => match dict_get n l with Some x => x | None => [] end end) with rel
    by (destruct n; [congruence|symmetry; apply dict_get_having, H]).
  clearbody rel. destruct rel as [|x rel]; [reflexivity|]. set (R := x :: rel). rewrite map_length.
  destruct (find (fun lp => str_eqb (lenv lp) (markers_hash e)) R) as [lp|] eqn:F.
  - apply find_some in F. destruct F as [I E].
    replace (length (filter (fun lp0 => negb (str_eqb (lenv lp0) (markers_hash e))) R) =? length R) with false; [reflexivity|].
    symmetry. apply Nat.eqb_neq. intro Q. clearbody R.
    assert (LT : forall R : list locked, length (filter (fun lp0 => negb (str_eqb (lenv lp0) (markers_hash e))) R) <= length R).
    { intro R0. induction R0 as [|a R0 IH]; [cbn; lia|]. cbn. destruct (negb _); cbn; lia. }
    induction R as [|y R IH]; [destruct I|]. cbn in Q. destruct I as [->|I].
    + rewrite E in Q. cbn in Q. specialize (LT R). lia.
    + destruct (negb (str_eqb (lenv y) (markers_hash e))); cbn in Q; [|specialize (LT R); lia]. apply IH; [exact I|lia].
  - assert (A : forall y, In y R -> negb (str_eqb (lenv y) (markers_hash e)) = true).
    { intros y I. apply negb_true_iff. apply (find_none _ _ F y I). }
    rewrite (filter_all _ _ R A). destruct (length R =? length R); reflexivity.
Qed.
Lemma locked_versions_in : forall l e n d, lock_ok l -> n <> [] -> one_per_env (lock_entries l) ->
  (In d (locked_versions l e n) <-> exists lp, In lp (lock_entries l) /\ lpkg lp = d /\ lock_key lp = n).
Proof.
  intros l e n d H N ONE. rewrite locked_versions_form by assumption. cbv zeta.
  assert (R : forall lp, In lp (hv n (lock_entries l)) <-> In lp (lock_entries l) /\ lock_key lp = n).
  { intro lp. unfold having. rewrite filter_In, str_eqb_eq. reflexivity. }
  destruct (find _ _) as [l0|] eqn:F.
  - apply find_some in F. destruct F as [I0 E0]. apply str_eqb_eq in E0. cbn [In]. rewrite in_map_iff. split.
    + intros [<-|(lp & E & I)].
      * exists l0. apply R in I0. tauto.
      * apply filter_In in I. destruct I as [I _]. exists lp. apply R in I. tauto.
    + intros (lp & I & E & K). destruct (str_eqb (lenv lp) (markers_hash e)) eqn:X.
      * left. apply str_eqb_eq in X. assert (l0 = lp); [|congruence]. apply R in I0. destruct I0 as [I0 K0].
        clear - ONE I I0 K K0 X E0. unfold one_per_env in ONE.
        assert (P : (lenv l0, lock_key l0) = (lenv lp, lock_key lp)) by congruence. clear - ONE I I0 P.
        revert ONE I I0. generalize (lock_entries l). intro L. induction L as [|a L IH]; intros ONE I I0; [destruct I|].
        cbn in ONE. inversion ONE as [|? ? N1 N2]; subst. destruct I as [->|I], I0 as [->|I0]; auto.
        -- exfalso. apply N1. rewrite <- P. apply (in_map (fun lp => (lenv lp, lock_key lp)) _ _ I0).
        -- exfalso. apply N1. rewrite P. apply (in_map (fun lp => (lenv lp, lock_key lp)) _ _ I).
      * right. exists lp. split; [exact E|]. apply filter_In. split; [apply R; tauto|]. rewrite X. reflexivity.
  - rewrite in_map_iff. split; intros (lp & A).
    + destruct A as [E I]. apply R in I. exists lp. tauto.
    + exists lp. rewrite R. tauto.
Qed.
Lemma prefer_locked : forall l e ps n, lock_ok l -> one_per_env (lock_entries l) -> n <> [] -> Forall (fun p => pname p = n) ps ->
  exists f, (forall p, In p ps -> (f p = true <-> locked_in l p)) /\
   sort_packages_by_lock_preference l e ps = filter f ps ++ filter (fun p => negb (f p)) ps.
Proof.
  intros l e ps n H ONE N F. destruct ps as [|p0 ps].
  - exists (fun _ => true). split; [intros p []|reflexivity].
  - inversion F as [|? ? E0 F0]; subst. cbn [sort_packages_by_lock_preference].
    exists (fun p => in_version_set (pversion p) (map pversion (locked_versions l e (pname p0)))). split; [|apply sort_by_partition].
    intros p I. rewrite Forall_forall in F. specialize (F p I). cbn in F. unfold in_version_set. rewrite existsb_exists. unfold locked_in. split.
    + intros (w & Iw & Ew). apply in_map_iff in Iw. destruct Iw as (d & <- & Id). apply locked_versions_in in Id; auto.
      destruct Id as (lp & Il & <- & K). apply andb_true_iff in Ew. destruct Ew as [Eh Ee]. apply hash_key_eqb_eq in Eh.
      exists lp. split; [exact Il|]. split; [rewrite F; exact K|]. auto.
    + intros (lp & Il & K & Eh & Ee). exists (pversion (lpkg lp)). split.
      * apply in_map. apply locked_versions_in; auto. exists lp. split; [exact Il|]. split; [reflexivity|]. unfold lock_key. congruence.
      * apply andb_true_iff. split; [apply hash_key_eqb_eq; congruence|exact Ee].
Qed.

(** one version per package and environment is preserved *)
Lemma one_per_env_perm : forall a b, Permutation a b -> one_per_env a -> one_per_env b.
Proof. intros a b P. unfold one_per_env. apply Permutation_NoDup, Permutation_map, P. Qed.
Lemma nodup_map_filter : forall A B (f : A -> B) p l, NoDup (map f l) -> NoDup (map f (filter p l)).
Proof.
  intros A B f p l. induction l as [|x l IH]; intro N; [constructor|]. cbn in *. inversion N as [|? ? N1 N2]; subst.
  destruct (p x); [|auto]. cbn. constructor; [|auto]. intro I. apply N1. apply in_map_iff in I. destruct I as (y & E & I).
  apply filter_In in I. apply in_map_iff. exists y. tauto.
Qed.
Lemma one_per_env_step : forall l o, lock_ok l -> installed_once o -> one_per_env (lock_entries l) -> one_per_env (lock_entries (lock_step l o)).
Proof.
  intros l [e|ns|] H Io ONE; cbn [lock_step].
  - eapply one_per_env_perm; [apply Permutation_sym; apply (groupby_perm str_eqb str_eqb_eq)|].
    unfold one_per_env. rewrite map_app. assert (ND : forall a b : list (str * str), NoDup a -> NoDup b -> (forall x, In x a -> ~ In x b) -> NoDup (a ++ b)).
    { induction a as [|x a IH]; intros b Na Nb D; [exact Nb|]. inversion Na; subst. cbn. constructor.
      - rewrite in_app_iff. intros [X|X]; [contradiction|]. apply (D x); [left; reflexivity|exact X].
      - apply IH; auto. intros y I. apply D. right. exact I. }
    apply ND.
    + apply nodup_map_filter, ONE.
    + rewrite map_map. cbn. cbn in Io. clear - Io. induction (installed e) as [|d L IH]; [constructor|]. cbn in *. inversion Io as [|? ? N1 N2]; subst.
      constructor; [|apply IH, N2]. intro I. apply N1. apply in_map_iff in I. destruct I as (x & E & I). injection E as E. apply in_map_iff. exists x. unfold lock_key in E. cbn in E. auto.
    + intros x I J. apply in_map_iff in I. destruct I as (a & <- & I). apply filter_In in I. destruct I as [_ I].
      apply negb_true_iff, str_eqb_neq in I. apply in_map_iff in J. destruct J as (b & E & J). apply in_map_iff in J. destruct J as (d & <- & _).
      injection E as E _. cbn in E. congruence.
  - rewrite unlock_entries by exact H. apply nodup_map_filter, ONE.
  - rewrite save_load_same by exact H. exact ONE.
Qed.
Lemma one_per_env_ops : forall ops l, lock_ok l -> Forall installed_once ops -> one_per_env (lock_entries l) ->
  one_per_env (lock_entries (fold_left lock_step ops l)).
Proof.
  induction ops as [|o ops IH]; intros l H F ONE; [exact ONE|]. inversion F; subst. cbn. apply IH; [apply lock_step_ok, H|assumption|].
  apply one_per_env_step; assumption.
Qed.

(** candidate filtering *)
Lemma filter_prereleases_spec : forall ps sp, filter_prereleases ps sp =
  if allows_pre_or_dev sp then ps
  else match filter (fun p => negb (is_pre_or_dev_release (pversion p))) ps with [] => ps | r => r end.
Proof. intros ps sp. unfold filter_prereleases. rewrite partition_spec. destruct (filter (fun x => negb (is_pre_or_dev_release (pversion x))) ps); reflexivity. Qed.
Lemma repo_match_idem : forall compat sp ps, Forall (fun p => compat p = true) ps -> filter_prereleases ps sp = ps -> repo_match compat sp ps = ps.
Proof. intros compat sp ps F E. unfold repo_match. rewrite filter_all; [exact E|]. rewrite Forall_forall in F. exact F. Qed.
Lemma filter_prereleases_fix : forall sp ps qs, Permutation ps qs -> filter_prereleases ps sp = ps -> filter_prereleases qs sp = qs.
Proof.
  intros sp ps qs P. rewrite !filter_prereleases_spec. destruct (allows_pre_or_dev sp); [reflexivity|].
  assert (PF := filter_perm _ (fun p => negb (is_pre_or_dev_release (pversion p))) _ _ P). intro E.
  destruct (filter _ ps) as [|x r] eqn:E1.
  - apply Permutation_nil in PF. rewrite PF. reflexivity.
  - assert (A : forall p, In p ps -> negb (is_pre_or_dev_release (pversion p)) = true).
    { intros p I. rewrite <- E in I. rewrite <- E1 in I. apply filter_In in I. tauto. }
    rewrite (filter_all _ _ qs); [destruct qs; reflexivity|]. intros p I. apply A. apply (Permutation_in _ (Permutation_sym P) I).
Qed.
Lemma repo_match_fix : forall compat sp base, filter_prereleases (repo_match compat sp base) sp = repo_match compat sp base.
Proof.
  intros compat sp base. unfold repo_match. set (ps := filter compat base). rewrite (filter_prereleases_spec ps sp).
  destruct (allows_pre_or_dev sp) eqn:E; [rewrite filter_prereleases_spec, E; reflexivity|].
  destruct (filter _ ps) as [|x r] eqn:E1.
  - rewrite filter_prereleases_spec, E, E1. reflexivity.
  - rewrite filter_prereleases_spec, E, <- E1. rewrite (filter_all _ _ (filter _ ps)); [rewrite E1; reflexivity|].
    intros p I. apply filter_In in I. tauto.
Qed.
Lemma repo_match_incl : forall compat sp base p, In p (repo_match compat sp base) -> In p base /\ compat p = true.
Proof.
  intros compat sp base p I. unfold repo_match in I. rewrite filter_prereleases_spec in I.
  assert (In p (filter compat base)); [|apply filter_In; exact H].
  destruct (allows_pre_or_dev sp); [exact I|]. destruct (filter _ (filter compat base)) eqn:E; [exact I|]. rewrite <- E in I. apply filter_In in I. tauto.
Qed.
Lemma lock_repo_match_spec : forall l e compat sp base n, lock_ok l -> one_per_env (lock_entries l) -> n <> [] ->
  Forall (fun p => pname p = n) base ->
  exists f, (forall p, In p base -> (f p = true <-> locked_in l p)) /\
   lock_repo_match l e compat sp base =
     filter f (repo_match compat sp base) ++ filter (fun p => negb (f p)) (repo_match compat sp base).
Proof.
  intros l e compat sp base n H ONE N F. set (R := repo_match compat sp base).
  assert (FR : Forall (fun p => pname p = n) R).
  { apply Forall_forall. intros p I. rewrite Forall_forall in F. apply F. apply (repo_match_incl _ _ _ _ I). }
  destruct (prefer_locked l e base n H ONE N F) as (f0 & F0 & _).
  destruct (prefer_locked l e R n H ONE N FR) as (f & Hf & E). exists f0. split; [exact F0|].
  assert (EQ : forall p, In p R -> f p = f0 p).
  { intros p I. specialize (Hf p I). specialize (F0 p (proj1 (repo_match_incl _ _ _ _ I))).
    destruct (f p), (f0 p); try reflexivity; [symmetry|]; tauto. }
  assert (E' : sort_packages_by_lock_preference l e R = filter f0 R ++ filter (fun p => negb (f0 p)) R).
  { rewrite E. f_equal; apply filter_ext_in; intros p I; rewrite (EQ p I); reflexivity. }
  unfold lock_repo_match. fold R. rewrite E'.
  assert (P : Permutation R (filter f0 R ++ filter (fun p => negb (f0 p)) R)) by apply partition_perm.
  apply repo_match_idem.
  - apply Forall_forall. intros p I. apply (Permutation_in _ (Permutation_sym P)) in I. apply (repo_match_incl _ _ _ _ I).
  - apply (filter_prereleases_fix sp R); [exact P|]. apply repo_match_fix.
Qed.
