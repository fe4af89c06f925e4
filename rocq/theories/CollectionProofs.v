From Coq Require Import String Ascii List Bool NArith ZArith Arith Lia Permutation.
From Verif Require Import Base BaseFacts CollectionModel.
Import ListNotations.
Open Scope nat_scope.
Open Scope list_scope.
Open Scope bool_scope.

Section Keyed.
  Context {A K : Type} (keqb : K -> K -> bool) (keqb_eq : forall a b, keqb a b = true <-> a = b) (key : A -> K).
  Let refl : forall k, keqb k k = true. Proof. intro k. apply keqb_eq. reflexivity. Qed.
  Let neq : forall a b, keqb a b = false <-> a <> b.
  Proof. intros a b. destruct (keqb a b) eqn:E; split; intro H; try reflexivity; try discriminate.
    - exfalso. apply H. apply keqb_eq, E.
    - intro X. apply keqb_eq in X. congruence. Qed.
  Let memb k s := existsb (keqb k) s.
  Lemma memb_iff : forall k s, existsb (keqb k) s = true <-> In k s.
  Proof. intros k s. rewrite existsb_exists. split.
    - intros (x & I & E). apply keqb_eq in E. subst. exact I.
    - intro I. exists k. split; [exact I|apply refl]. Qed.
  Lemma memb_not : forall k s, existsb (keqb k) s = false <-> ~ In k s.
  Proof. intros k s. rewrite <- memb_iff. destruct (existsb _ s); split; congruence. Qed.

  (** keys in order of first occurrence *)
  Fixpoint first_keys (s : list K) (l : list K) : list K :=
    match l with
    | [] => []
    | k :: r => if existsb (keqb k) s then first_keys s r else k :: first_keys (k :: s) r
    end.
  Definition having (k : K) (l : list A) : list A := filter (fun x => keqb (key x) k) l.

  Lemma first_keys_ext : forall l s s', (forall k, In k s <-> In k s') -> first_keys s l = first_keys s' l.
  Proof.
    induction l as [|k l IH]; intros s s' H; [reflexivity|]. cbn [first_keys].
    assert (E : existsb (keqb k) s = existsb (keqb k) s').
    { destruct (existsb (keqb k) s) eqn:E1; symmetry.
      - apply memb_iff. apply H. apply memb_iff, E1.
      - apply memb_not. rewrite <- H. apply memb_not, E1. }
    rewrite E. destruct (existsb (keqb k) s'); [apply IH, H|]. f_equal. apply IH. intro x. cbn. rewrite H. tauto.
  Qed.
  Lemma first_keys_app : forall a s b, first_keys s (a ++ b) = first_keys s a ++ first_keys (a ++ s) b.
  Proof.
    induction a as [|k a IH]; intros s b; [reflexivity|]. cbn [first_keys app].
    destruct (existsb (keqb k) s) eqn:E.
    - rewrite IH. f_equal. apply first_keys_ext. intro x. cbn. rewrite !in_app_iff.
      apply memb_iff in E. split; [tauto|]. intros [->|H]; tauto.
    - cbn [app]. f_equal. rewrite IH. f_equal. apply first_keys_ext. intro x. cbn. rewrite !in_app_iff. cbn. tauto.
  Qed.
  Lemma first_keys_in : forall l s k, In k (first_keys s l) <-> In k l /\ ~ In k s.
  Proof.
    induction l as [|x l IH]; intros s k; cbn [first_keys]; [cbn; tauto|].
    destruct (existsb (keqb x) s) eqn:E.
    - apply memb_iff in E. rewrite IH. cbn. split; [tauto|]. intros [[->|H] N]; tauto.
    - apply memb_not in E. cbn. rewrite IH. cbn. destruct (keqb x k) eqn:X.
      + apply keqb_eq in X. subst. tauto.
      + apply neq in X. tauto.
  Qed.
  Lemma first_keys_nodup : forall l s, NoDup (first_keys s l).
  Proof.
    induction l as [|x l IH]; intro s; cbn [first_keys]; [constructor|].
    destruct (existsb (keqb x) s) eqn:E; [apply IH|]. constructor; [|apply IH]. rewrite first_keys_in. cbn. tauto.
  Qed.

  (** [groupby] by its meaning: one group per key, keys in order of first occurrence *)
  Definition groups_of (l : list A) : list (K * list A) :=
    map (fun k => (k, having k l)) (first_keys [] (map key l)).

  Lemma having_snoc : forall k l x, having k (l ++ [x]) = having k l ++ (if keqb (key x) k then [x] else []).
  Proof. intros. unfold having. rewrite filter_app. cbn. destruct (keqb (key x) k); reflexivity. Qed.
  Lemma having_none : forall k l, ~ In k (map key l) -> having k l = [].
  Proof.
    induction l as [|x l IH]; intro H; [reflexivity|]. cbn. destruct (keqb (key x) k) eqn:E.
    - apply keqb_eq in E. exfalso. apply H. left. exact E.
    - apply IH. intro. apply H. right. assumption.
  Qed.
  Lemma group_add_map : forall ks l x, NoDup ks ->
    group_add keqb (key x) x (map (fun k => (k, having k l)) ks) =
    if existsb (keqb (key x)) ks then map (fun k => (k, having k (l ++ [x]))) ks
    else map (fun k => (k, having k (l ++ [x]))) ks ++ [(key x, [x])].
  Proof.
    intros ks l x. induction ks as [|k ks IH]; intro ND; [reflexivity|]. inversion ND as [|? ? N1 N2]; subst.
    cbn [map group_add existsb app]. destruct (keqb (key x) k) eqn:E; cbn [orb].
    - apply keqb_eq in E. subst k. rewrite having_snoc, refl. f_equal.
      apply map_ext_in. intros k I. rewrite having_snoc. destruct (keqb (key x) k) eqn:E2; [|rewrite app_nil_r; reflexivity].
      apply keqb_eq in E2. subst. contradiction.
    - rewrite (IH N2). rewrite having_snoc, E, app_nil_r. destruct (existsb (keqb (key x)) ks); reflexivity.
  Qed.
  Lemma groupby_groups : forall l, groupby keqb l key = groups_of l.
  Proof.
    intro l. unfold groupby. induction l as [|x l IH] using rev_ind; [reflexivity|].
    rewrite fold_left_app. cbn [fold_left]. rewrite IH. unfold groups_of.
    rewrite group_add_map by apply first_keys_nodup. rewrite map_app, first_keys_app. cbn [map first_keys].
    rewrite app_nil_r.
    assert (E : existsb (keqb (key x)) (map key l) = existsb (keqb (key x)) (first_keys [] (map key l))).
    { destruct (existsb (keqb (key x)) (map key l)) eqn:E; symmetry.
      - apply memb_iff. apply first_keys_in. split; [apply memb_iff, E|tauto].
      - apply memb_not. intro H. apply first_keys_in in H. apply (proj1 (memb_not _ _) E). tauto. }
    rewrite <- E. destruct (existsb (keqb (key x)) (map key l)) eqn:E1.
    - rewrite app_nil_r. reflexivity.
    - rewrite map_app. cbn [map]. rewrite having_snoc, refl, having_none; [reflexivity|]. apply memb_not, E1.
  Qed.

  Lemma groupby_keys : forall l, map fst (groupby keqb l key) = first_keys [] (map key l).
  Proof. intro l. rewrite groupby_groups. unfold groups_of. rewrite map_map. apply map_id. Qed.
  Lemma groupby_nodup : forall l, NoDup (map fst (groupby keqb l key)).
  Proof. intro l. rewrite groupby_keys. apply first_keys_nodup. Qed.
  Lemma groupby_in : forall l k g, In (k, g) (groupby keqb l key) <-> g = having k l /\ In k (map key l).
  Proof.
    intros l k g. rewrite groupby_groups. unfold groups_of. rewrite in_map_iff. split.
    - intros (k' & E & I). injection E as <- <-. apply first_keys_in in I. tauto.
    - intros [-> I]. exists k. split; [reflexivity|]. apply first_keys_in. tauto.
  Qed.

  Lemma partition_perm : forall (p : A -> bool) l, Permutation l (filter p l ++ filter (fun x => negb (p x)) l).
  Proof.
    intros p l. induction l as [|x l IH]; [constructor|]. cbn. destruct (p x); cbn [negb].
    - constructor. exact IH.
    - apply Permutation_cons_app. exact IH.
  Qed.
  Lemma concat_having_perm : forall ks l, NoDup ks -> (forall x, In x l -> In (key x) ks) ->
    Permutation (concat (map (fun k => having k l) ks)) l.
  Proof.
    induction ks as [|k ks IH]; intros l ND C.
    - destruct l as [|x l]; [constructor|]. destruct (C x (or_introl eq_refl)).
    - inversion ND as [|? ? N1 N2]; subst. cbn [map concat].
      transitivity (having k l ++ filter (fun x => negb (keqb (key x) k)) l).
      + apply Permutation_app_head. rewrite <- (IH (filter (fun x => negb (keqb (key x) k)) l) N2).
        * assert (E : map (fun k0 => having k0 l) ks = map (fun k0 => having k0 (filter (fun x => negb (keqb (key x) k)) l)) ks).
          { apply map_ext_in. intros k0 I. unfold having. induction l as [|x l IHl]; [reflexivity|]. cbn.
            destruct (keqb (key x) k) eqn:E1; cbn [negb filter].
            - destruct (keqb (key x) k0) eqn:E2; [apply keqb_eq in E1; apply keqb_eq in E2; congruence|].
              apply IHl. intros y Iy. apply C. right. exact Iy.
            - cbn. destruct (keqb (key x) k0); [f_equal|]; apply IHl; intros y Iy; apply C; right; exact Iy. }
          rewrite E. reflexivity.
        * intros x Ix. apply filter_In in Ix. destruct Ix as [I1 I2]. destruct (C x I1) as [E|H]; [|exact H].
          subst k. rewrite refl in I2. discriminate.
      + symmetry. apply partition_perm.
  Qed.
  Lemma groupby_perm : forall l, Permutation (concat (map snd (groupby keqb l key))) l.
  Proof.
    intro l. rewrite groupby_groups. unfold groups_of. rewrite map_map. cbn [snd].
    apply concat_having_perm; [apply first_keys_nodup|]. intros x I. apply first_keys_in. split; [|tauto].
    apply in_map. exact I.
  Qed.

  (** [distinct] *)
  Lemma distinct_from_keys : forall l s, map key (distinct_from keqb s key l) = first_keys s (map key l).
  Proof.
    induction l as [|x l IH]; intro s; [reflexivity|]. cbn. destruct (existsb (keqb (key x)) s); [apply IH|].
    cbn. f_equal. apply IH.
  Qed.
  Lemma distinct_from_in : forall l s x, In x (distinct_from keqb s key l) <->
    exists a b, l = a ++ x :: b /\ ~ In (key x) (map key a) /\ ~ In (key x) s.
  Proof.
    induction l as [|y l IH]; intros s x; cbn [distinct_from].
    - split; [intros []|]. intros (a & b & E & _). destruct a; discriminate.
    - destruct (existsb (keqb (key y)) s) eqn:E.
      + apply memb_iff in E. rewrite IH. split.
        * intros (a & b & -> & N1 & N2). exists (y :: a), b. split; [reflexivity|]. split; [|exact N2].
          cbn. intros [X|X]; [|tauto]. apply N2. rewrite <- X. exact E.
        * intros (a & b & X & N1 & N2). destruct a as [|z a]; injection X as <- ->; [contradiction|].
          exists a, b. split; [reflexivity|]. cbn in N1. tauto.
      + apply memb_not in E. cbn [In]. rewrite IH. split.
        * intros [<-|(a & b & -> & N1 & N2)]; [exists [], l; cbn; tauto|]. exists (y :: a), b. cbn in *. split; [reflexivity|tauto].
        * intros (a & b & X & N1 & N2). destruct a as [|z a]; injection X as <- ->; [left; reflexivity|right].
          exists a, b. split; [reflexivity|]. cbn in *. tauto.
  Qed.
End Keyed.

Lemma partition_acc : forall A (m : A -> bool) l t f,
  fold_left (partition_step m) l (t, f) = (t ++ filter m l, f ++ filter (fun x => negb (m x)) l).
Proof.
  intros A m l. induction l as [|x l IH]; intros t f; [cbn; rewrite !app_nil_r; reflexivity|]. cbn [fold_left partition_step filter].
  destruct (m x); cbn [negb]; rewrite IH, <- app_assoc; reflexivity.
Qed.
Lemma partition_spec : forall A (m : A -> bool) l, partition l m = (filter m l, filter (fun x => negb (m x)) l).
Proof. intros. apply partition_acc. Qed.

Lemma py_index_pos : forall A (seq : list A) i x, nth_error seq i = Some x -> py_index seq (Z.of_nat i) = Ok x.
Proof.
  intros A seq i x H. assert (L : i < length seq) by (apply nth_error_Some; congruence). unfold py_index.
  replace (Z.of_nat i <? 0)%Z with false by (symmetry; apply Z.ltb_ge; lia). cbn iota.
  replace (Z.of_nat (length seq) <=? Z.of_nat i)%Z with false by (symmetry; apply Z.leb_gt; lia).
  replace (Z.of_nat i <? 0)%Z with false by (symmetry; apply Z.ltb_ge; lia). cbn [orb]. rewrite Nat2Z.id, H. reflexivity.
Qed.
Lemma py_index_ok_iff : forall A (seq : list A) i,
  (exists x, py_index seq i = Ok x) <-> (- Z.of_nat (length seq) <= i < Z.of_nat (length seq))%Z.
Proof.
  intros A seq i. unfold py_index. set (n := Z.of_nat (length seq)).
  destruct (i <? 0)%Z eqn:E.
  - apply Z.ltb_lt in E. destruct ((n + i <? 0)%Z || (n <=? n + i)%Z) eqn:E1.
    + split; [intros [x H]; discriminate|]. intro H. apply orb_true_iff in E1. rewrite Z.ltb_lt, Z.leb_le in E1. lia.
    + apply orb_false_iff in E1. rewrite Z.ltb_ge, Z.leb_gt in E1. split; [lia|]. intros _.
      destruct (nth_error seq (Z.to_nat (n + i))) eqn:E2; [eauto|]. apply nth_error_None in E2. subst n. lia.
  - apply Z.ltb_ge in E. destruct ((i <? 0)%Z || (n <=? i)%Z) eqn:E1.
    + split; [intros [x H]; discriminate|]. intro H. apply orb_true_iff in E1. rewrite Z.ltb_lt, Z.leb_le in E1. lia.
    + apply orb_false_iff in E1. rewrite Z.ltb_ge, Z.leb_gt in E1. split; [lia|]. intros _.
      destruct (nth_error seq (Z.to_nat i)) eqn:E2; [eauto|]. apply nth_error_None in E2. subst n. lia.
Qed.
Lemma get_or_default_never : forall A (seq : list A) i d, get_or_default seq i d = py_index seq i.
Proof.
  intros A seq i d. unfold get_or_default.
  destruct ((i <? - Z.of_nat (length seq))%Z && (Z.of_nat (length seq) <? i)%Z) eqn:E; [|reflexivity].
  apply andb_true_iff in E. rewrite !Z.ltb_lt in E. lia.
Qed.

(** [argmax] *)
Section Arg.
  Context {A : Type} (better : A -> A -> bool) (d : A)
    (irr : forall x, better x x = false) (tr : forall x y z, better x y = true -> better y z = true -> better x z = true)
    (ntr : forall x y z, better x y = false -> better y z = false -> better x z = false).
  Lemma arg_from_spec : forall l pre best bx,
    best < length pre -> nth best (pre ++ l) d = bx ->
    (forall j, j < length pre -> better (nth j pre d) bx = false) ->
    (forall j, j < best -> better bx (nth j pre d) = true) ->
    let r := arg_from better best bx (length pre) l in
    r < length (pre ++ l) /\
    (forall j, j < length (pre ++ l) -> better (nth j (pre ++ l) d) (nth r (pre ++ l) d) = false) /\
    (forall j, j < r -> better (nth r (pre ++ l) d) (nth j (pre ++ l) d) = true).
  Proof.
    induction l as [|x l IH]; intros pre best bx Hb En Hmax Hfst; cbn [arg_from].
    - rewrite app_nil_r in *. cbv zeta. split; [exact Hb|]. rewrite En. split; [exact Hmax|exact Hfst].
    - assert (Nb : nth best pre d = bx) by (rewrite app_nth1 in En by exact Hb; exact En).
      assert (EA : pre ++ x :: l = (pre ++ [x]) ++ l) by (rewrite <- app_assoc; reflexivity).
      assert (EL : S (length pre) = length (pre ++ [x])) by (rewrite app_length; cbn; lia).
      rewrite EA, EL in *. destruct (better x bx) eqn:E.
      + apply IH.
        * lia.
        * rewrite app_nth1 by lia. rewrite app_nth2 by lia. rewrite Nat.sub_diag. reflexivity.
        * intros j Hj. destruct (Nat.eq_dec j (length pre)) as [->|Nj].
          -- rewrite app_nth2 by lia. rewrite Nat.sub_diag. cbn. apply irr.
          -- rewrite app_nth1 by lia. destruct (better (nth j pre d) x) eqn:E2; [|reflexivity].
             rewrite <- (Hmax j) by lia. symmetry. apply tr with x; assumption.
        * intros j Hj. rewrite app_nth1 by lia. destruct (better x (nth j pre d)) eqn:E2; [reflexivity|].
          rewrite (ntr x (nth j pre d) bx E2) in E; [discriminate|]. apply Hmax. lia.
      + apply IH.
        * lia.
        * rewrite <- En. reflexivity.
        * intros j Hj. destruct (Nat.eq_dec j (length pre)) as [->|Nj].
          -- rewrite app_nth2 by lia. rewrite Nat.sub_diag. cbn. exact E.
          -- rewrite app_nth1 by lia. apply Hmax. lia.
        * intros j Hj. rewrite app_nth1 by lia. apply Hfst. lia.
  Qed.
  Lemma arg_best_spec : forall seq, seq <> [] -> exists r, arg_best better seq = Ok r /\ r < length seq /\
    (forall j, j < length seq -> better (nth j seq d) (nth r seq d) = false) /\
    (forall j, j < r -> better (nth r seq d) (nth j seq d) = true).
  Proof.
    intros [|x l] N; [congruence|]. cbn [arg_best]. eexists. split; [reflexivity|].
    apply (arg_from_spec l [x] 0 x).
    - cbn. lia.
    - reflexivity.
    - intros j Hj. replace j with 0 by (cbn in Hj; lia). apply irr.
    - intros j Hj. lia.
  Qed.
End Arg.

Lemma index_from_spec : forall A (eqb : A -> A -> bool) seq v i,
  match index_from eqb i seq v with
  | Some j => exists a x b, seq = a ++ x :: b /\ eqb x v = true /\ Forall (fun y => eqb y v = false) a /\ j = i + length a
  | None => Forall (fun y => eqb y v = false) seq
  end.
Proof.
  intros A eqb seq v. induction seq as [|x r IH]; intro i; cbn [index_from]; [constructor|].
  destruct (eqb x v) eqn:E.
  - exists [], x, r. split; [reflexivity|]. split; [exact E|]. split; [constructor|]. cbn. lia.
  - specialize (IH (S i)). destruct (index_from eqb (S i) r v).
    + destruct IH as (a & y & b & -> & E1 & F & ->). exists (x :: a), y, b. split; [reflexivity|].
      split; [exact E1|]. split; [constructor; assumption|]. cbn. lia.
    + constructor; assumption.
Qed.

Lemma pop_or_none_spec : forall A (l : list A) x, pop_or_none (l ++ [x]) = (Some x, l).
Proof. intros. unfold pop_or_none. rewrite rev_app_distr. cbn. rewrite rev_involutive. reflexivity. Qed.

Lemma ends_with_iff : forall p s, ends_with p s = true <-> exists r, s = r ++ p.
Proof.
  intros p s. unfold ends_with. rewrite starts_with_iff. split; intros [r H].
  - exists (rev r). rewrite <- (rev_involutive s), H, rev_app_distr, rev_involutive. reflexivity.
  - subst. exists (rev r). apply rev_app_distr.
Qed.
Lemma without_suffix_app : forall s p, p <> [] -> without_suffix (s ++ p) p = s.
Proof.
  intros s p N. unfold without_suffix. replace (ends_with p (s ++ p)) with true by (symmetry; apply ends_with_iff; eauto).
  unfold drop_last. destruct p as [|c p]; [congruence|]. cbn [length Nat.eqb]. rewrite app_length. cbn [length].
  replace (length s + S (length p) - S (length p)) with (length s + 0) by lia. rewrite firstn_app_2. cbn. apply app_nil_r.
Qed.
Lemma without_suffix_other : forall s p, (forall r, s <> r ++ p) -> without_suffix s p = s.
Proof.
  intros s p N. unfold without_suffix. destruct (ends_with p s) eqn:E; [|reflexivity].
  apply ends_with_iff in E. destruct E as [r E]. exfalso. exact (N r E).
Qed.
Lemma without_prefix_app : forall s p, without_prefix (p ++ s) p = s.
Proof.
  intros s p. unfold without_prefix. rewrite starts_with_app. rewrite <- (app_nil_r p) at 1.
  rewrite skipn_app, Nat.sub_0_r || rewrite skipn_app. rewrite app_nil_r, skipn_all, Nat.sub_diag. reflexivity.
Qed.
Lemma without_prefix_other : forall s p, (forall r, s <> p ++ r) -> without_prefix s p = s.
Proof.
  intros s p N. unfold without_prefix. destruct (starts_with p s) eqn:E; [|reflexivity].
  apply starts_with_iff in E. destruct E as [r E]. exfalso. exact (N r E).
Qed.

(** dict helpers *)
Lemma dict_del_filter : forall V k (d : list (str * V)), NoDup (map fst d) ->
  dict_del k d = filter (fun kv => negb (str_eqb (fst kv) k)) d.
Proof.
  intros V k d. induction d as [|[k' v] d IH]; intro ND; [reflexivity|]. inversion ND as [|? ? N1 N2]; subst.
  cbn [dict_del filter fst]. rewrite str_eqb_sym. destruct (str_eqb k' k) eqn:E; cbn [negb].
  - apply str_eqb_eq in E. subst k'. symmetry. clear IH ND N2. induction d as [|[k2 v2] d IH]; [reflexivity|].
    cbn in *. destruct (str_eqb k2 k) eqn:E.
    + apply str_eqb_eq in E. subst. tauto.
    + cbn [negb]. f_equal. apply IH. tauto.
  - f_equal. apply IH, N2.
Qed.
Lemma filter_fst_nodup : forall V (p : str * V -> bool) d, NoDup (map fst d) -> NoDup (map fst (filter p d)).
Proof.
  intros V p d. induction d as [|x d IH]; intro ND; [constructor|]. inversion ND as [|? ? N1 N2]; subst. cbn.
  destruct (p x); [|apply IH, N2]. cbn. constructor; [|apply IH, N2]. intro H. apply N1.
  apply in_map_iff in H. destruct H as (y & E & I). apply filter_In in I. apply in_map_iff. exists y. tauto.
Qed.
Lemma dict_del_many : forall V ks (d : list (str * V)), NoDup (map fst d) ->
  fold_left (fun d k => dict_del k d) ks d = filter (fun kv => negb (str_mem (fst kv) ks)) d.
Proof.
  intros V ks. induction ks as [|k ks IH]; intros d ND; cbn [fold_left].
  - cbn. clear. induction d as [|x d IH]; [reflexivity|]. cbn. f_equal. exact IH.
  - rewrite IH by (rewrite dict_del_filter by exact ND; apply filter_fst_nodup, ND).
    rewrite dict_del_filter by exact ND. clear ND IH. induction d as [|x d IHd]; [reflexivity|]. cbn.
    destruct (str_eqb (fst x) k); cbn [negb orb filter]; [apply IHd|]. unfold str_mem in *.
    destruct (existsb (str_eqb (fst x)) ks); cbn [negb]; [apply IHd|f_equal; apply IHd].
Qed.
Lemma remove_by_value_filter : forall V (d : list (str * V)) m, NoDup (map fst d) ->
  remove_by_value d m = filter (fun kv => negb (m (snd kv))) d.
Proof.
  intros V d m ND. unfold remove_by_value. rewrite dict_del_many by exact ND. apply filter_ext_in.
  intros [k v] I. cbn [fst snd]. f_equal. destruct (m v) eqn:E.
  - apply existsb_exists. exists k. split; [|apply str_eqb_refl]. apply in_map_iff. exists (k, v). split; [reflexivity|].
    apply filter_In. split; assumption.
  - destruct (str_mem k _) eqn:M; [|reflexivity]. exfalso. apply existsb_exists in M. destruct M as (k' & I' & E').
    apply str_eqb_eq in E'. subst k'. apply in_map_iff in I'. destruct I' as ([k2 v2] & E2 & I2). cbn in E2. subst k2.
    apply filter_In in I2. cbn in I2. destruct I2 as [I2 M2].
    assert (v2 = v); [|congruence]. clear - ND I I2. induction d as [|[a b] d IH]; [destruct I|]. inversion ND as [|? ? N1 N2]; subst.
    destruct I as [X|X], I2 as [Y|Y]; try congruence; auto.
    + injection X as -> ->. exfalso. apply N1. apply (in_map fst _ _ Y).
    + injection Y as -> ->. exfalso. apply N1. apply (in_map fst _ _ X).
Qed.

(** hashes *)
Lemma lxor_fold_perm : forall A (h : A -> Z) l l', Permutation l l' -> forall z,
  fold_left (fun r x => Z.lxor r (h x)) l z = fold_left (fun r x => Z.lxor r (h x)) l' z.
Proof.
  intros A h l l' P. induction P; intro z; cbn; auto.
  - f_equal. rewrite !Z.lxor_assoc. f_equal. apply Z.lxor_comm.
  - rewrite IHP1. apply IHP2.
Qed.
Lemma hash_ordered_map : forall A (h : A -> Z) l st, hash_ordered h st l = hash_ordered (fun z => z) st (map h l).
Proof. intros A h l. unfold hash_ordered. induction l; intro st; cbn; auto. Qed.
Lemma hash_ordered_app : forall A (h : A -> Z) a b st, hash_ordered h st (a ++ b) = hash_ordered h (hash_ordered h st a) b.
Proof. intros. unfold hash_ordered. apply fold_left_app. Qed.
