(** Properties C40 (hash builder) and C41 (collection helpers). *)
From Coq Require Import String Ascii List Bool NArith ZArith Arith Lia Permutation.
From Verif Require Import Base BaseFacts CollectionModel CollectionProofs.
Import ListNotations.
Open Scope string_scope.
Open Scope nat_scope.
Open Scope list_scope.
Open Scope bool_scope.

(** C40 *)
Theorem C40_unordered_seq : forall A (h : A -> Z) st l l', Permutation l l' -> hash_unordered h st l = hash_unordered h st l'.
Proof. exact (fun A h st l l' P => f_equal (fun r => (st * 31 + r)%Z) (lxor_fold_perm A h l l' P _)). Qed.
Print Assumptions C40_unordered_seq.
Theorem C40_unordered_mapping : forall K V (kh : K -> Z) (vh : V -> Z) st m m', Permutation m m' ->
  hash_mapping kh vh st m = hash_mapping kh vh st m'.
Proof. exact (fun K V kh vh st m m' P => f_equal (fun r => (st * 31 + r)%Z) (lxor_fold_perm _ (fun kv => ((7 * 31 + kh (fst kv)) * 31 + vh (snd kv))%Z) m m' P _)). Qed.
Print Assumptions C40_unordered_mapping.
(** a sequence is hashed by its item hashes in order: equal item hashes give equal results for any two
    sequences, and an item contributes [31^(items after it)] times its hash *)
Theorem C40_ordered : forall A B (h : A -> Z) (g : B -> Z) st l l', map h l = map g l' -> hash_ordered h st l = hash_ordered g st l'.
Proof. intros A B h g st l l' E. rewrite (hash_ordered_map A), (hash_ordered_map B), E. reflexivity. Qed.
Print Assumptions C40_ordered.
Lemma hash_ordered_shift : forall A (h : A -> Z) l x y,
  (hash_ordered h x l - hash_ordered h y l = (x - y) * 31 ^ Z.of_nat (length l))%Z.
Proof.
  intros A h l. unfold hash_ordered. induction l as [|a l IH]; intros x y.
  - cbn. ring.
  - cbn [fold_left length]. rewrite IH, Nat2Z.inj_succ, Z.pow_succ_r by lia. ring.
Qed.
Theorem C40_ordered_sensitive : forall A (h : A -> Z) st a x y b, h x <> h y ->
  hash_ordered h st (a ++ x :: b) <> hash_ordered h st (a ++ y :: b).
Proof.
  intros A h st a x y b N E. rewrite !hash_ordered_app in E.
  assert (S := hash_ordered_shift A h b (hash_ordered h st a * 31 + h x)%Z (hash_ordered h st a * 31 + h y)%Z).
  change (hash_ordered h (hash_ordered h st a * 31 + h x)%Z b = hash_ordered h (hash_ordered h st a * 31 + h y)%Z b) in E.
  rewrite E, Z.sub_diag in S. symmetry in S. apply Z.mul_eq_0 in S. destruct S as [S|S]; [lia|].
  assert (0 < 31 ^ Z.of_nat (length b))%Z by (apply Z.pow_pos_nonneg; lia). lia.
Qed.
Print Assumptions C40_ordered_sensitive.
Example C40_example : Permutation [3; 1; 2]%Z [1; 2; 3]%Z /\
  hash_unordered (fun z => z) hash_new [3; 1; 2]%Z = hash_unordered (fun z => z) hash_new [1; 2; 3]%Z /\
  hash_ordered (fun z => z) hash_new [3; 1; 2]%Z <> hash_ordered (fun z => z) hash_new [1; 2; 3]%Z.
Proof. split; [apply Permutation_cons_app with (l1 := [1; 2]%Z) (l2 := []); reflexivity|]. split; [reflexivity|discriminate]. Qed.

(** C41 *)
Section Groups.
  Context (A K : Type) (keqb : K -> K -> bool) (keqb_eq : forall a b, keqb a b = true <-> a = b) (key : A -> K).
  (** one list per key, holding the items of that key in the order of the input *)
  Theorem C41_groupby : forall l k g, In (k, g) (groupby keqb l key) <-> g = filter (fun x => keqb (key x) k) l /\ In k (map key l).
  Proof. exact (groupby_in keqb keqb_eq key). Qed.
  Theorem C41_groupby_keys_once : forall l, NoDup (map fst (groupby keqb l key)).
  Proof. exact (groupby_nodup keqb keqb_eq key). Qed.
  Theorem C41_groupby_all : forall l, Permutation (concat (map snd (groupby keqb l key))) l.
  Proof. exact (groupby_perm keqb keqb_eq key). Qed.
  (** the items kept by [distinct] are the first ones of their keys *)
  Theorem C41_distinct : forall l x, In x (distinct keqb l key) <-> exists a b, l = a ++ x :: b /\ ~ In (key x) (map key a).
  Proof.
    intros l x. unfold distinct. rewrite (distinct_from_in keqb keqb_eq). split.
    - intros (a & b & E & N & _). eauto.
    - intros (a & b & E & N). exists a, b. cbn. tauto.
  Qed.
  Theorem C41_distinct_once : forall l, NoDup (map key (distinct keqb l key)).
  Proof. intro l. unfold distinct. rewrite distinct_from_keys. apply first_keys_nodup, keqb_eq. Qed.
End Groups.
Print Assumptions C41_groupby.
Print Assumptions C41_groupby_keys_once.
Print Assumptions C41_groupby_all.
Print Assumptions C41_distinct.
Print Assumptions C41_distinct_once.
Theorem C41_partition : forall A (m : A -> bool) l, partition l m = (filter m l, filter (fun x => negb (m x)) l).
Proof. exact partition_spec. Qed.
Print Assumptions C41_partition.
(** the index of the first best element, for any order that is a strict weak order *)
Theorem C41_argmax : forall A (better : A -> A -> bool) (d : A),
  (forall x, better x x = false) -> (forall x y z, better x y = true -> better y z = true -> better x z = true) ->
  (forall x y z, better x y = false -> better y z = false -> better x z = false) ->
  forall seq, seq <> [] -> exists r, arg_best better seq = Ok r /\ r < length seq /\
    (forall j, j < length seq -> better (nth j seq d) (nth r seq d) = false) /\
    (forall j, j < r -> better (nth r seq d) (nth j seq d) = true).
Proof. exact @arg_best_spec. Qed.
Print Assumptions C41_argmax.
Example C41_argmax_example : arg_best (fun x y => y <? x) [3; 9; 2; 9] = Ok 1 /\ arg_best (fun x y => x <? y) [3; 2; 9; 2] = Ok 1 /\
  (forall x, (x <? x) = false) /\ (forall x y z, (y <? x) = true -> (z <? y) = true -> (z <? x) = true) /\
  (forall x y z, (y <? x) = false -> (z <? y) = false -> (z <? x) = false).
Proof.
  split; [reflexivity|]. split; [reflexivity|]. split; [apply Nat.ltb_irrefl|]. split; intros x y z.
  - rewrite !Nat.ltb_lt. lia.
  - rewrite !Nat.ltb_ge. lia.
Qed.
Theorem C41_index_of : forall A (eqb : A -> A -> bool) seq v,
  match index_of_or_none eqb seq v with
  | Some j => exists a x b, seq = a ++ x :: b /\ eqb x v = true /\ Forall (fun y => eqb y v = false) a /\ j = length a
  | None => Forall (fun y => eqb y v = false) seq
  end.
Proof. exact (fun A eqb seq v => index_from_spec A eqb seq v 0). Qed.
Print Assumptions C41_index_of.
Theorem C41_pop : forall A (l : list A) x, pop_or_none (l ++ [x]) = (Some x, l) /\ pop_or_none (@nil A) = (None, []).
Proof. exact (fun A l x => conj (pop_or_none_spec A l x) eq_refl). Qed.
Print Assumptions C41_pop.
Theorem C41_single : forall A (l : list A) d, single_or l d = match l with [x] => x | _ => d end /\
  (forall x, single_or_raise l = Ok x <-> l = [x]) /\ seq_single_or_raise l = single_or_raise l.
Proof.
  intros A l d. destruct l as [|x [|y l]]; cbn; (split; [reflexivity|]); split; try reflexivity; intro z; split; intro H; try discriminate; congruence.
Qed.
Print Assumptions C41_single.
Theorem C41_suffix_partial : forall s p, p <> [] -> without_suffix (s ++ p) p = s /\ (forall t, (forall r, t <> r ++ p) -> without_suffix t p = t).
Proof. exact (fun s p N => conj (without_suffix_app s p N) (fun t => without_suffix_other t p)). Qed.
Print Assumptions C41_suffix_partial.
Theorem C41_prefix : forall s p, without_prefix (p ++ s) p = s /\ (forall t, (forall r, t <> p ++ r) -> without_prefix t p = t).
Proof. exact (fun s p => conj (without_prefix_app s p) (fun t => without_prefix_other t p)). Qed.
Print Assumptions C41_prefix.
Theorem C41_remove_by_value : forall V (d : list (str * V)) m, NoDup (map fst d) ->
  remove_by_value d m = filter (fun kv => negb (m (snd kv))) d.
Proof. exact remove_by_value_filter. Qed.
Print Assumptions C41_remove_by_value.
Theorem C41_get_or_put : forall V (d : list (str * V)) k f, let '(v, d') := get_or_put d k f in
  dict_get k d' = Some v /\ (forall v0, dict_get k d = Some v0 -> v = v0 /\ d' = d) /\
  (forall k', k' <> k -> dict_get k' d' = dict_get k' d).
Proof.
  intros V d k f. unfold get_or_put. destruct (dict_get k d) as [v|] eqn:E.
  - split; [exact E|]. split; [intros v0 H; injection H as <-; auto|auto].
  - split; [apply dict_get_set_same|]. split; [discriminate|]. intros k' N. apply dict_get_set_other, N.
Qed.
Print Assumptions C41_get_or_put.
Example C41_example :
  groupby Nat.eqb [5; 2; 8; 1; 4] (fun n => n mod 3) = [(2, [5; 2; 8]); (1, [1; 4])] /\
  distinct Nat.eqb [5; 2; 3; 8; 1] (fun n => n mod 3) = [5; 3; 1] /\
  without_suffix "a.tar.gz" ".tar.gz" = lit "a" /\ without_prefix "v1.0" "v" = lit "1.0".
Proof. repeat split. Qed.
(** the default of [get_or_default] is never returned: any index out of range raises IndexError *)
Theorem C41_get_or_default_refuted : forall A (seq : list A) i d,
  ~ (- Z.of_nat (length seq) <= i < Z.of_nat (length seq))%Z -> get_or_default seq i d = Err IndexError.
Proof.
  intros A seq i d N. rewrite get_or_default_never. destruct (py_index seq i) as [x|e] eqn:E.
  - exfalso. apply N. apply py_index_ok_iff. eauto.
  - unfold py_index in E. destruct (_ || _); [congruence|]. destruct (nth_error _ _); congruence.
Qed.
Print Assumptions C41_get_or_default_refuted.
Example C41_get_or_default_witness : get_or_default [10; 20] 5 0 = Err IndexError /\ get_or_default [10; 20] (-1) 0 = Ok 20.
Proof. split; reflexivity. Qed.
(** removing the empty suffix empties the string *)
Theorem C41_empty_suffix_refuted : forall s, without_suffix s [] = [].
Proof. intro s. unfold without_suffix. replace (ends_with [] s) with true by (symmetry; apply ends_with_iff; exists s; symmetry; apply app_nil_r). reflexivity. Qed.
Print Assumptions C41_empty_suffix_refuted.
(** [to_list(into)] ignores an empty list passed to collect into *)
Theorem C41_to_list_refuted : exists it : list nat, to_list it (Some []) = (it, Some []) /\ it <> [] /\
  to_list it (Some [0]) = (0 :: it, Some (0 :: it)).
Proof. exists [1]. repeat split. discriminate. Qed.
Print Assumptions C41_to_list_refuted.
