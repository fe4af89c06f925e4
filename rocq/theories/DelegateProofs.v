(** Lemmas about delegation. *)
From Coq Require Import String Ascii List Bool NArith Arith.
From Verif Require Import Base BaseFacts DelegateModel.
Import ListNotations.
Open Scope string_scope.
Open Scope nat_scope.
Open Scope list_scope.
Open Scope bool_scope.

Lemma one_type : forall names (a : str) n d, dict_get n (fold_left (fun d n => dict_set n a d) names d) = if str_mem n names then Some a else dict_get n d.
Proof.
  intros names a n. induction names as [|x l IH]; intros d; [reflexivity|]. cbn [fold_left]. rewrite IH. unfold str_mem. cbn [existsb]. fold (str_mem n l). destruct (str_mem n l); [rewrite orb_true_r; reflexivity|]. rewrite orb_false_r.
  destruct (str_eqb n x) eqn:E; [apply str_eqb_eq in E; subst x; apply dict_get_set_same|]. apply dict_get_set_other. intros ->. rewrite str_eqb_refl in E. discriminate.
Qed.
Lemma attrs_one : forall names a n, dict_get n (attrs_of [(names, a)]) = if str_mem n names then Some a else None.
Proof. intros names a n. unfold attrs_of. cbn [fold_left fst snd]. rewrite one_type. reflexivity. Qed.
Lemma own_after : forall attrs names n d, dict_get n (fold_left (fun d n => match dict_get n attrs with Some a => dict_set n (hand_on a n) d | None => d end) names d) =
  if str_mem n names then match dict_get n attrs with Some a => Some (hand_on a n) | None => dict_get n d end else dict_get n d.
Proof.
  intros attrs names n. induction names as [|x l IH]; intros d; [reflexivity|]. cbn [fold_left]. rewrite IH. unfold str_mem. cbn [existsb]. fold (str_mem n l).
  destruct (str_eqb n x) eqn:E.
  - apply str_eqb_eq in E. subst x. cbn [orb]. destruct (dict_get n attrs) as [a|]; destruct (str_mem n l); auto using dict_get_set_same.
  - cbn [orb]. assert (X : dict_get n match dict_get x attrs with Some a => dict_set x (hand_on a x) d | None => d end = dict_get n d).
    { destruct (dict_get x attrs); [|reflexivity]. apply dict_get_set_other. intros ->. rewrite str_eqb_refl in E. discriminate. }
    rewrite X. reflexivity.
Qed.
Lemma mem_iff : forall n l, str_mem n l = true <-> In n l.
Proof. intros n l. unfold str_mem. rewrite existsb_exists. split; [intros (x & I & E); apply str_eqb_eq in E; subst x; exact I|intro I; exists n; split; [exact I|apply str_eqb_refl]]. Qed.
