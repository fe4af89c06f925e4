(** Lemmas about the modes of installation. *)
From Coq Require Import String Ascii List Bool NArith Arith Lia.
From Verif Require Import Base BaseFacts NamesModel VersionModel SpecifierModel DependencyModel ResolveModel PlanModel InstallModel StoreModel.
Import ListNotations.
Open Scope string_scope.
Open Scope nat_scope.
Open Scope list_scope.
Open Scope bool_scope.

Lemma update_get : forall {V} (l : list (str * V)) d k, (dict_get k (dict_update d l) = dict_get k d /\ ~ In k (map fst l)) \/ exists v, In (k, v) l /\ dict_get k (dict_update d l) = Some v.
Proof.
  intros V l. induction l as [|[a v] l IH]; intros d k; [left; split; [reflexivity|intros []]|]. cbn [dict_update fold_left fst snd map]. destruct (IH (dict_set a v d) k) as [[E N]|(w & I & E)].
  - destruct (str_eqb a k) eqn:K.
    + apply str_eqb_eq in K. subst a. right. exists v. split; [left; reflexivity|]. unfold dict_update in E. rewrite E. apply dict_get_set_same.
    + left. split; [unfold dict_update in E; rewrite E; apply dict_get_set_other; intros ->; rewrite str_eqb_refl in K; discriminate|]. intros [X|X]; [subst a; rewrite str_eqb_refl in K; discriminate|contradiction].
  - right. exists w. split; [right; exact I|exact E].
Qed.
Lemma modes_get : forall deps m k, dict_get k (modes_of deps m) = if existsb (fun d => str_eqb (d_name d) k) deps then Some m else None.
Proof.
  intros deps m k. unfold modes_of, dict_of. destruct (update_get (map (fun d => (d_name d, m)) deps) [] k) as [[E N]|(v & I & E)]; rewrite E.
  - destruct (existsb _ deps) eqn:X; [|reflexivity]. exfalso. apply N. rewrite map_map. apply existsb_exists in X. destruct X as (d & Id & Ed). apply str_eqb_eq in Ed. subst k. apply (in_map d_name), Id.
  - apply in_map_iff in I. destruct I as (d & Ed & Id). injection Ed as <- <-. assert (X : existsb (fun x => str_eqb (d_name x) (d_name d)) deps = true) by (apply existsb_exists; exists d; split; [exact Id|apply str_eqb_refl]). rewrite X. reflexivity.
Qed.

Lemma key_no_dash : forall n, ~ In "-"%char (key n).
Proof.
  intros n. unfold key, package_name_key, normalize_src_package_name. destruct (normalize_name n) as [t|e]; cbn [bind]; [|intros []]. unfold lower. rewrite map_map. intro I. apply in_map_iff in I. destruct I as (c & E & _). revert E. unfold to_underscore.
  destruct c as [[] [] [] [] [] [] [] []]; vm_compute; discriminate.
Qed.
Lemma absent : forall deps m requests pre k r, (forall e, In e deps -> d_name e <> r_key r) -> store_one requests (modes_of deps m) pre k r = store_one requests [] pre k r.
Proof.
  intros deps m requests pre k r H.
  assert (G : dict_get (r_key r) (modes_of deps m) = None).
  { rewrite modes_get. destruct (existsb _ deps) eqn:X; [|reflexivity]. exfalso. apply existsb_exists in X. destruct X as (e & Ie & Ee). apply str_eqb_eq in Ee. apply (H e Ie Ee). }
  unfold store_one, plan_one. rewrite G. reflexivity.
Qed.

