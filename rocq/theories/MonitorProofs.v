(** Facts about MonitorModel *)
From Coq Require Import List Bool NArith Ascii String Arith Lia.
From Verif Require Import Base BaseFacts ParserModel MonitorModel.
Import ListNotations.
Open Scope string_scope. Open Scope nat_scope. Open Scope list_scope. Open Scope bool_scope.

(** ** dictionaries *)
Lemma callback_set : forall t u v c, callback_of t (dict_set u v c) = if str_eqb t u then v else callback_of t c.
Proof.
  intros t u v c. unfold callback_of. destruct (str_eqb t u) eqn:E.
  - apply str_eqb_eq in E. subst. rewrite dict_get_set_same. reflexivity.
  - apply str_eqb_neq in E. rewrite dict_get_set_other by congruence. reflexivity.
Qed.
Lemma dict_set_keys : forall V t (v : V) d, map fst (dict_set t v d) = if str_mem t (map fst d) then map fst d else map fst d ++ [t].
Proof.
  intros V t v d. induction d as [|[k w] d IH]; [reflexivity|]. cbn [dict_set map fst str_mem]. unfold str_mem in *. cbn [existsb]. destruct (str_eqb t k) eqn:E; cbn [orb]; [reflexivity|]. cbn [map fst]. rewrite IH.
  destruct (existsb (str_eqb t) (map fst d)); reflexivity.
Qed.
Lemma dict_set_nodup : forall V t (v : V) d, NoDup (map fst d) -> NoDup (map fst (dict_set t v d)).
Proof.
  intros V t v d H. rewrite dict_set_keys. destruct (str_mem t (map fst d)) eqn:E; [exact H|]. rewrite <- (rev_involutive (map fst d ++ [t])). apply NoDup_rev. rewrite rev_app_distr. cbn. constructor; [|apply NoDup_rev, H].
  rewrite <- in_rev. intros I. assert (X : str_mem t (map fst d) = true); [|congruence]. unfold str_mem. apply existsb_exists. exists t. split; [exact I|apply str_eqb_refl].
Qed.
Lemma fold_callback : forall (g : callback -> option callback) new cur t, NoDup (map fst new) ->
  callback_of t (fold_left (fun d p => dict_set (fst p) (g (snd p)) d) new cur) = match dict_get t new with Some c => g c | None => callback_of t cur end.
Proof.
  intros g new. induction new as [|[k c] new IH]; intros cur t N; [reflexivity|]. cbn [fold_left fst snd]. inversion N; subst. rewrite IH by assumption. cbn [dict_get]. rewrite callback_set. destruct (str_eqb t k) eqn:E.
  - apply str_eqb_eq in E. subst. destruct (dict_get k new) eqn:G; [|reflexivity]. exfalso. apply H1. clear -G. induction new as [|[k' c'] new IH]; [discriminate|]. cbn in *. destruct (str_eqb k k') eqn:E; [left; symmetry; apply str_eqb_eq, E|right; apply IH, G].
  - reflexivity.
Qed.

(** ** listeners *)
Definition prefix_of (m : mode) (p : str) : Prop := match m with MEnter => p = lit "enter_" \/ p = lit "on_" | MLeave => p = lit "leave_" | MFail => p = lit "failed_" | MWith => p = lit "with_" end.
Lemma mode_spec : forall name m, mode_of name = Some m <-> exists p r, prefix_of m p /\ name = p ++ r.
Proof.
  intros name m. unfold mode_of. split.
  - destruct (starts_with "enter_" name) eqn:E1; [intros [= <-]; apply starts_with_iff in E1 as (r & ->); exists (lit "enter_"), r; cbn; auto|].
    destruct (starts_with "leave_" name) eqn:E2; [intros [= <-]; apply starts_with_iff in E2 as (r & ->); exists (lit "leave_"), r; cbn; auto|].
    destruct (starts_with "on_" name) eqn:E3; [intros [= <-]; apply starts_with_iff in E3 as (r & ->); exists (lit "on_"), r; cbn; auto|].
    destruct (starts_with "failed_" name) eqn:E4; [intros [= <-]; apply starts_with_iff in E4 as (r & ->); exists (lit "failed_"), r; cbn; auto|].
    destruct (starts_with "with_" name) eqn:E5; [intros [= <-]; apply starts_with_iff in E5 as (r & ->); exists (lit "with_"), r; cbn; auto|discriminate].
  - intros (p & r & P & ->). destruct m; cbn in P; [destruct P as [->| ->]|subst p|subst p|subst p]; reflexivity.
Qed.
(** a listener of a class *)
Definition listens (l : listener) (t : str) (m : mode) : Prop := l_callable l = true /\ l_arg l = Some (Some t) /\ exists p r, prefix_of m p /\ l_name l = p ++ r.
Lemma add_spec : forall cur acc l t, dict_get t (add_listener cur acc l) =
  match mode_of (l_name l), l_callable l, l_arg l with
  | Some m, true, Some (Some u) => if str_eqb t u then Some (set_slots m (l_method l) (match dict_get t acc with Some c => c | None => CB (callback_of t cur) None None None end)) else dict_get t acc
  | _, _, _ => dict_get t acc
  end.
Proof.
  intros cur acc l t. unfold add_listener. destruct (mode_of (l_name l)) as [m|]; [|reflexivity]. destruct (l_callable l); [|reflexivity]. destruct (l_arg l) as [[u|]|]; try reflexivity.
  destruct (str_eqb t u) eqn:E; [apply str_eqb_eq in E; subst; apply dict_get_set_same|apply str_eqb_neq in E; apply dict_get_set_other; congruence].
Qed.
Lemma create_nodup : forall cur ls acc, NoDup (map fst acc) -> NoDup (map fst (fold_left (add_listener cur) ls acc)).
Proof.
  intros cur ls. induction ls as [|l ls IH]; intros acc N; [exact N|]. cbn [fold_left]. apply IH. unfold add_listener. destruct (mode_of (l_name l)); [|exact N]. destruct (l_callable l); [|exact N]. destruct (l_arg l) as [[u|]|]; try exact N. apply dict_set_nodup, N.
Qed.
Lemma create_parent : forall cur ls acc, (forall t c, dict_get t acc = Some c -> cb_parent c = callback_of t cur) -> forall t c, dict_get t (fold_left (add_listener cur) ls acc) = Some c -> cb_parent c = callback_of t cur.
Proof.
  intros cur ls. induction ls as [|l ls IH]; intros acc N; [exact N|]. cbn [fold_left]. apply IH. intros t c H. rewrite add_spec in H.
  destruct (mode_of (l_name l)) as [m|]; [|apply N, H]. destruct (l_callable l); [|apply N, H]. destruct (l_arg l) as [[u|]|]; try (apply N, H). destruct (str_eqb t u) eqn:E; [|apply N, H].
  injection H as <-. destruct (dict_get t acc) as [c|] eqn:G; [pose proof (N t c G); destruct c; destruct m; assumption|destruct m; reflexivity].
Qed.
Lemma create_none : forall cur ls t acc, (forall l m, In l ls -> ~ listens l t m) -> dict_get t (fold_left (add_listener cur) ls acc) = dict_get t acc.
Proof.
  intros cur ls t. induction ls as [|l ls IH]; intros acc N; [reflexivity|]. cbn [fold_left]. rewrite IH by (intros l' m I; apply N; right; exact I). rewrite add_spec.
  destruct (mode_of (l_name l)) as [m|] eqn:M; [|reflexivity]. destruct (l_callable l) eqn:C; [|reflexivity]. destruct (l_arg l) as [[u|]|] eqn:A; try reflexivity. destruct (str_eqb t u) eqn:E; [|reflexivity].
  apply str_eqb_eq in E. subst u. exfalso. apply (N l m (or_introl eq_refl)). split; [exact C|split; [exact A|apply mode_spec, M]].
Qed.

(** ** programs *)
Section ProgInd.
  Variable P : prog -> Prop.
  Hypothesis HR : forall e, P (Raise e).
  Hypothesis HA : forall b, Forall P b -> P (Attempt b).
  Hypothesis HN : forall o t x, P (Notify o t x).
  Hypothesis HW : forall t x b, Forall P b -> P (With t x b).
  Hypothesis HE : forall t x b, Forall P b -> P (Enter t x b).
  Fixpoint prog_rect' (p : prog) : P p :=
    let all := fix all (l : list prog) : Forall P l := match l with [] => Forall_nil P | p :: r => Forall_cons p (prog_rect' p) (all r) end in
    match p with
    | Raise e => HR e
    | Attempt b => HA b (all b)
    | Notify o t x => HN o t x
    | With t x b => HW t x b (all b)
    | Enter t x b => HE t x b (all b)
    end.
End ProgInd.
