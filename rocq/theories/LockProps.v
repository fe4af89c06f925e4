(** Properties C19-C21 (packages lock) and C45 (pre-release filtering of repositories). *)
From Coq Require Import String Ascii List Bool NArith Arith Lia Permutation.
From Verif Require Import Base BaseFacts VersionModel VersionParse SpecifierModel SpecParse CollectionModel CollectionProofs LockModel LockSpec LockProofs.
Import ListNotations.
Open Scope string_scope.
Open Scope nat_scope.
Open Scope list_scope.
Open Scope bool_scope.

Definition ver (t : str) : version := match parse_version t with Ok v => v | Err _ => VNamed [] end.
Definition pk (n v : str) : pdesc := PD n (ver v).
Definition sample_entries : list locked :=
  [LV "linux" (pk "a" "1"); LV "mac" (pk "b" "2"); LV "linux" (pk "b" "3"); LV "mac" (pk "c" "1")].
Definition sample_lock : lock := lock_init sample_entries.
Definition sample_env : envl := EnvL "linux" [pk "b" "4"; pk "d" "1"].
Lemma sample_reachable : reachable_lock sample_lock.
Proof. exists sample_entries, []. reflexivity. Qed.

(** C19 *)
Theorem C19_others_untouched : forall l e e', reachable_lock l -> markers_hash e' <> markers_hash e ->
  env_specific_locks (update_lock l e) e' = env_specific_locks l e'.
Proof. exact (fun l e e' R N => update_others l e e' (reachable_ok l R) N). Qed.
Print Assumptions C19_others_untouched.
Theorem C19_own_entries : forall l e, Permutation (env_specific_locks (update_lock l e) e) (installed e).
Proof. exact update_own. Qed.
Print Assumptions C19_own_entries.
(** every entry of the new lock: an old one of another environment, or an installed package *)
Theorem C19_entries : forall l e lp, In lp (lock_entries (update_lock l e)) <->
  (In lp (lock_entries l) /\ lenv lp <> markers_hash e) \/ (lenv lp = markers_hash e /\ In (lpkg lp) (installed e)).
Proof. exact update_entries. Qed.
Print Assumptions C19_entries.
Theorem C19_idempotent : forall l e, reachable_lock l -> update_lock (update_lock l e) e = update_lock l e.
Proof. exact (fun l e R => update_idem l e (reachable_ok l R)). Qed.
Print Assumptions C19_idempotent.
(** writing the entries to a file and reading them back gives the same lock *)
Theorem C19_save_load : forall l, reachable_lock l -> save_load l = l.
Proof. exact (fun l R => save_load_same l (reachable_ok l R)). Qed.
Print Assumptions C19_save_load.
Example C19_example : reachable_lock sample_lock /\ markers_hash (EnvL "mac" []) <> markers_hash sample_env /\
  env_specific_locks (update_lock sample_lock sample_env) (EnvL "mac" []) = [pk "b" "2"; pk "c" "1"] /\
  env_specific_locks (update_lock sample_lock sample_env) sample_env = [pk "b" "4"; pk "d" "1"].
Proof. split; [exact sample_reachable|]. split; [discriminate|]. split; reflexivity. Qed.

(** C20 *)
Theorem C20_unlock : forall l names, reachable_lock l ->
  lock_entries (unlock_packages l names) = filter (fun lp => negb (str_mem (pname (lpkg lp)) names)) (lock_entries l).
Proof. exact (fun l ns R => unlock_entries l ns (reachable_ok l R)). Qed.
Print Assumptions C20_unlock.
Theorem C20_unlocked_not_preferred : forall l names e n, reachable_lock l -> In n names -> n <> [] ->
  locked_versions (unlock_packages l names) e n = [].
Proof.
  intros l names e n R I N. assert (H := reachable_ok l R).
  assert (H' : lock_ok (unlock_packages l names)) by (apply (lock_step_ok l (LUnlock names) H)).
  rewrite locked_versions_form by assumption. cbv zeta.
  assert (E : having str_eqb lock_key n (lock_entries (unlock_packages l names)) = []).
  { apply having_none; [apply str_eqb_eq|]. intro J. apply in_map_iff in J. destruct J as (x & Ex & Ix).
    rewrite unlock_entries in Ix by exact H. apply filter_In in Ix. destruct Ix as [_ B]. unfold lock_key in Ex. rewrite Ex in B.
    apply negb_true_iff in B. unfold str_mem in B. apply (memb_not str_eqb str_eqb_eq) in B. contradiction. }
  rewrite E. reflexivity.
Qed.
Print Assumptions C20_unlocked_not_preferred.
Example C20_example : lock_entries (unlock_packages sample_lock [lit "b"; lit "zzz"]) = [LV "linux" (pk "a" "1"); LV "mac" (pk "c" "1")].
Proof. reflexivity. Qed.

(** C21.  [locked_in] compares versions as python sets do (equal and of equal hash). *)
Theorem C21_reorders : forall l e ps n, reachable_lock l -> one_per_env (lock_entries l) ->
  n <> [] -> Forall (fun p => pname p = n) ps ->
  exists f, (forall p, In p ps -> (f p = true <-> locked_in l p)) /\
   sort_packages_by_lock_preference l e ps = filter f ps ++ filter (fun p => negb (f p)) ps.
Proof. exact (fun l e ps n R => prefer_locked l e ps n (reachable_ok l R)). Qed.
Print Assumptions C21_reorders.
(** the repository built on it returns what the base repository returns, locked versions first *)
Theorem C21_repository : forall l e compat sp base n, reachable_lock l -> one_per_env (lock_entries l) ->
  n <> [] -> Forall (fun p => pname p = n) base ->
  exists f, (forall p, In p base -> (f p = true <-> locked_in l p)) /\
   lock_repo_match l e compat sp base =
     filter f (repo_match compat sp base) ++ filter (fun p => negb (f p)) (repo_match compat sp base).
Proof. exact (fun l e c sp b n R => lock_repo_match_spec l e c sp b n (reachable_ok l R)). Qed.
Print Assumptions C21_repository.
(** the hypothesis holds after any updates from environments where no package is installed twice *)
Theorem C21_one_per_env : forall ops ls, one_per_env ls -> Forall installed_once ops ->
  one_per_env (lock_entries (fold_left lock_step ops (lock_init ls))).
Proof.
  exact (fun ops ls O F => one_per_env_ops ops _ (groupby_ok ls) F
    (one_per_env_perm _ _ (Permutation_sym (groupby_perm str_eqb str_eqb_eq lock_key ls)) O)).
Qed.
Print Assumptions C21_one_per_env.
Example C21_example : one_per_env (lock_entries sample_lock) /\
  sort_packages_by_lock_preference sample_lock sample_env [pk "b" "5"; pk "b" "3"; pk "b" "2.5"; pk "b" "2"]
  = [pk "b" "3"; pk "b" "2"; pk "b" "5"; pk "b" "2.5"].
Proof.
  split; [|vm_compute; reflexivity]. unfold one_per_env. cbn.
  repeat (apply NoDup_cons; [cbn; intro H; repeat (destruct H as [H|H]; [discriminate H|]); exact H|]). apply NoDup_nil.
Qed.
(** a locked version that is equal but spelled with epoch 0 is not preferred *)
Theorem C21_epoch_refuted : exists l e p q, reachable_lock l /\ one_per_env (lock_entries l) /\
  lock_entries l = [LV "h" p] /\ pname p = pname q /\ version_eqb (pversion p) (pversion q) = true /\
  sort_packages_by_lock_preference l e [pk (pname q) "2"; q] = [pk (pname q) "2"; q].
Proof.
  exists (lock_init [LV "h" (pk "a" "0!1")]), (EnvL "h" []), (pk "a" "0!1"), (pk "a" "1").
  split; [exists [LV "h" (pk "a" "0!1")], []; reflexivity|]. split; [repeat constructor; intros []|]. repeat split.
Qed.
Print Assumptions C21_epoch_refuted.

(** C45.  [asks sp]: a pre- or development release occurs in the specifier as a bound, an exact version,
    or in a list of exclusions next to another requirement *)
Inductive asks : spec -> Prop :=
| asks_match : forall v, is_pre_or_dev_release v = true -> asks (Match v true)
| asks_min : forall m mx i j, is_pre_or_dev_release (VStd m) = true -> asks (Range (Some m) mx i j)
| asks_max : forall m mn i j, is_pre_or_dev_release (VStd m) = true -> asks (Range mn (Some m) i j)
| asks_union : forall s l, In s l -> asks s -> asks (Union l)
| asks_hetro : forall bl s, asks s -> asks (Hetro bl s)
| asks_exclusion : forall bl s v, In v bl -> is_pre_or_dev_release v = true -> asks (Hetro bl s).
Lemma asks_iff : forall s, allows_pre_or_dev s = true <-> asks s.
Proof.
  fix IH 1. intros [| |l|bl s|v al|mn mx i j]; cbn [allows_pre_or_dev].
  - split; [discriminate|]. intro H; inversion H.
  - split; [discriminate|]. intro H; inversion H.
  - rewrite existsb_exists. split.
    + intros (x & I & E). apply asks_union with x; [exact I|]. revert x I E. induction l as [|y l IHl]; intros x I E; [destruct I|].
      destruct I as [<-|I]; [apply IH, E|apply IHl; assumption].
    + intro H. inversion H as [| | |s l' I A| |]; subst. exists s. split; [exact I|]. clear H. revert s I A.
      induction l as [|y l IHl]; intros x I A; [destruct I|]. destruct I as [<-|I]; [apply IH, A|apply IHl; assumption].
  - rewrite orb_true_iff, existsb_exists. split.
    + intros [H|(v & I & E)]; [apply asks_hetro, IH, H|apply asks_exclusion with v; assumption].
    + intro H. inversion H; subst; [left; apply IH; assumption|right; eauto].
  - rewrite andb_true_iff. split.
    + intros [-> E]. constructor. exact E.
    + intro H. inversion H; subst. auto.
  - rewrite orb_true_iff. split.
    + intros [H|H]; [destruct mn; [apply asks_min, H|discriminate]|destruct mx; [apply asks_max, H|discriminate]].
    + intro H. inversion H as [|m mx' i' j' E|m mn' i' j' E| | |]; subst; [left|right]; exact E.
Qed.
Definition is_pre (p : pdesc) : bool := is_pre_or_dev_release (pversion p).
Theorem C45_only_when_asked : forall compat sp found p, In p (repo_match compat sp found) -> is_pre p = true ->
  asks sp \/ forall q, In q found -> compat q = true -> is_pre q = true.
Proof.
  intros compat sp found p I E. unfold repo_match in I. rewrite filter_prereleases_spec in I.
  destruct (allows_pre_or_dev sp) eqn:A; [left; apply asks_iff, A|].
  destruct (filter (fun p => negb (is_pre_or_dev_release (pversion p))) (filter compat found)) as [|x r] eqn:F.
  - right. intros q Iq C. destruct (is_pre q) eqn:Q; [reflexivity|exfalso].
    assert (In q []); [|contradiction]. rewrite <- F. apply filter_In. split; [apply filter_In; auto|].
    unfold is_pre in Q. rewrite Q. reflexivity.
  - exfalso. rewrite <- F in I. apply filter_In in I. destruct I as [_ I]. unfold is_pre in E. rewrite E in I. discriminate.
Qed.
Print Assumptions C45_only_when_asked.
Theorem C45_otherwise : forall compat sp found, ~ asks sp -> (exists q, In q found /\ compat q = true /\ is_pre q = false) ->
  repo_match compat sp found = filter (fun p => negb (is_pre p)) (filter compat found).
Proof.
  intros compat sp found NA (q & I & C & Q). unfold repo_match. rewrite filter_prereleases_spec.
  destruct (allows_pre_or_dev sp) eqn:A; [exfalso; apply NA, asks_iff, A|]. unfold is_pre.
  destruct (filter (fun p => negb (is_pre_or_dev_release (pversion p))) (filter compat found)) as [|x r] eqn:F; [exfalso|reflexivity].
  assert (In q []); [|contradiction]. rewrite <- F. apply filter_In. split; [apply filter_In; auto|]. unfold is_pre in Q. rewrite Q. reflexivity.
Qed.
Print Assumptions C45_otherwise.
Theorem C45_all_when_asked : forall compat sp found, asks sp \/ (forall q, In q found -> compat q = true -> is_pre q = true) ->
  repo_match compat sp found = filter compat found.
Proof.
  intros compat sp found H. unfold repo_match. rewrite filter_prereleases_spec.
  destruct (allows_pre_or_dev sp) eqn:A; [reflexivity|]. destruct H as [H|H]; [apply asks_iff in H; congruence|].
  rewrite (filter_none _ (fun p => negb (is_pre_or_dev_release (pversion p)))); [reflexivity|].
  intros q I. apply filter_In in I. destruct I as [I C]. specialize (H q I C). unfold is_pre in H. rewrite H. reflexivity.
Qed.
Print Assumptions C45_all_when_asked.
Example C45_example :
  let sp t := match parse_specifier (fun u => u) t with Ok s => s | Err _ => RestrictAll end in
  let found := [pk "a" "2.0a1"; pk "a" "1.5"; pk "a" "1.4.dev1"; pk "a" "1.0"] in
  ~ asks (sp ">=1") /\ asks (sp ">=1.0a1") /\
  repo_match (fun _ => true) (sp ">=1") found = [pk "a" "1.5"; pk "a" "1.0"] /\
  repo_match (fun _ => true) (sp ">=1.0a1") found = found /\
  repo_match (fun p => is_pre p) (sp ">=1") found = [pk "a" "2.0a1"; pk "a" "1.4.dev1"].
Proof.
  cbv zeta. split; [rewrite <- asks_iff; vm_compute; discriminate|]. split; [apply asks_iff; reflexivity|].
  split; [vm_compute; reflexivity|]. split; vm_compute; reflexivity.
Qed.
