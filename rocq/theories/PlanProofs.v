(** Lemmas about PlanModel. *)
From Coq Require Import String Ascii List Bool NArith Arith Lia.
From Verif Require Import Base BaseFacts NamesModel OrderFacts VersionModel VersionSpec VersionProofs SpecifierModel DependencyModel PubgrubModel ResolveModel ResolveProofs PlanModel.
Import ListNotations.
Open Scope string_scope.
Open Scope nat_scope.
Open Scope list_scope.
Open Scope bool_scope.

(** ** Dictionaries that are filled *)
Lemma dict_update_get : forall V (l d : list (str * V)) k, ~ In k (map fst l) -> dict_get k (dict_update d l) = dict_get k d.
Proof.
  intros V l. induction l as [|[k' v] l IH]; intros d k N; [reflexivity|]. unfold dict_update in *. cbn [fold_left fst snd]. rewrite IH; [|intro X; apply N; right; exact X].
  apply dict_get_set_other. intro E. apply N. left. symmetry. exact E.
Qed.
Lemma dict_update_has : forall V (l d : list (str * V)) k v, NoDup (map fst l) -> In (k, v) l -> dict_get k (dict_update d l) = Some v.
Proof.
  intros V l. induction l as [|[k' w] l IH]; intros d k v N I; [destruct I|]. cbn [map fst] in N. apply NoDup_cons_iff in N. destruct N as [N1 N2].
  destruct I as [I|I].
  - injection I as -> ->. change (dict_get k (dict_update (dict_set k v d) l) = Some v). rewrite dict_update_get by exact N1. apply dict_get_set_same.
  - change (dict_get k (dict_update (dict_set k' w d) l) = Some v). apply IH; assumption.
Qed.
Lemma dict_update_nodup : forall V (l d : list (str * V)), NoDup (map fst d) -> NoDup (map fst (dict_update d l)).
Proof. intros V l. induction l as [|[k v] l IH]; intros d N; [exact N|]. apply (IH (dict_set k v d)). apply dict_set_keys. exact N. Qed.
Lemma nodup_get : forall V (d : list (str * V)) k v, NoDup (map fst d) -> In (k, v) d -> dict_get k d = Some v.
Proof.
  intros V d k v N I. induction d as [|[k' w] d IH]; [destruct I|]. cbn [map fst] in N. apply NoDup_cons_iff in N. destruct N as [N1 N2]. cbn [dict_get].
  destruct (str_eqb k k') eqn:E.
  - apply str_eqb_eq in E. subst k'. destruct I as [I|I]; [injection I as ->; reflexivity|]. exfalso. apply N1. apply in_map_iff. exists (k, v). split; [reflexivity|exact I].
  - destruct I as [I|I]; [injection I as -> ->; rewrite str_eqb_refl in E; discriminate|]. apply IH; assumption.
Qed.
(** the entries of a dictionary that was filled with distinct keys *)
Lemma dict_update_in : forall V (l d : list (str * V)) k v, NoDup (map fst l) -> NoDup (map fst d) ->
  (In (k, v) (dict_update d l) <-> In (k, v) l \/ (In (k, v) d /\ ~ In k (map fst l))).
Proof.
  intros V l d k v NL ND. split.
  - intro I. apply nodup_get in I; [|apply dict_update_nodup; exact ND]. destruct (dict_get k l) as [w|] eqn:G.
    + left. apply dict_get_in in G. rewrite (dict_update_has V l d k w NL G) in I. injection I as <-. exact G.
    + right. apply dict_get_none in G. rewrite dict_update_get in I by exact G. split; [apply dict_get_in; exact I|exact G].
  - intros [I|[I G]].
    + apply dict_get_in. apply dict_update_has; assumption.
    + apply dict_get_in. rewrite dict_update_get by exact G. apply nodup_get; assumption.
Qed.
Lemma dict_of_in : forall V (l : list (str * V)) k v, NoDup (map fst l) -> (In (k, v) (dict_of l) <-> In (k, v) l).
Proof.
  intros V l k v N. unfold dict_of. rewrite (dict_update_in V l [] k v N (NoDup_nil _)). split; [intros [H|[[] _]]; exact H|intro H; left; exact H].
Qed.
Lemma dict_of_nodup : forall V (l : list (str * V)), NoDup (map fst (dict_of l)).
Proof. intros V l. apply dict_update_nodup. constructor. Qed.
Lemma dict_of_get_in : forall V (l : list (str * V)) k v, dict_get k (dict_of l) = Some v -> In (k, v) l.
Proof.
  intros V l k v. unfold dict_of. assert (G : forall d, dict_get k (dict_update d l) = Some v -> In (k, v) l \/ dict_get k d = Some v).
  { induction l as [|[k' w] l IH]; intros d H; [right; exact H|]. change (dict_get k (dict_update (dict_set k' w d) l) = Some v) in H. destruct (IH _ H) as [I|I]; [left; right; exact I|].
    destruct (str_eqb k k') eqn:E; [apply str_eqb_eq in E; subst k'; rewrite dict_get_set_same in I; injection I as ->; left; left; reflexivity|].
    apply str_eqb_neq in E. rewrite dict_get_set_other in I by exact E. right. exact I. }
  intro H. destruct (G [] H) as [I|I]; [exact I|discriminate].
Qed.

(** ** What is installed *)
Definition site_dict (site : list installed) : list (str * installed) := dict_of (map (fun i => (skey i, i)) site).
Lemma site_fst : forall site, map fst (map (fun i => (skey i, i)) site) = map skey site.
Proof. intro site. rewrite map_map. reflexivity. Qed.
Lemma site_get : forall site i, NoDup (map skey site) -> In i site -> dict_get (skey i) (site_dict site) = Some i.
Proof.
  intros site i N I. unfold site_dict. apply nodup_get; [apply dict_of_nodup|]. apply dict_of_in; [rewrite site_fst; exact N|]. apply in_map_iff. exists i. auto.
Qed.
Lemma site_got : forall site k i, dict_get k (site_dict site) = Some i -> In i site /\ skey i = k.
Proof. intros site k i H. apply dict_of_get_in in H. apply in_map_iff in H. destruct H as (j & E & J). injection E as E1 E2. subst j. auto. Qed.
Lemma site_none : forall site k, dict_get k (site_dict site) = None -> forall i, In i site -> NoDup (map skey site) -> skey i <> k.
Proof. intros site k H i I N E. subst k. rewrite (site_get site i N I) in H. discriminate. Qed.
Definition request_of (i : installed) : list (str * dep) := match s_request i with Some d => [(skey i, d)] | None => [] end.
Lemma request_of_in : forall i k d, In (k, d) (request_of i) <-> s_request i = Some d /\ k = skey i.
Proof.
  intros i k d. unfold request_of. destruct (s_request i) as [e|]; cbn [In]; [|split; [tauto|intros [X _]; discriminate]].
  split; [intros [X|[]]; injection X as X1 X2; subst; auto|]. intros [X ->]. left. f_equal. symmetry in X. injection X. auto.
Qed.
Lemma request_keys : forall site, NoDup (map skey site) -> NoDup (map fst (flat_map request_of site)).
Proof.
  induction site as [|i site IH]; intro N; [constructor|]. cbn [map] in N. apply NoDup_cons_iff in N. destruct N as [N1 N2]. cbn [flat_map]. rewrite map_app. unfold request_of at 1. destruct (s_request i) as [d|]; cbn [map app fst]; [|exact (IH N2)].
  constructor; [|exact (IH N2)]. intro X. apply N1. apply in_map_iff in X. destruct X as ((k & e) & E & X). cbn in E. subst k. apply in_flat_map in X. destruct X as (j & J & X). apply request_of_in in X. destruct X as [_ X]. apply in_map_iff. exists j. auto.
Qed.
Lemma requested_entry : forall site k d, In (k, d) (requested_deps site) -> exists i, In i site /\ s_request i = Some d /\ skey i = k.
Proof.
  intros site k d I. unfold requested_deps in I. apply nodup_get in I; [|apply dict_of_nodup]. apply dict_of_get_in in I. apply in_flat_map in I. destruct I as (i & Ii & X). exists i.
  apply (request_of_in i k d) in X. destruct X as [X ->]. auto.
Qed.
Lemma entry_requested : forall site i d, NoDup (map skey site) -> In i site -> s_request i = Some d -> In (skey i, d) (requested_deps site).
Proof.
  intros site i d N I R. unfold requested_deps. apply (proj2 (dict_of_in _ (flat_map request_of site) (skey i) d (request_keys site N))). apply in_flat_map. exists i. split; [exact I|]. apply request_of_in. auto.
Qed.
Lemma requested_in : forall site d, NoDup (map skey site) -> (In d (map snd (requested_deps site)) <-> exists i, In i site /\ s_request i = Some d).
Proof.
  intros site d N. split.
  - intro I. apply in_map_iff in I. destruct I as ((k & e) & <- & I). apply requested_entry in I. destruct I as (i & Ii & R & _). eauto.
  - intros (i & I & R). apply in_map_iff. exists (skey i, d). split; [reflexivity|]. exact (entry_requested site i d N I R).
Qed.
Lemma new_fst : forall deps : list dep, map fst (map (fun d => (key (d_name d), d)) deps) = map (fun d => key (d_name d)) deps.
Proof. intro deps. rewrite map_map. reflexivity. Qed.
Lemma new_in : forall deps k d, NoDup (map (fun d => key (d_name d)) deps) -> (In (k, d) (new_deps deps) <-> In d deps /\ k = key (d_name d)).
Proof.
  intros deps k d N. unfold new_deps. rewrite dict_of_in by (rewrite new_fst; exact N). rewrite in_map_iff. split.
  - intros (e & E & I). injection E as E1 E2. subst. auto.
  - intros [I ->]. exists d. auto.
Qed.
Lemma new_values : forall deps d, NoDup (map (fun d => key (d_name d)) deps) -> (In d (map snd (new_deps deps)) <-> In d deps).
Proof.
  intros deps d N. rewrite in_map_iff. split.
  - intros ((k & e) & <- & I). apply (proj1 (new_in deps k e N)) in I. apply I.
  - intro I. exists (key (d_name d), d). split; [reflexivity|]. apply new_in; auto.
Qed.
Lemma new_keys : forall deps k, In k (map fst (new_deps deps)) <-> exists d, In d deps /\ key (d_name d) = k.
Proof.
  intros deps k. assert (M : (exists d, In d deps /\ key (d_name d) = k) <-> In k (map (fun d => key (d_name d)) deps)) by (rewrite in_map_iff; split; intros (d & X & Y); exists d; auto).
  rewrite M. unfold new_deps, dict_of.
  assert (G : forall (l : list (str * dep)) d0, In k (map fst (dict_update d0 l)) <-> In k (map fst l) \/ In k (map fst d0)).
  { assert (D : forall (d0 : list (str * dep)) k0 v0, In k (map fst (dict_set k0 v0 d0)) <-> k = k0 \/ In k (map fst d0)).
    { induction d0 as [|[k1 v1] d0 IH]; intros k0 v0; cbn [dict_set map fst In]; [intuition|]. destruct (str_eqb k0 k1) eqn:E; cbn [map fst In].
      - apply str_eqb_eq in E. subst k1. intuition.
      - rewrite IH. intuition. }
    induction l as [|[k0 v0] l IH]; intros d0; [cbn; tauto|]. change (In k (map fst (dict_update (dict_set k0 v0 d0) l)) <-> In k (map fst ((k0, v0) :: l)) \/ In k (map fst d0)). rewrite IH, D. cbn [map fst In]. intuition. }
  rewrite G, new_fst. cbn. tauto.
Qed.
Lemma all_in : forall site deps d, NoDup (map skey site) -> NoDup (map (fun d => key (d_name d)) deps) ->
  (In d (all_deps site deps) <-> In d deps \/ exists i, In i site /\ s_request i = Some d /\ forall e, In e deps -> key (d_name e) <> skey i).
Proof.
  intros site deps d N ND. unfold all_deps.
  assert (A : NoDup (map fst (new_deps deps))) by apply dict_of_nodup.
  assert (B : NoDup (map fst (requested_deps site))) by apply dict_of_nodup.
  split.
  - intro I. apply in_map_iff in I. destruct I as ((k & e) & <- & I). cbn [snd]. apply (proj1 (dict_update_in _ _ _ _ _ A B)) in I. destruct I as [I|[I X]].
    + left. apply (proj1 (new_in deps k e ND)) in I. apply I.
    + right. destruct (requested_entry site k e I) as (i & Ii & R & K). exists i. split; [exact Ii|]. split; [exact R|]. intros e' Ie E. apply X. apply new_keys. exists e'. split; [exact Ie|]. rewrite E. exact K.
  - intros [I|(i & I & R & X)].
    + apply in_map_iff. exists (key (d_name d), d). split; [reflexivity|]. apply (proj2 (dict_update_in _ _ _ _ _ A B)). left. apply new_in; auto.
    + apply in_map_iff. exists (skey i, d). split; [reflexivity|]. apply (proj2 (dict_update_in _ _ _ _ _ A B)). right. split; [exact (entry_requested site i d N I R)|].
      intro Y. apply new_keys in Y. destruct Y as (e' & Ie & E'). exact (X e' Ie E').
Qed.

(** ** What the resolver is offered *)
Definition well_keyed (repo_match : dep -> list package) : Prop := forall d p, In p (repo_match d) -> pkey p = key (d_name d).
Lemma install_offers : forall repo_match site request unspecified fast d p, well_keyed repo_match ->
  In p (answered (install_match repo_match site request unspecified fast) d) ->
  pkey p = key (d_name d) /\
  (key (d_name d) = pkey request -> p = request) /\
  (fast = true -> key (d_name d) <> pkey request -> forall i, In i site -> NoDup (map skey site) -> skey i = key (d_name d) -> p = s_package i) /\
  (key (d_name d) <> pkey request -> In p (map s_package site) \/ In p (repo_match d)).
Proof.
  intros repo_match site request unspecified fast d p W I. unfold answered, install_match in I. fold (site_dict site) in I.
  destruct (str_eqb (key (d_name d)) (pkey request)) eqn:K.
  - apply str_eqb_eq in K. destruct I as [<-|[]]. split; [symmetry; exact K|]. split; [reflexivity|]. split; intros; contradiction.
  - apply str_eqb_neq in K. destruct (dict_get (key (d_name d)) (site_dict site)) as [i|] eqn:G.
    + destruct (site_got _ _ _ G) as [Ii Ki]. destruct fast.
      * destruct I as [<-|[]]. split; [exact Ki|]. split; [intro X; contradiction|]. split.
        -- intros _ _ j J N E. rewrite <- E in G. rewrite (site_get site j N J) in G. injection G as ->. reflexivity.
        -- intros _. left. apply in_map. exact Ii.
      * apply in_app_or in I. assert (R : In p (repo_match d)) by (destruct I as [I|I]; apply filter_In in I; apply I). split; [exact (W d p R)|]. split; [intro X; contradiction|]. split; [discriminate|]. intros _. right. exact R.
    + assert (R : In p (repo_match d)).
      { destruct (fast && str_mem (key (d_name d)) unspecified); [|exact I]. destruct (repo_match d) as [|q r]; [destruct I|]. destruct (unspecified_limit (k_version (max_version q r))) as [s|]; [|destruct I]. cbn [bind] in I. apply filter_In in I. apply I. }
      split; [exact (W d p R)|]. split; [intro X; contradiction|]. split; [|intros _; right; exact R]. intros _ _ i Ii N E. exfalso. exact (site_none site _ G i Ii N E).
Qed.

(** ** The newest versions *)
Lemma max_in : forall r p, In (max_version p r) (p :: r).
Proof.
  unfold max_version. induction r as [|q r IH]; intro p; [left; reflexivity|]. cbn [fold_left]. destruct (version_ltb (k_version p) (k_version q)).
  - right. apply IH.
  - destruct (IH p) as [E|E]; [left; exact E|right; right; exact E].
Qed.
Lemma without_patch_parts : forall v, epoch (sv_without_patch v) = epoch v /\ pre_release (sv_without_patch v) = pre_release v /\ post_release (sv_without_patch v) = post_release v /\
  dev_release (sv_without_patch v) = dev_release v /\ local_label (sv_without_patch v) = local_label v /\ release (sv_without_patch v) = firstn 2 (release v).
Proof.
  intro v. unfold sv_without_patch. destruct (2 <? length (release v)) eqn:E; [auto 10|]. apply Nat.ltb_ge in E. rewrite firstn_all2 by exact E. auto 10.
Qed.
Lemma nth_firstn : forall n (l : list N) i, nth i (firstn n l) 0%N = if i <? n then nth i l 0%N else 0%N.
Proof.
  induction n as [|n IH]; intros l i; [destruct i; reflexivity|]. destruct l as [|x l]; [destruct i; [reflexivity|cbn [firstn nth]; destruct (S i <? S n); reflexivity]|]. destruct i as [|i]; [reflexivity|]. cbn [firstn nth]. rewrite IH. reflexivity.
Qed.
Lemma without_patch_least : forall v, sv_eqb (sv_without_patch v) v = true \/ sv_ltb (sv_without_patch v) v = true.
Proof.
  intro v. destruct (without_patch_parts v) as (E & P & O & D & L & R).
  assert (T : rel_eqb (release (sv_without_patch v)) (release v) = true \/ rel_lt (sv_without_patch v) v).
  { rewrite R. destruct (rel_eqb (firstn 2 (release v)) (release v)) eqn:Q; [left; reflexivity|right]. apply rel_ltb_nth. rewrite R.
    destruct (rel_ltb (firstn 2 (release v)) (release v)) eqn:B; [reflexivity|]. exfalso. destruct (rel_ltb (release v) (firstn 2 (release v))) eqn:X; [|pose proof (total_rel _ _ B X); congruence].
    apply rel_ltb_nth in X. destruct X as (i & X1 & _). rewrite nth_firstn in X1. destruct (i <? 2); lia. }
  destruct T as [T|T].
  - left. apply sv_eqb_spec. split; [|exact L]. split; [unfold ep; rewrite E; reflexivity|]. split; [apply rel_eqb_nth; exact T|auto].
  - right. apply sv_ltb_release; [unfold ep; rewrite E; reflexivity|exact T].
Qed.
Lemma max_above : forall r p q, In q (p :: r) -> version_ltb (k_version (max_version p r)) (k_version q) = false.
Proof.
  assert (G : forall r m seen, (forall q, In q seen -> version_ltb (k_version m) (k_version q) = false) -> In m seen ->
    forall q, In q (seen ++ r) -> version_ltb (k_version (fold_left (fun m p => if version_ltb (k_version m) (k_version p) then p else m) r m)) (k_version q) = false).
  { induction r as [|p r IH]; intros m seen B M q I; [rewrite app_nil_r in I; exact (B q I)|]. cbn [fold_left].
    apply (IH _ (seen ++ [p])); [| |rewrite <- app_assoc; exact I].
    - intros x Ix. apply in_app_or in Ix. destruct (version_ltb (k_version m) (k_version p)) eqn:L.
      + destruct Ix as [Ix|[<-|[]]]; [|apply version_ltb_irrefl]. destruct (version_ltb (k_version p) (k_version x)) eqn:Y; [|reflexivity]. rewrite <- (B x Ix). symmetry. exact (version_ltb_trans _ _ _ L Y).
      + destruct Ix as [Ix|[<-|[]]]; [exact (B x Ix)|exact L].
    - destruct (version_ltb (k_version m) (k_version p)); apply in_or_app; [right; left; reflexivity|left; exact M]. }
  intros r p q I. unfold max_version. apply (G r p [p]); [|left; reflexivity|exact I]. intros x [<-|[]]. apply version_ltb_irrefl.
Qed.
Lemma limit_allows : forall v limit, unspecified_limit v = Ok limit -> allows limit v = true.
Proof.
  intros v limit H. destruct v as [u pr sc|n|s]; cbn in H.
  - injection H as <-. exact (version_eqb_refl _).
  - injection H as <-. exact (version_eqb_refl _).
  - unfold create_range, mk_range in H. cbn in H. injection H as <-. cbn [allows]. unfold range_allows. destruct (without_patch_parts s) as (_ & _ & O & _). cbn [version_eqb version_ltb].
    destruct (without_patch_least s) as [E|E]; [rewrite E; reflexivity|]. rewrite O. cbn [is_post_release]. destruct (sv_eqb (sv_without_patch s) s); [reflexivity|]. cbn [andb orb].
    change (is_post_release (VStd s)) with (is_some (post_release s)). destruct (post_release s); cbn; rewrite E; reflexivity.
Qed.

(** ** Keys and the names of descriptors *)
Ltac by_char c := destruct c as [[] [] [] [] [] [] [] []]; reflexivity.
Lemma sub_runs_lower : forall s b, sub_runs invalid_char "-" b (lower s) = lower (sub_runs invalid_char "-" b s).
Proof.
  induction s as [|c s IH]; intro b; [reflexivity|]. cbn [lower map sub_runs]. assert (E : invalid_char (lower_char c) = invalid_char c) by by_char c. rewrite E. fold (lower s).
  destruct (invalid_char c); [destruct b|]; cbn [lower map]; [apply IH| |]; f_equal; try apply IH.
Qed.
Lemma lstrip_lower : forall s, lstrip "-" (lower s) = lower (lstrip "-" s).
Proof.
  induction s as [|c s IH]; [reflexivity|]. cbn [lower map lstrip]. assert (E : Ascii.eqb (lower_char c) "-" = Ascii.eqb c "-") by by_char c. rewrite E. destruct (Ascii.eqb c "-"); [exact IH|reflexivity].
Qed.
Lemma rev_lower : forall s, rev (lower s) = lower (rev s).
Proof. intro s. unfold lower. symmetry. apply map_rev. Qed.
Lemma strip_lower : forall s, strip "-" (lower s) = lower (strip "-" s).
Proof. intro s. unfold strip. rewrite lstrip_lower, rev_lower, lstrip_lower, rev_lower. reflexivity. Qed.
Lemma normal_lower : forall s, normalize_name (lower s) = do n <- normalize_name s; Ok (lower n).
Proof. intro s. unfold normalize_name. rewrite sub_runs_lower, strip_lower. destruct (strip "-" (sub_runs invalid_char "-" false s)); reflexivity. Qed.
Lemma key_descriptor : forall n, key n = map to_underscore (in_descriptor (lower n)).
Proof.
  intro n. unfold key, package_name_key, normalize_src_package_name, in_descriptor, descriptor_name. destruct n as [|c n]; [reflexivity|]. cbn [lower map]. change (lower_char c :: map lower_char n) with (lower (c :: n)). rewrite normal_lower.
  destruct (normalize_name (c :: n)) as [m|]; cbn [bind]; [|reflexivity]. unfold lower. rewrite !map_map. apply map_ext. intro x. by_char x.
Qed.

(** ** The resolver answers with packages that it was offered *)
Lemma opened_set_in : forall k p o k' q, In (k', q) (opened_set k p o) -> q = p \/ In (k', q) o.
Proof.
  intros k p o. induction o as [|[k0 q0] o IH]; intros k' q I; cbn [opened_set] in I; [destruct I as [I|[]]; injection I as _ <-; auto|].
  destruct (key_eqb k k0); destruct I as [I|I]; [injection I as _ <-; auto|right; right; exact I|right; left; exact I|]. destruct (IH k' q I) as [E|E]; [auto|right; right; exact E].
Qed.
Lemma opened_get_in : forall k o p, opened_get k o = Some p -> exists k', In (k', p) o.
Proof.
  intros k o p. induction o as [|[k0 q0] o IH]; intro H; cbn [opened_get] in H; [discriminate|]. destruct (key_eqb k k0); [injection H as ->; exists k0; left; reflexivity|]. destruct (IH H) as (k' & I). exists k'. right. exact I.
Qed.
Lemma opened_listed : forall repo_match gs k p, In (k, p) (opened_by repo_match gs) -> exists g, In p (listed repo_match g).
Proof.
  intros repo_match gs. unfold opened_by. assert (G : forall o, (forall k p, In (k, p) o -> exists g, In p (listed repo_match g)) ->
    forall k p, In (k, p) (fold_left (fun o g => snd (get_versions repo_match o g)) gs o) -> exists g, In p (listed repo_match g)).
  { induction gs as [|g gs IH]; intros o B k p I; [exact (B k p I)|]. cbn [fold_left] in I. revert k p I. apply IH. unfold get_versions. cbn [snd]. intros k p.
    assert (F : forall l o, (forall p, In p l -> In p (listed repo_match g)) -> (forall k p, In (k, p) o -> exists g, In p (listed repo_match g)) ->
      In (k, p) (fold_left (fun o p => opened_set (in_descriptor (lower (k_name p)), k_version p) p o) l o) -> exists g, In p (listed repo_match g)).
    { induction l as [|q l IHl]; intros o' L B' I; [exact (B' k p I)|]. cbn [fold_left] in I. apply (IHl _ (fun x X => L x (or_intror X)) (fun k' x X => match opened_set_in _ _ _ _ _ X with or_introl E => ex_intro _ g (eq_ind_r (fun y => In y (listed repo_match g)) (L q (or_introl eq_refl)) E) | or_intror Y => B' k' x Y end) I). }
    apply (F (listed repo_match g) o); auto. }
  apply G. intros k p [].
Qed.
Lemma collect_from : forall universe o ds l, collect universe o ds = Ok l -> forall p, In p l -> exists k, In (k, p) o.
Proof.
  intros universe o ds. induction ds as [|[n c] ds IH]; intros l H p I; cbn [collect] in H; [injection H as <-; destruct I|].
  destruct (decode universe n) as [g|]; [|discriminate]. destruct c as [| | | |v [|]|]; try discriminate. destruct (has_extras g); [exact (IH l H p I)|].
  destruct (opened_get (in_descriptor (g_name g), v) o) as [q|] eqn:E; [|discriminate]. destruct (collect universe o ds) as [r|]; [|discriminate]. cbn [bind] in H. injection H as <-. destruct I as [<-|I]; [exact (opened_get_in _ _ _ E)|exact (IH r eq_refl p I)].
Qed.
Lemma resolve_offered : forall as_uri env repo_match overrides universe pick fuel root l, resolve as_uri env repo_match overrides universe pick fuel root = Ok l ->
  forall p, In p l -> exists name, In p (repo_match (Dep name AllowAll None None)).
Proof.
  intros as_uri env repo_match overrides universe pick fuel root l H p I. unfold resolve in H. destruct (solve _ _ _ _ _ _ _) as [ds|]; [|discriminate]. cbn [bind] in H.
  destruct (collect_from _ _ _ _ H p I) as (k & K). destruct (opened_listed _ _ _ _ K) as (g & G). unfold listed, repo_list in G. apply unique_in in G. apply filter_In in G. exists (g_name g). apply G.
Qed.

(** ** Minor versions *)
(** an earlier epoch, major or minor version *)
Definition behind (v w : sv) : Prop :=
  (ep v < ep w)%N \/ (ep v = ep w /\ ((nth 0 (release v) 0 < nth 0 (release w) 0)%N \/ (nth 0 (release v) 0%N = nth 0 (release w) 0%N /\ (nth 1 (release v) 0 < nth 1 (release w) 0)%N))).
Lemma sv_ltb_epoch : forall a b, (ep a < ep b)%N -> sv_ltb a b = true.
Proof.
  intros a b H. rewrite sv_ltb_key. unfold pub_eqb, pub_ltb, lex_eqb, lex_ltb, pub_key. cbn [fst snd]. assert (E : (ep a =? ep b)%N = false) by (apply N.eqb_neq; lia). rewrite E. cbn [andb]. apply N.ltb_lt. exact H.
Qed.
Lemma behind_ltb : forall v w, behind v w -> sv_ltb v w = true.
Proof.
  intros v w [H|[E [H|[H0 H]]]]; [exact (sv_ltb_epoch v w H)| |]; (apply sv_ltb_release; [exact E|]).
  - exists 0. split; [exact H|]. intros j J. lia.
  - exists 1. split; [exact H|]. intros j J. assert (j = 0) by lia. subst j. exact H0.
Qed.
Lemma sv_ltb_asym : forall a b, sv_ltb a b = true -> sv_ltb b a = false.
Proof. intros a b H. exact (version_ltb_asym (VStd a) (VStd b) H). Qed.
Lemma sv_eq_not_lt : forall a b, sv_eqb a b = true -> sv_ltb a b = false.
Proof. intros a b H. exact (spo_irr _ _ spo_sv a b H). Qed.
Lemma limit_newest : forall m v w limit, unspecified_limit (VStd m) = Ok limit -> allows limit (VStd v) = true -> sv_ltb m w = false -> ~ behind v w.
Proof.
  intros m v w limit U A M B. unfold unspecified_limit, create_range, mk_range in U. cbn in U. injection U as <-. cbn [allows] in A. unfold range_allows in A. cbn [version_eqb version_ltb andb] in A.
  destruct (without_patch_parts m) as (E & _ & _ & _ & _ & R).
  assert (V : ~ behind v (sv_without_patch m)).
  { intro X. apply behind_ltb in X. destruct (sv_eqb (sv_without_patch m) v) eqn:Q.
    - assert (Q' : sv_eqb v (sv_without_patch m) = true) by (rewrite <- Q; exact (version_eqb_sym (VStd v) (VStd (sv_without_patch m)))). rewrite (sv_eq_not_lt _ _ Q') in X. discriminate.
    - cbn [orb] in A. destruct (is_post_release (VStd v) && _); [discriminate|]. rewrite andb_true_r in A. rewrite (sv_ltb_asym _ _ A) in X. discriminate. }
  assert (W : ~ behind m w) by (intro X; apply behind_ltb in X; congruence).
  unfold behind in *. unfold ep in V at 2 4. rewrite E in V. fold (ep m) in V. rewrite R, !nth_firstn in V. cbn [Nat.ltb Nat.leb] in V. lia.
Qed.
