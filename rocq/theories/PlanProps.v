(** C152: installing leaves the others alone.  C153: installing does not break what is installed.  C154: what is asked for is
    there.  C155: overrides.  C156: packages that are to be updated.  C157: newest versions.  C158: packages that do not exist.
    C159: removing from every environment.  C160: the requirement that is written down.  C161: names of packages to update. *)
From Coq Require Import String Ascii List Bool NArith Arith Lia.
From Verif Require Import Base BaseFacts OrderFacts NamesModel VersionModel VersionSpec VersionProofs SpecifierModel MarkerModel DependencyModel PubgrubModel ResolveModel ResolveProps PlanModel PlanProofs.
Import ListNotations.
Open Scope string_scope.
Open Scope nat_scope.
Open Scope list_scope.
Open Scope bool_scope.

(** ** What it means that an environment works *)
(** the packages of [l] that the requests [ds] use, with the extras for which they are used *)
Inductive used as_uri env overrides (ds : list dep) (l : list package) : package -> list str -> Prop :=
| used_asked : forall d q, In d ds -> is_applicable_for as_uri d env [] = Ok true -> In q l -> named q (effective overrides d) ->
    used as_uri env overrides ds l q (requested (effective overrides d))
| used_plain : forall p extras, used as_uri env overrides ds l p extras -> used as_uri env overrides ds l p []
| used_for : forall p extras rs d q, used as_uri env overrides ds l p extras -> k_requires p = Some rs -> In d rs ->
    is_applicable_for as_uri d env extras = Ok true -> In q l -> named q (effective overrides d) ->
    used as_uri env overrides ds l q (requested (effective overrides d)).
Definition met overrides (l : list package) (d : dep) : Prop :=
  exists q, In q l /\ named q (effective overrides d) /\ allows (d_spec (effective overrides d)) (k_version q) = true.
(** every request and everything that a used package requires is met *)
Definition healthy as_uri env overrides (ds : list dep) (l : list package) : Prop :=
  (forall d, In d ds -> is_applicable_for as_uri d env [] = Ok true -> met overrides l d) /\
  (forall p extras rs d, used as_uri env overrides ds l p extras -> k_requires p = Some rs -> In d rs -> is_applicable_for as_uri d env extras = Ok true -> met overrides l d).
(** what is known of an answer of the resolver (C106): it consists of packages of the repository that work together *)
Definition reliable as_uri env (repository : dep -> list package) overrides (l : list package) : Prop :=
  (forall p, In p l -> exists name, In p (repository (Dep name AllowAll None None))) /\ works as_uri env overrides request_dependency l.
(** nobody uses the name of the request, which pkm needs for itself *)
Definition reserved : str := "installation_request".
Definition unreserved_requires (p : package) : Prop := forall rs d, k_requires p = Some rs -> In d rs -> key (d_name d) <> reserved.
Record ordinary (repo_match : dep -> list package) (site : list installed) (deps : list dep) (overrides : list (str * dep)) : Prop := {
  o_keys : well_keyed repo_match;
  o_site : NoDup (map skey site);
  o_reserved_site : forall i, In i site -> skey i <> reserved /\ unreserved_requires (s_package i) /\ (forall d, s_request i = Some d -> key (d_name d) <> reserved);
  o_reserved_repo : forall d p, In p (repo_match d) -> unreserved_requires p;
  o_reserved_deps : forall d, In d deps -> key (d_name d) <> reserved;
  o_reserved_overrides : forall k d, In (k, d) overrides -> key (d_name d) <> reserved }.
Definition distinct_names (deps : list dep) : Prop := NoDup (map (fun d => key (d_name d)) deps).

Lemma named_key : forall q d, named q d -> pkey q = key (d_name d).
Proof. intros q d H. unfold pkey. rewrite !key_descriptor. unfold named in H. rewrite H. reflexivity. Qed.
Lemma request_key : key request_name = reserved.
Proof. vm_compute. reflexivity. Qed.
Lemma after_in : forall l p, In p (after l) <-> In p l /\ pkey p <> reserved.
Proof.
  intros l p. unfold after. rewrite filter_In. unfold is_request. rewrite request_key, negb_true_iff, str_eqb_neq. reflexivity.
Qed.

(** the answer of the resolver without the request is healthy *)
Section FromWorks.
  Variable as_uri : str -> str.
  Variable env : list (str * str).
  Variable overrides : list (str * dep).
  Variable ds : list dep.
  Variable l : list package.
  Hypothesis request : forall p, In p l -> pkey p = reserved -> p = request_package ds.
  Hypothesis clean : forall p, In p l -> unreserved_requires p.
  Hypothesis clean_overrides : forall k d, In (k, d) overrides -> key (d_name d) <> reserved.
  Hypothesis work : works as_uri env overrides request_dependency l.
  Lemma effective_clean : forall d, key (d_name d) <> reserved -> key (d_name (effective overrides d)) <> reserved.
  Proof. intros d H. unfold effective. destruct (dict_get (d_name d) overrides) as [o|] eqn:E; [|exact H]. apply (clean_overrides (d_name d)). apply dict_get_in. exact E. Qed.
  Lemma the_request : In (request_package ds) l.
  Proof.
    destruct work as [(p & I & N) _]. assert (K : pkey p = reserved) by (rewrite (named_key _ _ N); vm_compute; reflexivity). rewrite <- (request p I K). exact I.
  Qed.
  Lemma request_needed : needed as_uri env overrides request_dependency l (request_package ds) [].
  Proof. apply (needed_root as_uri env overrides request_dependency l (request_package ds) the_request). vm_compute. reflexivity. Qed.
  Lemma used_needed : forall p extras, used as_uri env overrides ds (after l) p extras -> In p (after l) /\ needed as_uri env overrides request_dependency l p extras.
  Proof.
    intros p extras U. induction U as [d q D A I N|p extras U (I & H)|p extras rs d q U (I & H) R D A Iq N].
    - split; [exact I|]. apply after_in in I. apply (needed_for as_uri env overrides request_dependency l (request_package ds) [] ds d q request_needed eq_refl D A (proj1 I) N).
    - split; [exact I|]. exact (needed_plain _ _ _ _ _ _ _ H).
    - split; [exact Iq|]. apply after_in in Iq. exact (needed_for as_uri env overrides request_dependency l p extras rs d q H R D A (proj1 Iq) N).
  Qed.
  Lemma met_after : forall d, key (d_name d) <> reserved -> (exists q, In q l /\ named q (effective overrides d) /\ allows (d_spec (effective overrides d)) (k_version q) = true) -> met overrides (after l) d.
  Proof.
    intros d K (q & I & N & A). exists q. split; [|auto]. apply after_in. split; [exact I|]. rewrite (named_key _ _ N). exact (effective_clean d K).
  Qed.
  Lemma works_healthy : (forall d, In d ds -> key (d_name d) <> reserved) -> healthy as_uri env overrides ds (after l).
  Proof.
    intro C. split.
    - intros d D A. apply met_after; [exact (C d D)|]. exact (proj2 work (request_package ds) [] ds d request_needed eq_refl D A).
    - intros p extras rs d U R D A. destruct (used_needed p extras U) as [I N]. apply met_after; [|exact (proj2 work p extras rs d N R D A)]. apply after_in in I. exact (clean p (proj1 I) rs d R D).
  Qed.
End FromWorks.

(** the packages that the planner offers to the resolver *)
Section Offered.
  Variable repo_match : dep -> list package.
  Variable site : list installed.
  Variable deps : list dep.
  Variable overrides : list (str * dep).
  Hypothesis ok : ordinary repo_match site deps overrides.
  Variable ds : list dep.
  Variable unspecified : list str.
  Variable fast : bool.
  Notation repository := (answered (install_match repo_match site (request_package ds) unspecified fast)).
  Lemma pkey_request : pkey (request_package ds) = reserved.
  Proof. exact request_key. Qed.
  Lemma offered_request : forall d p, In p (repository d) -> pkey p = reserved -> p = request_package ds.
  Proof.
    intros d p I K. destruct (install_offers repo_match site (request_package ds) unspecified fast d p (o_keys _ _ _ _ ok) I) as (A & B & _). apply B. rewrite pkey_request, <- A. exact K.
  Qed.
  Lemma offered_installed : fast = true -> forall d p i, In p (repository d) -> In i site -> pkey p = skey i -> p = s_package i.
  Proof.
    intros F d p i I Ii K. destruct (install_offers repo_match site (request_package ds) unspecified fast d p (o_keys _ _ _ _ ok) I) as (A & _ & B & _).
    apply (B F); [|exact Ii|exact (o_site _ _ _ _ ok)|rewrite <- K; exact A]. rewrite pkey_request, <- A, K. exact (proj1 (o_reserved_site _ _ _ _ ok i Ii)).
  Qed.
  Lemma offered_clean : (forall d, In d ds -> key (d_name d) <> reserved) -> forall d p, In p (repository d) -> unreserved_requires p.
  Proof.
    intros C d p I. destruct (install_offers repo_match site (request_package ds) unspecified fast d p (o_keys _ _ _ _ ok) I) as (A & B & _ & D).
    destruct (str_eqb (key (d_name d)) reserved) eqn:E.
    - apply str_eqb_eq in E. rewrite (B (eq_trans E (eq_sym pkey_request))). intros rs e R Ie. cbn [k_requires request_package] in R. injection R as <-. exact (C e Ie).
    - apply str_eqb_neq in E. destruct (D (fun X => E (eq_trans X pkey_request))) as [X|X].
      + apply in_map_iff in X. destruct X as (i & <- & Ii). exact (proj1 (proj2 (o_reserved_site _ _ _ _ ok i Ii))).
      + exact (o_reserved_repo _ _ _ _ ok d p X).
  Qed.
  Lemma reliable_healthy : forall as_uri env l, (forall d, In d ds -> key (d_name d) <> reserved) -> reliable as_uri env repository overrides l -> healthy as_uri env overrides ds (after l).
  Proof.
    intros as_uri env l C [O W]. apply works_healthy; [| |exact (o_reserved_overrides _ _ _ _ ok)|exact W|exact C].
    - intros p I K. destruct (O p I) as (d & X). exact (offered_request _ p X K).
    - intros p I. destruct (O p I) as (d & X). exact (offered_clean C _ p X).
  Qed.
End Offered.

(** the answers of the modelled resolver (C106) are reliable whenever its packages work together *)
Lemma resolver_reliable : forall as_uri env repository overrides universe pick fuel l,
  resolve as_uri env repository overrides universe pick fuel request_dependency = Ok l -> works as_uri env overrides request_dependency l -> reliable as_uri env repository overrides l.
Proof. intros as_uri env repository overrides universe pick fuel l H W. split; [exact (resolve_offered _ _ _ _ _ _ _ _ _ H)|exact W]. Qed.
Lemma preinstalled_all : forall site, preinstalled site [] = site.
Proof. induction site as [|i site IH]; [reflexivity|]. change (i :: preinstalled site [] = i :: site). rewrite IH. reflexivity. Qed.
(** the two ways to a plan *)
Lemma plan_cases : forall resolve repo_match site deps user_requested overrides updates pl, plan_installation resolve repo_match site deps user_requested overrides updates = Ok pl ->
  let pre := preinstalled site updates in
  (exists l, resolve (fast_repository repo_match pre deps) overrides request_dependency = Ok l /\
     l_packages pl = l ++ filter (fun p => negb (str_mem (pkey p) (map pkey l))) (map s_package pre)) \/
  (resolve (fast_repository repo_match pre deps) overrides request_dependency = Err UnsatError /\
   resolve (slow_repository repo_match pre deps) [] request_dependency = Ok (l_packages pl)).
Proof.
  intros resolve repo_match site deps user_requested overrides updates pl H pre. unfold plan_installation, fast_plan, slow_plan in H. fold pre in H.
  destruct (resolve (fast_repository repo_match pre deps) overrides request_dependency) as [l|e] eqn:F; cbn [bind] in H.
  - left. exists l. split; [reflexivity|]. injection H as <-. reflexivity.
  - right. destruct e; cbn [bind] in H; try discriminate H. split; [reflexivity|]. destruct (resolve (slow_repository repo_match pre deps) [] request_dependency) as [l|e]; [|discriminate H]. cbn [bind] in H. injection H as <-. reflexivity.
Qed.

(** ** C152 *)
(** when the request can be met by adding packages, all installed packages stay as they are *)
Theorem C152_stay_partial : forall resolve repo_match site deps user_requested overrides pl l, ordinary repo_match site deps overrides ->
  plan_installation resolve repo_match site deps user_requested overrides [] = Ok pl ->
  resolve (fast_repository repo_match site deps) overrides request_dependency = Ok l -> (forall p, In p l -> exists d, In p (fast_repository repo_match site deps d)) ->
  forall i, In i site -> In (s_package i) (after (l_packages pl)) /\ forall p, In p (l_packages pl) -> pkey p = skey i -> p = s_package i.
Proof.
  intros resolve repo_match site deps user_requested overrides pl l ok H F O i Ii. destruct (plan_cases _ _ _ _ _ _ _ _ H) as [(l' & F' & E)|[F' _]]; rewrite preinstalled_all in *; [|congruence].
  assert (l' = l) by congruence. subst l'. rewrite E.
  assert (U : forall p, In p l -> pkey p = skey i -> p = s_package i). { intros p I K. destruct (O p I) as (d & X). exact (offered_installed repo_match site deps overrides ok _ _ true eq_refl d p i X Ii K). }
  split.
  - apply after_in. split; [|exact (proj1 (o_reserved_site _ _ _ _ ok i Ii))]. destruct (str_mem (skey i) (map pkey l)) eqn:M.
    + apply in_or_app. left. unfold str_mem in M. apply existsb_exists in M. destruct M as (k & Ik & Ek). apply str_eqb_eq in Ek. subst k. apply in_map_iff in Ik. destruct Ik as (p & Ep & Ip). rewrite <- (U p Ip Ep). exact Ip.
    + apply in_or_app. right. apply filter_In. split; [apply in_map; exact Ii|]. fold (skey i). rewrite M. reflexivity.
  - intros p I K. apply in_app_or in I. destruct I as [I|I]; [exact (U p I K)|]. apply filter_In in I. destruct I as [I _]. apply in_map_iff in I. destruct I as (j & <- & J). fold (skey j) in K. f_equal.
    assert (G := site_get site j (o_site _ _ _ _ ok) J). rewrite K in G. rewrite (site_get site i (o_site _ _ _ _ ok) Ii) in G. injection G. auto.
Qed.

(** ** C153, C154, C155 *)
Definition kept_request (site : list installed) (deps : list dep) (d : dep) : Prop :=
  exists i, In i site /\ s_request i = Some d /\ forall e, In e deps -> key (d_name e) <> skey i.
Definition requests (site : list installed) : list dep := flat_map (fun i => match s_request i with Some d => [d] | None => [] end) site.
Lemma requests_in : forall site d, In d (requests site) <-> exists i, In i site /\ s_request i = Some d.
Proof.
  intros site d. unfold requests. rewrite in_flat_map. split; intros (i & I & R); exists i; (split; [exact I|]).
  - destruct (s_request i); [|destruct R]. destruct R as [R|[]]. subst. reflexivity.
  - rewrite R. left. reflexivity.
Qed.
Lemma met_mono : forall overrides l l' d, (forall q, In q l -> In q l') -> met overrides l d -> met overrides l' d.
Proof. intros overrides l l' d S (q & I & H). exists q. split; [exact (S q I)|exact H]. Qed.
Lemma used_in : forall as_uri env overrides ds l p extras, used as_uri env overrides ds l p extras -> In p l.
Proof. intros as_uri env overrides ds l p extras U. induction U; assumption. Qed.
Lemma used_ds : forall as_uri env overrides ds ds' l p extras, (forall d, In d ds -> In d ds') -> used as_uri env overrides ds l p extras -> used as_uri env overrides ds' l p extras.
Proof.
  intros as_uri env overrides ds ds' l p extras S U. induction U as [d q D A I N|p extras U IH|p extras rs d q U IH R D A I N].
  - apply used_asked; auto.
  - apply (used_plain _ _ _ _ _ _ extras). exact IH.
  - apply (used_for _ _ _ _ _ p extras rs); auto.
Qed.

(** adding the packages of one answer to a working environment *)
Section Added.
  Variable as_uri : str -> str.
  Variable env : list (str * str).
  Variable overrides : list (str * dep).
  Variable old_ds new_ds : list dep.
  Variable old new : list package.
  Notation combined := (new ++ filter (fun p => negb (str_mem (pkey p) (map pkey new))) old).
  Hypothesis old_works : healthy as_uri env overrides old_ds old.
  Hypothesis new_works : healthy as_uri env overrides new_ds (after new).
  Hypothesis same : forall p q, In p new -> In q old -> pkey p = pkey q -> p = q.
  Hypothesis old_clean : forall p, In p old -> pkey p <> reserved.
  Lemma old_kept : forall q, In q old -> In q (after combined).
  Proof.
    intros q I. apply after_in. split; [|exact (old_clean q I)]. apply in_or_app. destruct (str_mem (pkey q) (map pkey new)) eqn:M.
    - left. unfold str_mem in M. apply existsb_exists in M. destruct M as (k & Ik & Ek). apply str_eqb_eq in Ek. subst k. apply in_map_iff in Ik. destruct Ik as (p & Ep & Ip). rewrite <- (same p q Ip I Ep). exact Ip.
    - right. apply filter_In. rewrite M. auto.
  Qed.
  Lemma new_kept : forall q, In q (after new) -> In q (after combined).
  Proof. intros q I. apply after_in in I. apply after_in. split; [apply in_or_app; left; apply I|apply I]. Qed.
  (** a package of the right name is the one that was meant *)
  Lemma old_named : forall d q, met overrides old d -> In q (after combined) -> named q (effective overrides d) -> In q old.
  Proof.
    intros d q (q' & I' & N' & _) I N. assert (K : pkey q = pkey q') by (rewrite (named_key _ _ N), (named_key _ _ N'); reflexivity).
    apply after_in in I. destruct I as [I _]. apply in_app_or in I. destruct I as [I|I].
    - rewrite (same q q' I I' K). exact I'.
    - apply filter_In in I. apply I.
  Qed.
  Lemma new_named : forall d q, met overrides (after new) d -> In q (after combined) -> named q (effective overrides d) -> In q (after new).
  Proof.
    intros d q (q' & I' & N' & _) I N. assert (K : pkey q = pkey q') by (rewrite (named_key _ _ N), (named_key _ _ N'); reflexivity).
    apply after_in in I. destruct I as [I R]. apply after_in. split; [|exact R]. apply in_app_or in I. destruct I as [I|I]; [exact I|]. exfalso. apply filter_In in I. destruct I as [_ M]. apply negb_true_iff in M.
    assert (T : str_mem (pkey q) (map pkey new) = true); [|congruence]. unfold str_mem. apply existsb_exists. exists (pkey q'). split; [apply in_map; apply after_in in I'; apply I'|]. rewrite K. apply str_eqb_refl.
  Qed.
  Lemma used_either : forall ds p extras, (forall d, In d ds -> In d new_ds \/ In d old_ds) -> used as_uri env overrides ds (after combined) p extras ->
    used as_uri env overrides new_ds (after new) p extras \/ used as_uri env overrides old_ds old p extras.
  Proof.
    intros ds p extras D U. induction U as [d q Id A I N|p extras U IH|p extras rs d q U IH R Id A I N].
    - destruct (D d Id) as [X|X].
      + left. apply (used_asked as_uri env overrides new_ds (after new) d q X A); [|exact N]. exact (new_named d q (proj1 new_works d X A) I N).
      + right. apply (used_asked as_uri env overrides old_ds old d q X A); [|exact N]. exact (old_named d q (proj1 old_works d X A) I N).
    - destruct IH as [IH|IH]; [left|right]; exact (used_plain _ _ _ _ _ _ _ IH).
    - destruct IH as [IH|IH].
      + left. apply (used_for as_uri env overrides new_ds (after new) p extras rs d q IH R Id A); [|exact N]. exact (new_named d q (proj2 new_works p extras rs d IH R Id A) I N).
      + right. apply (used_for as_uri env overrides old_ds old p extras rs d q IH R Id A); [|exact N]. exact (old_named d q (proj2 old_works p extras rs d IH R Id A) I N).
  Qed.
  Lemma added_healthy : forall ds, (forall d, In d ds -> In d new_ds \/ In d old_ds) -> healthy as_uri env overrides ds (after combined).
  Proof.
    intros ds D. split.
    - intros d Id A. destruct (D d Id) as [X|X]; [apply (met_mono overrides (after new)); [exact new_kept|exact (proj1 new_works d X A)]|apply (met_mono overrides old); [exact old_kept|exact (proj1 old_works d X A)]].
    - intros p extras rs d U R Id A. destruct (used_either ds p extras D U) as [X|X]; [apply (met_mono overrides (after new)); [exact new_kept|exact (proj2 new_works p extras rs d X R Id A)]|apply (met_mono overrides old); [exact old_kept|exact (proj2 old_works p extras rs d X R Id A)]].
  Qed.
End Added.

(** an environment that works also works after the installation: the new requests and the old ones that were not replaced, with
    everything that they use *)
Theorem C153_healthy_partial : forall as_uri env resolve repo_match site deps user_requested pl, ordinary repo_match site deps [] -> distinct_names deps ->
  (forall l, resolve (fast_repository repo_match site deps) [] request_dependency = Ok l -> reliable as_uri env (fast_repository repo_match site deps) [] l) ->
  (forall l, resolve (slow_repository repo_match site deps) [] request_dependency = Ok l -> reliable as_uri env (slow_repository repo_match site deps) [] l) ->
  healthy as_uri env [] (requests site) (map s_package site) ->
  plan_installation resolve repo_match site deps user_requested [] [] = Ok pl ->
  exists ds, (forall d, In d ds <-> In d deps \/ kept_request site deps d) /\ healthy as_uri env [] ds (after (l_packages pl)).
Proof.
  intros as_uri env resolve repo_match site deps user_requested pl ok N RF RS Hp H. exists (all_deps site deps).
  assert (D : forall d, In d (all_deps site deps) <-> In d deps \/ kept_request site deps d) by (intro d; exact (all_in site deps d (o_site _ _ _ _ ok) N)). split; [exact D|].
  assert (S := o_site _ _ _ _ ok).
  destruct (plan_cases _ _ _ _ _ _ _ _ H) as [(l & F & E)|[_ F]]; rewrite preinstalled_all in *.
  - rewrite E. destruct (RF l F) as [O W]. apply (added_healthy as_uri env [] (requests site) (map snd (new_deps deps)) (map s_package site) l Hp).
    + apply (reliable_healthy repo_match site deps [] ok (map snd (new_deps deps)) (unspecified_of deps) true as_uri env l); [|exact (conj O W)]. intros d I. apply (proj1 (new_values deps d N)) in I. exact (o_reserved_deps _ _ _ _ ok d I).
    + intros p q I J K. apply in_map_iff in J. destruct J as (j & <- & J). destruct (O p I) as (d & X). exact (offered_installed repo_match site deps [] ok _ _ true eq_refl _ p j X J K).
    + intros p I. apply in_map_iff in I. destruct I as (i & <- & I). exact (proj1 (o_reserved_site _ _ _ _ ok i I)).
    + intros d I. apply D in I. destruct I as [I|(i & I & R & _)]; [left; apply (proj2 (new_values deps d N)); exact I|right; apply requests_in; eauto].
  - apply (reliable_healthy repo_match site deps [] ok (all_deps site deps) (unspecified_of deps) false as_uri env (l_packages pl)); [|exact (RS _ F)].
    intros d I. apply D in I. destruct I as [I|(i & I & R & _)]; [exact (o_reserved_deps _ _ _ _ ok d I)|exact (proj2 (proj2 (o_reserved_site _ _ _ _ ok i I)) d R)].
Qed.

(** when packages have to be changed, the versions that are installed are offered before all others of the same package *)
Theorem C153_prefers : forall repo_match pre deps i d, NoDup (map skey pre) -> In i pre -> key (d_name d) = skey i -> skey i <> reserved ->
  exists a b, slow_repository repo_match pre deps d = a ++ b /\
    (forall p, In p a <-> In p (repo_match d) /\ version_eqb (k_version (s_package i)) (k_version p) = true) /\
    (forall p, In p b <-> In p (repo_match d) /\ version_eqb (k_version (s_package i)) (k_version p) = false).
Proof.
  intros repo_match pre deps i d N I K R. unfold slow_repository, answered, install_match. rewrite pkey_request, K.
  assert (Q : str_eqb (skey i) reserved = false) by (apply str_eqb_neq; exact R). rewrite Q. fold (site_dict pre). rewrite (site_get pre i N I).
  eexists _, _. split; [reflexivity|]. split; intro p; rewrite filter_In; [reflexivity|]. rewrite negb_true_iff. reflexivity.
Qed.
(** ** C154 *)
Lemma preinstalled_in : forall site updates i, In i (preinstalled site updates) -> In i site.
Proof. intros site updates i I. apply filter_In in I. apply I. Qed.
Lemma nodup_filter : forall A B (f : A -> B) g l, NoDup (map f l) -> NoDup (map f (filter g l)).
Proof.
  intros A B f g l. induction l as [|x l IH]; intro N; [constructor|]. cbn [map] in N. apply NoDup_cons_iff in N. destruct N as [N1 N2]. cbn [filter]. destruct (g x); [|exact (IH N2)]. cbn [map]. constructor; [|exact (IH N2)].
  intro X. apply N1. apply in_map_iff in X. destruct X as (y & E & Y). apply filter_In in Y. apply in_map_iff. exists y. split; [exact E|apply Y].
Qed.
Lemma ordinary_pre : forall repo_match site deps overrides updates, ordinary repo_match site deps overrides -> ordinary repo_match (preinstalled site updates) deps overrides.
Proof.
  intros repo_match site deps overrides updates [K S RS RR RD RO]. split; auto.
  - apply nodup_filter. exact S.
  - intros i I. exact (RS i (preinstalled_in _ _ _ I)).
Qed.
(** whatever is installed, whichever packages are to be updated: what was asked for is there, and it is written down *)
Theorem C154_asked_partial : forall as_uri env resolve repo_match site deps user_requested updates pl, ordinary repo_match site deps [] -> distinct_names deps ->
  let pre := preinstalled site updates in
  (forall l, resolve (fast_repository repo_match pre deps) [] request_dependency = Ok l -> reliable as_uri env (fast_repository repo_match pre deps) [] l) ->
  (forall l, resolve (slow_repository repo_match pre deps) [] request_dependency = Ok l -> reliable as_uri env (slow_repository repo_match pre deps) [] l) ->
  plan_installation resolve repo_match site deps user_requested [] updates = Ok pl ->
  forall d, In d deps ->
    (is_applicable_for as_uri d env [] = Ok true -> exists q, In q (after (l_packages pl)) /\ named q d /\ allows (d_spec d) (k_version q) = true) /\
    (user_requested = true -> dict_get (key (d_name d)) (l_requests pl) = Some d).
Proof.
  intros as_uri env resolve repo_match site deps user_requested updates pl ok0 N pre RF RS H d I. assert (ok := ordinary_pre _ _ _ _ updates ok0). fold pre in ok. split.
  - intro A. change (met [] (after (l_packages pl)) d). destruct (plan_cases _ _ _ _ _ _ _ _ H) as [(l & F & E)|[_ F]]; fold pre in F.
    + fold pre in E. rewrite E. apply (met_mono [] (after l)).
      * intros q Q. apply after_in in Q. apply after_in. split; [apply in_or_app; left; apply Q|apply Q].
      * assert (Hh : healthy as_uri env [] (map snd (new_deps deps)) (after l)).
        { apply (reliable_healthy repo_match pre deps [] ok (map snd (new_deps deps)) (unspecified_of deps) true as_uri env l); [|exact (RF l F)]. intros e J. apply (proj1 (new_values deps e N)) in J. exact (o_reserved_deps _ _ _ _ ok e J). }
        exact (proj1 Hh d (proj2 (new_values deps d N) I) A).
    + assert (D : forall e, In e (all_deps pre deps) <-> In e deps \/ kept_request pre deps e) by (intro e; exact (all_in pre deps e (o_site _ _ _ _ ok) N)).
      assert (Hh : healthy as_uri env [] (all_deps pre deps) (after (l_packages pl))).
      { apply (reliable_healthy repo_match pre deps [] ok (all_deps pre deps) (unspecified_of deps) false as_uri env (l_packages pl)); [|exact (RS _ F)].
        intros e J. apply D in J. destruct J as [J|(i & J & R & _)]; [exact (o_reserved_deps _ _ _ _ ok e J)|exact (proj2 (proj2 (o_reserved_site _ _ _ _ ok i J)) e R)]. }
      apply (proj1 Hh d); [|exact A]. apply D. left. exact I.
  - intros ->. unfold plan_installation in H. fold pre in H. destruct (match fast_plan resolve repo_match pre deps [] with Err UnsatError => _ | r => r end) as [l|e]; [|discriminate H]. cbn [bind] in H. injection H as <-. cbn [l_requests].
    apply dict_update_has; [apply dict_of_nodup|]. apply new_in; [exact N|]. auto.
Qed.

Lemma listed_iff : forall x l, str_mem x l = true <-> In x l.
Proof.
  intros x l. unfold str_mem. rewrite existsb_exists. split; [intros (y & I & E); apply str_eqb_eq in E; subst; exact I|]. intro I. exists x. split; [exact I|apply str_eqb_refl].
Qed.
(** the requests that are written down are those that were there, without the packages to be updated, and the new ones, the latter only
    when a user made them *)
Theorem C154_recorded : forall resolve repo_match site deps user_requested overrides updates pl, NoDup (map skey site) ->
  plan_installation resolve repo_match site deps user_requested overrides updates = Ok pl ->
  (forall k d, In (k, d) (l_requests pl) ->
     (exists i, In i site /\ s_request i = Some d /\ skey i = k /\ ~ In k updates) \/ user_requested = true /\ In d deps /\ k = key (d_name d)) /\
  (user_requested = false -> forall i d, In i site -> s_request i = Some d -> ~ In (skey i) updates -> In (skey i, d) (l_requests pl)).
Proof.
  intros resolve repo_match site deps user_requested overrides updates pl ND H. unfold plan_installation in H.
  destruct (match fast_plan _ _ _ _ _ with Err UnsatError => _ | r => r end) as [l|e]; [|discriminate H]. cbn [bind] in H. injection H as <-. cbn [l_requests].
  assert (P : forall i, In i (preinstalled site updates) <-> In i site /\ ~ In (skey i) updates).
  { intro i. unfold preinstalled. rewrite filter_In. rewrite negb_true_iff. split; intros [A B]; (split; [exact A|]).
    - intro X. apply listed_iff in X. congruence.
    - destruct (str_mem (skey i) updates) eqn:E; [|reflexivity]. apply listed_iff in E. contradiction. }
  assert (R : forall k d, In (k, d) (requested_deps (preinstalled site updates)) -> exists i, In i site /\ s_request i = Some d /\ skey i = k /\ ~ In k updates).
  { intros k d I. apply requested_entry in I. destruct I as (i & I & X & <-). apply P in I. exists i. tauto. }
  split.
  - intros k d I. destruct user_requested; [|left; exact (R k d I)].
    apply dict_update_in in I; [|apply dict_of_nodup|apply dict_of_nodup].
    destruct I as [I|[I _]]; [right|left; exact (R k d I)]. split; [reflexivity|]. unfold new_deps in I. apply nodup_get in I; [|apply dict_of_nodup]. apply dict_of_get_in in I.
    apply in_map_iff in I. destruct I as (x & X & I). injection X as <- <-. auto.
  - intros -> i d I X U. apply entry_requested; [|apply P; auto|exact X]. apply nodup_filter. exact ND.
Qed.

(** ** C155 *)
(** when the request can be met by adding packages, every requirement on an overridden package counts as its override *)
Theorem C155_added_partial : forall as_uri env resolve repo_match site deps user_requested overrides updates pl l, ordinary repo_match site deps overrides -> distinct_names deps ->
  plan_installation resolve repo_match site deps user_requested overrides updates = Ok pl ->
  resolve (fast_repository repo_match (preinstalled site updates) deps) overrides request_dependency = Ok l -> reliable as_uri env (fast_repository repo_match (preinstalled site updates) deps) overrides l ->
  healthy as_uri env overrides deps (after (l_packages pl)).
Proof.
  intros as_uri env resolve repo_match site deps user_requested overrides updates pl l ok0 N H F R. assert (ok := ordinary_pre _ _ _ _ updates ok0). set (pre := preinstalled site updates) in *.
  destruct (plan_cases _ _ _ _ _ _ _ _ H) as [(l' & F' & E)|[F' _]]; fold pre in F'; [|congruence]. assert (l' = l) by congruence. subst l'. fold pre in E. rewrite E.
  apply (added_healthy as_uri env overrides [] (map snd (new_deps deps)) (map s_package pre) l).
  - split; [intros d []|]. intros p extras rs d U. exfalso. clear -U. remember (@nil dep) as ds. induction U; subst; auto.
  - apply (reliable_healthy repo_match pre deps overrides ok (map snd (new_deps deps)) (unspecified_of deps) true as_uri env l); [|exact R]. intros e J. apply (proj1 (new_values deps e N)) in J. exact (o_reserved_deps _ _ _ _ ok e J).
  - intros p q I J K. apply in_map_iff in J. destruct J as (j & <- & J). destruct (proj1 R p I) as (d & X). exact (offered_installed repo_match pre deps overrides ok _ _ true eq_refl _ p j X J K).
  - intros p I. apply in_map_iff in I. destruct I as (i & <- & I). exact (proj1 (o_reserved_site _ _ _ _ ok i I)).
  - intros d I. left. exact (proj2 (new_values deps d N) I).
Qed.

(** ** C156 *)
Theorem C156_asked_partial : forall as_uri env resolve repo_match site deps user_requested updates pl, ordinary repo_match site deps [] -> distinct_names deps ->
  let pre := preinstalled site updates in
  (forall l, resolve (fast_repository repo_match pre deps) [] request_dependency = Ok l -> reliable as_uri env (fast_repository repo_match pre deps) [] l) ->
  (forall l, resolve (slow_repository repo_match pre deps) [] request_dependency = Ok l -> reliable as_uri env (slow_repository repo_match pre deps) [] l) ->
  plan_installation resolve repo_match site deps user_requested [] updates = Ok pl ->
  forall i d, In i site -> In (skey i) updates -> In d deps -> key (d_name d) = skey i -> is_applicable_for as_uri d env [] = Ok true ->
  exists q, In q (after (l_packages pl)) /\ pkey q = skey i.
Proof.
  intros as_uri env resolve repo_match site deps user_requested updates pl ok N pre RF RS H i d _ _ D K A.
  destruct (proj1 (C154_asked_partial as_uri env resolve repo_match site deps user_requested updates pl ok N RF RS H d D) A) as (q & I & Nm & _). exists q. split; [exact I|]. rewrite (named_key _ _ Nm). exact K.
Qed.

(** ** C157 *)
(** the repository has no other version of the chosen package with a later minor version *)
Theorem C157_newest_partial : forall as_uri env repo_match pre deps overrides l, ordinary repo_match pre deps overrides -> reliable as_uri env (fast_repository repo_match pre deps) overrides l ->
  forall d p v, In d deps -> d_spec d = AllowAll -> (forall i, In i pre -> skey i <> key (d_name d)) -> In p l -> pkey p = key (d_name d) -> k_version p = VStd v ->
  exists name, key name = key (d_name d) /\ In p (repo_match (Dep name AllowAll None None)) /\
    forall q w, In q (repo_match (Dep name AllowAll None None)) -> k_version q = VStd w -> ~ behind v w.
Proof.
  intros as_uri env repo_match pre deps overrides l ok [O _] d p v D AA NI I K V. destruct (O p I) as (name & X). exists name.
  destruct (install_offers repo_match pre _ _ true _ p (o_keys _ _ _ _ ok) X) as (Kp & _). cbn [d_name] in Kp. assert (Kn : key name = key (d_name d)) by congruence. split; [exact Kn|].
  unfold fast_repository, answered, install_match in X. cbn [d_name] in X. rewrite Kn in X. rewrite pkey_request in X.
  assert (Q : str_eqb (key (d_name d)) reserved = false) by (apply str_eqb_neq; exact (o_reserved_deps _ _ _ _ ok d D)). rewrite Q in X. fold (site_dict pre) in X.
  destruct (dict_get (key (d_name d)) (site_dict pre)) as [i|] eqn:G; [exfalso; destruct (site_got _ _ _ G) as [Ii Ki]; exact (NI i Ii Ki)|].
  assert (M : str_mem (key (d_name d)) (unspecified_of deps) = true).
  { unfold str_mem. apply existsb_exists. exists (key (d_name d)). split; [|apply str_eqb_refl]. unfold unspecified_of. apply in_flat_map. exists d. split; [exact D|]. rewrite AA. left. reflexivity. }
  rewrite M in X. cbn [andb] in X. destruct (repo_match (Dep name AllowAll None None)) as [|p0 r] eqn:R; [destruct X|]. destruct (unspecified_limit (k_version (max_version p0 r))) as [limit|] eqn:U; [|destruct X]. cbn [bind] in X.
  apply filter_In in X. destruct X as [X A]. split; [exact X|]. intros q w Iq W. rewrite V in A. assert (L := max_above r p0 q Iq). rewrite W in L.
  destruct (k_version (max_version p0 r)) as [u pr sc|n|m] eqn:Mx.
  - cbn in U. injection U as <-. discriminate A.
  - cbn in U. injection U as <-. discriminate A.
  - exact (limit_newest m v w limit U A L).
Qed.

(** ** C158 *)
(** a package that is asked for by its name alone, of which the repository knows nothing: the planner fails with an error of its
    own instead of reporting that there is no solution *)
Theorem C158_unknown_refuted : exists repo_match site deps d, In d deps /\ repo_match d = [] /\
  install_match repo_match site (request_package deps) (unspecified_of deps) true d = Err ValueError.
Proof. exists (fun _ => []), [], [wants "typo"], (wants "typo"). split; [left; reflexivity|]. split; vm_compute; reflexivity. Qed.
Theorem C158_specified_partial : forall repo_match site deps d, repo_match d = [] -> key (d_name d) <> reserved -> (forall i, In i site -> skey i <> key (d_name d)) -> (forall e, In e deps -> key (d_name e) = key (d_name d) -> d_spec e <> AllowAll) ->
  install_match repo_match site (request_package deps) (unspecified_of deps) true d = Ok [].
Proof.
  intros repo_match site deps d R K NI S. unfold install_match. rewrite pkey_request. rewrite (proj2 (str_eqb_neq _ _) K). fold (site_dict site).
  destruct (dict_get (key (d_name d)) (site_dict site)) as [i|] eqn:G; [exfalso; destruct (site_got _ _ _ G) as [Ii Ki]; exact (NI i Ii Ki)|].
  destruct (str_mem (key (d_name d)) (unspecified_of deps)) eqn:M; [|cbn [andb]; rewrite R; reflexivity]. exfalso. unfold str_mem in M. apply existsb_exists in M. destruct M as (k & Ik & E). apply str_eqb_eq in E. subst k.
  unfold unspecified_of in Ik. apply in_flat_map in Ik. destruct Ik as (e & Ie & X). destruct (d_spec e) eqn:Se; try contradiction. destruct X as [X|[]]. exact (S e Ie X Se).
Qed.

(** ** C159 *)
(** an installed package of which only requirements on installed packages count *)
Definition as_installed (site : list installed) (i : installed) (p : package) : Prop :=
  k_name p = k_name (s_package i) /\ k_version p = k_version (s_package i) /\
  (k_requires p = None <-> k_requires (s_package i) = None) /\
  forall rs rs', k_requires p = Some rs -> k_requires (s_package i) = Some rs' -> forall d, In d rs <-> In d rs' /\ exists j, In j site /\ skey j = key (d_name d).
Lemma has_site : forall site k, NoDup (map skey site) -> (dict_has k (site_dict site) = true <-> exists j, In j site /\ skey j = k).
Proof.
  intros site k N. unfold dict_has. destruct (dict_get k (site_dict site)) as [i|] eqn:G.
  - split; [|reflexivity]. intros _. exists i. exact (site_got _ _ _ G).
  - split; [discriminate|]. intros (j & J & K). exfalso. exact (site_none _ _ G j J N K).
Qed.
Lemma removal_as_installed : forall site i, NoDup (map skey site) -> as_installed site i (removal_package site i).
Proof.
  intros site i N. unfold as_installed, removal_package. cbn [k_name k_version k_requires]. split; [reflexivity|]. split; [reflexivity|]. split.
  - destruct (k_requires (s_package i)); cbn; split; congruence.
  - intros rs rs' E1 E2 d. rewrite E2 in E1. cbn [option_map] in E1. injection E1 as <-. rewrite filter_In. fold (site_dict site). rewrite (has_site site _ N). reflexivity.
Qed.
(** what stays after a removal was installed before; the remaining requests and what they use is met, as far as it was installed *)
Theorem C159_kept_partial : forall as_uri env resolve site names l, ordinary (fun _ => []) site [] [] ->
  (forall i, In i site -> k_name (s_package i) <> request_name) ->
  reliable as_uri env (removal_match site (request_package (remaining site names))) [] l ->
  plan_removal resolve site names = Ok l ->
  (forall p, In p (after l) -> exists i, In i site /\ as_installed site i p) /\ healthy as_uri env [] (remaining site names) (after l).
Proof.
  intros as_uri env resolve site names l ok NN [O W] H. assert (S := o_site _ _ _ _ ok).
  assert (Of : forall p, In p l -> p = request_package (remaining site names) \/ exists i, In i site /\ p = removal_package site i).
  { intros p I. destruct (O p I) as (name & X). unfold removal_match in X. cbn [d_name] in X. destruct (str_eqb name (k_name (request_package (remaining site names)))).
    - destruct X as [<-|[]]. left. reflexivity.
    - fold (site_dict site) in X. destruct (dict_get (key name) (site_dict site)) as [i|] eqn:G; [|destruct X]. apply filter_In in X. destruct X as [[<-|[]] _]. right. exists i. split; [exact (proj1 (site_got _ _ _ G))|reflexivity]. }
  assert (Rm : forall d, In d (remaining site names) -> key (d_name d) <> reserved).
  { intros d I. unfold remaining in I. apply in_map_iff in I. destruct I as ((k & e) & <- & I). apply nodup_get in I; [|apply dict_of_nodup]. apply dict_of_get_in in I. apply in_flat_map in I. destruct I as (i & Ii & X).
    destruct (s_request i) as [e'|] eqn:R; [|destruct X]. destruct (str_mem (k_name (s_package i)) names); [destruct X|]. destruct X as [X|[]]. injection X as _ <-. exact (proj2 (proj2 (o_reserved_site _ _ _ _ ok i Ii)) e' R). }
  split.
  - intros p I. apply after_in in I. destruct I as [I K]. destruct (Of p I) as [->|(i & Ii & ->)]; [exfalso; apply K; apply pkey_request|]. exists i. split; [exact Ii|exact (removal_as_installed site i S)].
  - apply works_healthy; [| | |exact W|exact Rm].
    + intros p I K. destruct (Of p I) as [->|(i & Ii & ->)]; [reflexivity|]. exfalso. exact (proj1 (o_reserved_site _ _ _ _ ok i Ii) K).
    + intros p I. destruct (Of p I) as [->|(i & Ii & ->)].
      * intros rs d R J. injection R as <-. exact (Rm d J).
      * intros rs d R J. unfold removal_package in R. cbn [k_requires] in R. destruct (k_requires (s_package i)) as [rs'|] eqn:Q; [|discriminate]. cbn [option_map] in R. injection R as <-. apply filter_In in J. exact (proj1 (proj2 (o_reserved_site _ _ _ _ ok i Ii)) rs' d Q (proj1 J)).
    + intros k d [].
Qed.

(** ** C160 *)
(** the requirement that is written down for an installed version allows this version *)
Theorem C160_self : forall name v, exists d, generalized name v = Ok d /\ d_name d = name /\ allows (d_spec d) v = true.
Proof.
  intros name v. destruct v as [u pr sc|n|s]; unfold generalized.
  - eexists. split; [reflexivity|]. split; [reflexivity|]. exact (version_eqb_refl _).
  - eexists. split; [reflexivity|]. split; [reflexivity|]. exact (version_eqb_refl _).
  - set (next := SV _ _ _ _ _ _). assert (L : sv_ltb s next = true).
    { apply sv_ltb_release; [reflexivity|]. exists 0. split; [|intros j J; lia]. unfold rel_at. cbn [next release nth]. destruct (release s); cbn; lia. }
    unfold mk_range. cbn [is_none andb]. rewrite L. cbn [bind]. eexists. split; [reflexivity|]. split; [reflexivity|]. cbn [allows d_spec]. unfold range_allows. rewrite version_eqb_refl. reflexivity.
Qed.
Lemma segs_ltb_last : forall w, segs_ltb (segs w) [[]] = false.
Proof.
  intro w. destruct (segs w) as [|m r] eqn:E.
  - exfalso. unfold segs in E. destruct (local_label w); [exact (split_on_nonempty _ _ E)|discriminate].
  - cbn [segs_ltb]. destruct (str_eqb m []); [destruct r; reflexivity|]. unfold seg_ltb. change (all_digits []) with false. rewrite andb_false_r, orb_false_r. destruct (all_digits m); [reflexivity|]. destruct m; reflexivity.
Qed.
(** and no final version with another major number *)
Theorem C160_major_partial : forall name v d w, post_release v = None -> local_label v = None -> generalized name (VStd v) = Ok d -> allows (d_spec d) (VStd w) = true ->
  pre_release w = None -> dev_release w = None -> ep w = ep v /\ nth 0 (release w) 0%N = nth 0 (release v) 0%N.
Proof.
  intros name v d w PV LV G A PW DW. unfold generalized in G. set (next := SV _ _ _ _ _ _) in G. unfold mk_range in G. cbn [is_none andb] in G. destruct (sv_ltb v next) eqn:L; [|discriminate]. cbn [bind] in G. injection G as <-. cbn [d_spec allows] in A.
  unfold range_allows in A. cbn [version_eqb version_ltb andb orb] in A. rewrite orb_false_r in A. destruct (sv_eqb v w) eqn:E.
  - apply sv_eqb_spec in E. destruct E as [(E & R & _) _]. split; [symmetry; exact E|]. symmetry. exact (R 0).
  - rewrite PV in A. cbn [is_some negb andb] in A. destruct (is_post_release (VStd w)) eqn:Po; [discriminate|]. cbn [andb] in A. apply andb_true_iff in A. destruct A as [A1 A2].
    assert (B1 : ~ behind w v) by (intro X; apply behind_ltb in X; rewrite (sv_ltb_asym _ _ A1) in X; discriminate).
    assert (EN : ep next = ep v) by reflexivity.
    assert (RN : nth 0 (release next) 0%N = (nth 0 (release v) 0 + 1)%N) by (cbn [next release nth]; destruct (release v); reflexivity).
    assert (B2 : ~ behind next w) by (intro X; apply behind_ltb in X; rewrite (sv_ltb_asym _ _ A2) in X; discriminate).
    assert (B3 : ~ (ep w = ep v /\ nth 0 (release w) 0%N = nth 0 (release next) 0%N)).
    { intros [X Y]. assert (T : sv_ltb w next = false); [|congruence]. destruct (sv_ltb w next) eqn:T; [exfalso|reflexivity].
      rewrite sv_ltb_key in T. assert (Ew : (ep w =? ep next)%N = true) by (apply N.eqb_eq; congruence).
      destruct (rel_eqb (release w) (release next)) eqn:RE.
      - assert (Pn : none_last pre_ltb (pre_release w) (pre_release next) = false) by (rewrite PW; reflexivity).
        assert (Dn : none_last N.ltb (dev_release w) (dev_release next) = false) by (rewrite DW; reflexivity).
        assert (On : none_first N.ltb (post_release w) (post_release next) = false) by (cbn [next post_release]; rewrite PV; destruct (post_release w); reflexivity).
        assert (Sn : segs_ltb (segs w) (segs next) = false) by (unfold segs at 2; cbn [next local_label]; rewrite LV; exact (segs_ltb_last w)).
        destruct (pub_eqb w next); [congruence|]. unfold pub_ltb, lex_ltb, pub_key in T. cbn [fst snd] in T. rewrite Ew, RE, Pn, Dn, On in T.
        destruct (opt_eqb N.eqb (dev_release w) (dev_release next)); [|discriminate]. destruct (opt_eqb pre_eqb (pre_release w) (pre_release next)); discriminate.
      - assert (PE : pub_eqb w next = false) by (unfold pub_eqb, lex_eqb, pub_key; cbn [fst snd]; rewrite RE, andb_false_l, andb_false_r; reflexivity). rewrite PE in T.
        unfold pub_ltb, lex_ltb, pub_key in T. cbn [fst snd] in T. rewrite Ew, RE in T. apply rel_ltb_nth in T. destruct T as (j & J & P). destruct j as [|j]; [rewrite Y in J; lia|].
        cbn [next release nth] in J. destruct j; lia. }
    unfold behind in B1, B2. rewrite EN, RN in B2. rewrite RN in B3. lia.
Qed.
(** not so for post releases and local versions *)
Theorem C160_post_refuted : exists d, generalized (lit "x") (VStd (SV [1%N; 2%N] None None (Some 1%N) None None)) = Ok d /\ allows (d_spec d) (final [2%N; 0%N]) = true.
Proof. eexists. split; [vm_compute; reflexivity|vm_compute; reflexivity]. Qed.
Theorem C160_local_refuted : exists d, generalized (lit "torch") (VStd (SV [1%N; 2%N] None None None None (Some (lit "cu118")))) = Ok d /\ allows (d_spec d) (final [2%N; 0%N]) = true.
Proof. eexists. split; [vm_compute; reflexivity|vm_compute; reflexivity]. Qed.
Example C160_sample : exists d, generalized (lit "x") (final [1%N; 2%N]) = Ok d /\ allows (d_spec d) (final [1%N; 9%N]) = true /\ allows (d_spec d) (final [2%N]) = false /\ allows (d_spec d) (final [1%N; 1%N]) = false.
Proof. eexists. split; [vm_compute; reflexivity|]. split; [vm_compute; reflexivity|]. split; vm_compute; reflexivity. Qed.

(** ** C161 *)
(** packages whose keys are given are not held at what is installed *)
Theorem C161_keys_partial : forall repo_match site deps updates d, In (key (d_name d)) updates -> key (d_name d) <> reserved -> (forall e, In e deps -> key (d_name e) = key (d_name d) -> d_spec e <> AllowAll) ->
  fast_repository repo_match (preinstalled site updates) deps d = repo_match d.
Proof.
  intros repo_match site deps updates d U K S. unfold fast_repository, answered, install_match. rewrite pkey_request. rewrite (proj2 (str_eqb_neq _ _) K). fold (site_dict (preinstalled site updates)).
  destruct (dict_get (key (d_name d)) (site_dict (preinstalled site updates))) as [i|] eqn:G.
  - exfalso. destruct (site_got _ _ _ G) as [Ii Ki]. unfold preinstalled in Ii. apply filter_In in Ii. destruct Ii as [_ Ii]. apply negb_true_iff in Ii. assert (T : str_mem (skey i) updates = true); [|congruence]. unfold str_mem. apply existsb_exists. exists (skey i). split; [rewrite Ki; exact U|apply str_eqb_refl].
  - destruct (str_mem (key (d_name d)) (unspecified_of deps)) eqn:M; [exfalso|reflexivity]. unfold str_mem in M. apply existsb_exists in M. destruct M as (k & Ik & E). apply str_eqb_eq in E. subst k.
    unfold unspecified_of in Ik. apply in_flat_map in Ik. destruct Ik as (e & Ie & X). destruct (d_spec e) eqn:Se; try contradiction. destruct X as [X|[]]. exact (S e Ie X Se).
Qed.

(** ** Samples and what does not hold *)
(** a repository with some packages, and the resolver of ResolveModel on it *)
Definition pk (name : string) (v : N) (ds : list string) : package := Package (lit name) (final [v]) true (Some (map wants ds)).
Definition shop : list package := [pk "a" 1 ["x<2"]; pk "b" 1 []; pk "pkm-cli" 2 []; pk "pkm-cli" 1 []; pk "x" 3 []; pk "x" 2 []; pk "x" 1 []; pk "y" 1 ["x>=2"]].
Definition shop_match (d : dep) : list package := filter (fun p => str_eqb (pkey p) (key (d_name d)) && allows (d_spec d) (k_version p)) shop.
Definition planner (repository : dep -> list package) (overrides : list (str * dep)) (root : dep) : res (list package) :=
  resolve (fun x => x) [] repository overrides [RPkg (lit "a") None; RPkg (lit "b") None; RPkg (lit "installation-request") None; RPkg (lit "pkm-cli") None; RPkg (lit "x") None; RPkg (lit "y") None] (fun _ => 0) 100 root.
Definition contents (l : list package) : list (str * version) := map (fun p => (k_name p, k_version p)) (after l).
Definition is_in (name : string) (v : N) (l : list package) : Prop := exists p, In p (after l) /\ k_name p = lit name /\ k_version p = final [v].
Lemma covered_works : forall as_uri env overrides root l, (exists p, In p l /\ named p root) -> (forall p rs d, In p l -> k_requires p = Some rs -> In d rs -> met overrides l d) -> works as_uri env overrides root l.
Proof. intros as_uri env overrides root l R C. split; [exact R|]. intros p extras rs d N Q I _. exact (C p rs d (needed_in _ _ _ _ _ _ _ N) Q I). Qed.
Lemma covered_healthy : forall as_uri env overrides ds l, (forall d, In d ds -> met overrides l d) -> (forall p rs d, In p l -> k_requires p = Some rs -> In d rs -> met overrides l d) -> healthy as_uri env overrides ds l.
Proof. intros as_uri env overrides ds l D C. split; [intros d I _; exact (D d I)|]. intros p extras rs d U Q I _. exact (C p rs d (used_in _ _ _ _ _ _ _ U) Q I). Qed.
Definition met_b overrides (l : list package) (d : dep) : bool :=
  existsb (fun q => str_eqb (in_descriptor (lower (k_name q))) (in_descriptor (lower (d_name (effective overrides d)))) && allows (d_spec (effective overrides d)) (k_version q)) l.
Lemma met_by_b : forall overrides l d, met_b overrides l d = true -> met overrides l d.
Proof. intros overrides l d H. apply existsb_exists in H. destruct H as (q & I & E). apply andb_true_iff in E. destruct E as [E A]. exists q. split; [exact I|]. split; [apply str_eqb_eq; exact E|exact A]. Qed.
Definition covered_b overrides (l : list package) : bool := forallb (fun p => forallb (met_b overrides l) (match k_requires p with Some rs => rs | None => [] end)) l.
Lemma covered_by_b : forall overrides l, covered_b overrides l = true -> forall p rs d, In p l -> k_requires p = Some rs -> In d rs -> met overrides l d.
Proof.
  intros overrides l H p rs d I R D. unfold covered_b in H. rewrite forallb_forall in H. specialize (H p I). rewrite R in H. rewrite forallb_forall in H. apply met_by_b. exact (H d D).
Qed.
Definition root_b (l : list package) : bool := existsb (fun p => str_eqb (in_descriptor (lower (k_name p))) (in_descriptor (lower (d_name request_dependency)))) l.
Lemma planner_reliable : forall repository overrides l, planner repository overrides request_dependency = Ok l -> root_b l && covered_b overrides l = true -> reliable (fun x => x) [] repository overrides l.
Proof.
  intros repository overrides l H C. apply andb_true_iff in C. destruct C as [R C]. apply (resolver_reliable _ _ _ _ _ _ _ _ H). apply covered_works; [|exact (covered_by_b _ _ C)].
  apply existsb_exists in R. destruct R as (p & I & E). exists p. split; [exact I|apply str_eqb_eq; exact E].
Qed.
Definition checked (r : res (list package)) (overrides : list (str * dep)) : bool := match r with Ok l => root_b l && covered_b overrides l | Err _ => true end.
Lemma planner_checked : forall repository overrides, checked (planner repository overrides request_dependency) overrides = true ->
  forall l, planner repository overrides request_dependency = Ok l -> reliable (fun x => x) [] repository overrides l.
Proof. intros repository overrides C l H. rewrite H in C. exact (planner_reliable _ _ _ H C). Qed.
Definition clean_b (ds : list dep) : bool := forallb (fun d => negb (str_eqb (key (d_name d)) reserved)) ds.
Lemma clean_by_b : forall ds, clean_b ds = true -> forall d, In d ds -> key (d_name d) <> reserved.
Proof. intros ds H d I. unfold clean_b in H. rewrite forallb_forall in H. specialize (H d I). apply negb_true_iff in H. apply str_eqb_neq. exact H. Qed.
Definition listed_requires (p : package) : list dep := match k_requires p with Some rs => rs | None => [] end.
Lemma clean_requires : forall p, clean_b (listed_requires p) = true -> unreserved_requires p.
Proof. intros p H rs d R I. unfold listed_requires in H. rewrite R in H. exact (clean_by_b rs H d I). Qed.
Lemma shop_ordinary : forall site deps overrides, NoDup (map skey site) ->
  forallb (fun i => negb (str_eqb (skey i) reserved) && clean_b (listed_requires (s_package i)) && clean_b (match s_request i with Some d => [d] | None => [] end)) site = true ->
  clean_b deps = true -> clean_b (map snd overrides) = true -> ordinary shop_match site deps overrides.
Proof.
  intros site deps overrides N S D O. split.
  - intros d p I. apply filter_In in I. destruct I as [_ I]. apply andb_true_iff in I. apply str_eqb_eq. apply I.
  - exact N.
  - intros i I. rewrite forallb_forall in S. specialize (S i I). rewrite !andb_true_iff in S. destruct S as [[A B] C]. split; [apply str_eqb_neq, negb_true_iff; exact A|]. split; [exact (clean_requires _ B)|].
    intros d R. rewrite R in C. exact (clean_by_b _ C d (or_introl eq_refl)).
  - intros d p I. apply filter_In in I. destruct I as [I _]. apply clean_requires. unfold shop in I. cbn [In] in I. repeat (destruct I as [<-|I]; [vm_compute; reflexivity|]). destruct I.
  - exact (clean_by_b deps D).
  - intros k d I. apply (clean_by_b _ O). apply in_map_iff. exists (k, d). auto.
Qed.
Ltac no_dup := repeat (constructor; [cbn; intuition discriminate|]); constructor.

(** a is installed next to b and an old x, which is kept because a needs it *)
Definition sample_site : list installed := [Installed (pk "x" 1 []) None; Installed (pk "b" 1 []) (Some (wants "b"))].
Example C152_sample : exists pl l, ordinary shop_match sample_site [wants "a"] [] /\ plan_installation planner shop_match sample_site [wants "a"] true [] [] = Ok pl /\
  planner (fast_repository shop_match sample_site [wants "a"]) [] request_dependency = Ok l /\ reliable (fun x => x) [] (fast_repository shop_match sample_site [wants "a"]) [] l /\
  contents (l_packages pl) = [(lit "a", final [1%N]); (lit "x", final [1%N]); (lit "b", final [1%N])].
Proof.
  eexists. eexists. split; [apply shop_ordinary; [vm_compute; no_dup|vm_compute; reflexivity..]|]. split; [vm_compute; reflexivity|]. split; [vm_compute; reflexivity|]. split; [|vm_compute; reflexivity].
  apply planner_checked; vm_compute; reflexivity.
Qed.
(** otherwise packages that nobody requested and nobody needs are removed *)
Theorem C152_removed_refuted : exists pl, plan_installation planner shop_match [Installed (pk "x" 1 []) (Some (wants "x")); Installed (pk "b" 1 []) None] [wants "y"] true [] [] = Ok pl /\
  ~ is_in "b" 1 (l_packages pl) /\ contents (l_packages pl) = [(lit "y", final [1%N]); (lit "x", final [3%N])].
Proof.
  eexists. split; [vm_compute; reflexivity|]. split; [|vm_compute; reflexivity].
  intros (p & I & N & _). of_list I; discriminate N.
Qed.
Example C153_sample : exists pl, ordinary shop_match sample_site [wants "a"] [] /\ distinct_names [wants "a"] /\
  (forall l, planner (fast_repository shop_match sample_site [wants "a"]) [] request_dependency = Ok l -> reliable (fun x => x) [] (fast_repository shop_match sample_site [wants "a"]) [] l) /\
  (forall l, planner (slow_repository shop_match sample_site [wants "a"]) [] request_dependency = Ok l -> reliable (fun x => x) [] (slow_repository shop_match sample_site [wants "a"]) [] l) /\
  healthy (fun x => x) [] [] (requests sample_site) (map s_package sample_site) /\ plan_installation planner shop_match sample_site [wants "a"] true [] [] = Ok pl.
Proof.
  eexists. split; [apply shop_ordinary; [vm_compute; no_dup|vm_compute; reflexivity..]|]. split; [vm_compute; no_dup|]. split; [apply planner_checked; vm_compute; reflexivity|]. split; [apply planner_checked; vm_compute; reflexivity|].
  split; [|vm_compute; reflexivity]. apply covered_healthy; [|apply covered_by_b; vm_compute; reflexivity]. intros d I. apply met_by_b. of_list I. vm_compute. reflexivity.
Qed.
(** a sample where the packages have to change: y needs a newer x than the installed one *)
Definition old_x : list installed := [Installed (pk "x" 1 []) (Some (wants "x"))].
Example C153_slow_sample : exists pl, ordinary shop_match old_x [wants "y"] [] /\ distinct_names [wants "y"] /\
  planner (fast_repository shop_match old_x [wants "y"]) [] request_dependency = Err UnsatError /\
  (forall l, planner (slow_repository shop_match old_x [wants "y"]) [] request_dependency = Ok l -> reliable (fun x => x) [] (slow_repository shop_match old_x [wants "y"]) [] l) /\
  healthy (fun x => x) [] [] (requests old_x) (map s_package old_x) /\ plan_installation planner shop_match old_x [wants "y"] true [] [] = Ok pl /\
  contents (l_packages pl) = [(lit "y", final [1%N]); (lit "x", final [3%N])].
Proof.
  eexists. split; [apply shop_ordinary; [vm_compute; no_dup|vm_compute; reflexivity..]|]. split; [vm_compute; no_dup|]. split; [vm_compute; reflexivity|]. split; [apply planner_checked; vm_compute; reflexivity|].
  split; [|split; vm_compute; reflexivity]. apply covered_healthy; [|apply covered_by_b; vm_compute; reflexivity]. intros d I. apply met_by_b. of_list I. vm_compute. reflexivity.
Qed.
(** an update of one package can break another requested one: a needs x<2 *)
Theorem C153_updates_refuted : exists site pl, healthy (fun x => x) [] [] (requests site) (map s_package site) /\
  plan_installation planner shop_match site [wants "x"] true [] [lit "x"] = Ok pl /\ is_in "a" 1 (l_packages pl) /\ is_in "x" 3 (l_packages pl) /\ ~ is_in "x" 1 (l_packages pl) /\
  ~ met [] (after (l_packages pl)) (wants "x<2").
Proof.
  exists [Installed (pk "a" 1 ["x<2"]) (Some (wants "a")); Installed (pk "x" 1 []) None]. eexists. split; [apply covered_healthy; [intros d I; apply met_by_b; of_list I; vm_compute; reflexivity|apply covered_by_b; vm_compute; reflexivity]|].
  split; [vm_compute; reflexivity|]. split; [eexists; split; [vm_compute; right; left; reflexivity|split; reflexivity]|]. split; [eexists; split; [vm_compute; left; reflexivity|split; reflexivity]|].
  split; [intros (p & I & N & V); of_list I; [discriminate V|discriminate N]|]. intros (q & I & N & A). of_list I; [vm_compute in A; discriminate|vm_compute in N; discriminate].
Qed.

Example C154_sample : exists pl, ordinary shop_match old_x [wants "y"; wants "pkm-cli<2"] [] /\ distinct_names [wants "y"; wants "pkm-cli<2"] /\
  plan_installation planner shop_match old_x [wants "y"; wants "pkm-cli<2"] true [] [] = Ok pl /\ is_applicable_for (fun x => x) (wants "pkm-cli<2") [] [] = Ok true.
Proof. eexists. split; [apply shop_ordinary; [vm_compute; no_dup|vm_compute; reflexivity..]|]. split; [vm_compute; no_dup|]. split; vm_compute; reflexivity. Qed.
Example C153_prefers_sample : exists i, In i old_x /\ NoDup (map skey old_x) /\ key (d_name (wants "x")) = skey i /\ skey i <> reserved /\ 1 < length (shop_match (wants "x")) /\
  option_map k_version (hd_error (slow_repository shop_match old_x [wants "y"] (wants "x"))) = Some (k_version (s_package i)) /\
  option_map k_version (hd_error (shop_match (wants "x"))) <> Some (k_version (s_package i)).
Proof. eexists. split; [left; reflexivity|]. split; [vm_compute; no_dup|]. split; [vm_compute; reflexivity|]. split; [vm_compute; discriminate|]. split; [vm_compute; repeat constructor|]. split; [vm_compute; reflexivity|]. vm_compute. discriminate. Qed.
Example C154_recorded_sample : exists pl, NoDup (map skey old_x) /\ plan_installation planner shop_match old_x [wants "y"] false [] [] = Ok pl /\ length (l_requests pl) = 1.
Proof. eexists. split; [vm_compute; no_dup|]. split; vm_compute; reflexivity. Qed.
(** only the last of several requests for a package counts *)
Theorem C154_twice_refuted : exists pl, plan_installation planner shop_match [] [wants "x<2"; wants "x>=1"] true [] [] = Ok pl /\ is_in "x" 3 (l_packages pl) /\ ~ met [] (after (l_packages pl)) (wants "x<2").
Proof.
  eexists. split; [vm_compute; reflexivity|]. split; [eexists; split; [vm_compute; left; reflexivity|split; reflexivity]|]. intros (q & I & N & A). of_list I. vm_compute in A. discriminate.
Qed.
(** a package with the name that pkm uses for the request itself is not installed, without an error *)
Theorem C154_reserved_refuted : forall repo_match, (forall d, repo_match d = [pk "installation-request" 1 []]) -> exists pl, plan_installation planner repo_match [] [wants "installation-request"] true [] [] = Ok pl /\ after (l_packages pl) = [].
Proof. intros repo_match R. eexists. split; [vm_compute; reflexivity|vm_compute; reflexivity]. Qed.

Example C155_sample : exists pl l, ordinary shop_match [] [wants "y"] [(lit "x", wants "x==2")] /\ distinct_names [wants "y"] /\ plan_installation planner shop_match [] [wants "y"] true [(lit "x", wants "x==2")] [] = Ok pl /\
  planner (fast_repository shop_match [] [wants "y"]) [(lit "x", wants "x==2")] request_dependency = Ok l /\ reliable (fun x => x) [] (fast_repository shop_match [] [wants "y"]) [(lit "x", wants "x==2")] l /\
  contents (l_packages pl) = [(lit "y", final [1%N]); (lit "x", final [2%N])].
Proof.
  eexists. eexists. split; [apply shop_ordinary; [vm_compute; no_dup|vm_compute; reflexivity..]|]. split; [vm_compute; no_dup|]. split; [vm_compute; reflexivity|]. split; [vm_compute; reflexivity|]. split; [|vm_compute; reflexivity]. apply planner_checked; vm_compute; reflexivity.
Qed.
(** when installed packages have to change, the overrides are forgotten: with an old x in the environment the same request leads to another version *)
Theorem C155_forgotten_refuted : exists pl, plan_installation planner shop_match old_x [wants "y"] true [(lit "x", wants "x==2")] [] = Ok pl /\ is_in "x" 3 (l_packages pl) /\ ~ is_in "x" 2 (l_packages pl).
Proof.
  eexists. split; [vm_compute; reflexivity|]. split; [eexists; split; [vm_compute; right; left; reflexivity|split; reflexivity]|]. intros (p & I & N & V). of_list I; [discriminate N|discriminate V].
Qed.

(** a requested package that is to be updated but is not among the new requests disappears, with its request *)
Theorem C156_vanishes_refuted : exists pl, plan_installation planner shop_match old_x [wants "b"] true [] [lit "x"] = Ok pl /\ contents (l_packages pl) = [(lit "b", final [1%N])] /\ dict_get (lit "x") (l_requests pl) = None.
Proof. eexists. split; [vm_compute; reflexivity|]. split; vm_compute; reflexivity. Qed.
Example C156_sample : exists pl, plan_installation planner shop_match old_x [wants "x"] true [] [lit "x"] = Ok pl /\ contents (l_packages pl) = [(lit "x", final [3%N])].
Proof. eexists. split; vm_compute; reflexivity. Qed.

Example C157_sample : exists l p v, ordinary shop_match [] [wants "x"] [] /\ reliable (fun x => x) [] (fast_repository shop_match [] [wants "x"]) [] l /\ d_spec (wants "x") = AllowAll /\
  In p l /\ pkey p = key (d_name (wants "x")) /\ k_version p = VStd v /\ release v = [3%N].
Proof.
  destruct (planner (fast_repository shop_match [] [wants "x"]) [] request_dependency) as [l|] eqn:E; [|vm_compute in E; discriminate]. exists l, (pk "x" 3 []), (SV [3%N] None None None None None).
  split; [apply shop_ordinary; [vm_compute; no_dup|vm_compute; reflexivity..]|]. split; [revert E; apply planner_checked; vm_compute; reflexivity|]. split; [vm_compute; reflexivity|].
  split; [vm_compute in E; injection E as <-; vm_compute; right; left; reflexivity|]. split; [vm_compute; reflexivity|]. split; reflexivity.
Qed.
Example C158_sample : shop_match (wants "typo>=1") = [] /\ install_match shop_match [] (request_package [wants "typo>=1"]) (unspecified_of [wants "typo>=1"]) true (wants "typo>=1") = Ok [].
Proof. split; vm_compute; reflexivity. Qed.

(** nothing can be removed from an environment in which a requested package misses its version of another one, or does not
    support this python *)
Theorem C159_broken_refuted :
  plan_removal planner [Installed (pk "a" 1 ["x<2"]) (Some (wants "a")); Installed (pk "x" 3 []) None; Installed (pk "b" 1 []) (Some (wants "b"))] [lit "b"] = Err UnsatError /\
  plan_removal planner [Installed (Package (lit "a") (final [1%N]) false (Some [])) (Some (wants "a")); Installed (pk "b" 1 []) (Some (wants "b"))] [lit "b"] = Err UnsatError.
Proof. split; vm_compute; reflexivity. Qed.
Definition full_site : list installed := [Installed (pk "a" 1 ["x<2"]) (Some (wants "a")); Installed (pk "x" 1 []) None; Installed (pk "b" 1 []) (Some (wants "b"))].
Example C159_sample : exists l, ordinary (fun _ => []) full_site [] [] /\ (forall i, In i full_site -> k_name (s_package i) <> request_name) /\
  reliable (fun x => x) [] (removal_match full_site (request_package (remaining full_site [lit "b"]))) [] l /\ plan_removal planner full_site [lit "b"] = Ok l /\ contents l = [(lit "a", final [1%N]); (lit "x", final [1%N])].
Proof.
  destruct (plan_removal planner full_site [lit "b"]) as [l|] eqn:E; [|vm_compute in E; discriminate]. exists l. split.
  { destruct (shop_ordinary full_site [] []) as [K S RS RR RD RO]; [vm_compute; no_dup|vm_compute; reflexivity..|]. split; auto; intros d p []. }
  split; [intros i I; of_list I; discriminate|]. split; [revert E; apply planner_checked; vm_compute; reflexivity|]. split; [reflexivity|]. vm_compute in E. injection E as <-. vm_compute. reflexivity.
Qed.

(** pkm updates itself with the name pkm-cli, whose key is pkm_cli: it stays as it is *)
Definition old_pkm : list installed := [Installed (pk "pkm-cli" 1 []) (Some (wants "pkm-cli"))].
Theorem C161_self_update_refuted : exists pl pl', plan_installation planner shop_match old_pkm [wants "pkm-cli"] true [] [lit "pkm-cli"] = Ok pl /\ contents (l_packages pl) = [(lit "pkm-cli", final [1%N])] /\
  plan_installation planner shop_match old_pkm [wants "pkm-cli"] true [] [lit "pkm_cli"] = Ok pl' /\ contents (l_packages pl') = [(lit "pkm-cli", final [2%N])].
Proof. eexists. eexists. split; [vm_compute; reflexivity|]. split; [vm_compute; reflexivity|]. split; vm_compute; reflexivity. Qed.
Example C161_sample : In (key (d_name (wants "pkm-cli>=1"))) [lit "pkm_cli"] /\ fast_repository shop_match (preinstalled old_pkm [lit "pkm_cli"]) [wants "pkm-cli>=1"] (wants "pkm-cli>=1") = [pk "pkm-cli" 2 []; pk "pkm-cli" 1 []].
Proof. split; [left; vm_compute; reflexivity|vm_compute; reflexivity]. Qed.
Print Assumptions C152_stay_partial. Print Assumptions C152_removed_refuted. Print Assumptions C153_healthy_partial. Print Assumptions C153_updates_refuted.
Print Assumptions C153_prefers. Print Assumptions C154_asked_partial. Print Assumptions C154_recorded. Print Assumptions C154_twice_refuted. Print Assumptions C154_reserved_refuted. Print Assumptions C155_added_partial. Print Assumptions C155_forgotten_refuted.
Print Assumptions C156_asked_partial. Print Assumptions C156_vanishes_refuted. Print Assumptions C157_newest_partial. Print Assumptions C158_unknown_refuted. Print Assumptions C158_specified_partial.
Print Assumptions C159_kept_partial. Print Assumptions C159_broken_refuted. Print Assumptions C160_self. Print Assumptions C160_major_partial. Print Assumptions C160_post_refuted. Print Assumptions C160_local_refuted.
Print Assumptions C161_keys_partial. Print Assumptions C161_self_update_refuted.
