(** C106: the packages of a resolution work together.  C107: one version of each package.  C108: pre-releases that are asked for.
    C109: packages of a local repository. *)
From Coq Require Import String Ascii List Bool NArith Arith Lia.
From Verif Require Import Base BaseFacts NamesModel VersionModel VersionProofs SpecifierModel MarkerModel DependencyModel PubgrubModel PubgrubLaws ResolveModel ResolveProofs.
Import ListNotations.
Open Scope string_scope.
Open Scope nat_scope.
Open Scope list_scope.
Open Scope bool_scope.

(** ** C106 *)
(** the dependency that counts: an override replaces all dependencies on its package *)
Definition effective (overrides : list (str * dep)) (d : dep) : dep := match dict_get (d_name d) overrides with Some o => o | None => d end.
(** [q] is a package of the name that [d] asks for *)
Definition named (q : package) (d : dep) : Prop := in_descriptor (lower (k_name q)) = in_descriptor (lower (d_name d)).
Definition requested (d : dep) : list str := match d_extras d with Some l => l | None => [] end.
(** the packages in [l] that are needed, with the extras for which they are needed *)
Inductive needed as_uri env overrides (root : dep) (l : list package) : package -> list str -> Prop :=
| needed_root : forall p, In p l -> named p root -> needed as_uri env overrides root l p (requested root)
| needed_plain : forall p extras, needed as_uri env overrides root l p extras -> needed as_uri env overrides root l p []
| needed_for : forall p extras ds d q, needed as_uri env overrides root l p extras -> k_requires p = Some ds -> In d ds ->
    is_applicable_for as_uri d env extras = Ok true -> In q l -> named q (effective overrides d) ->
    needed as_uri env overrides root l q (requested (effective overrides d)).
(** everything that a needed package requires is there, in a version that is allowed *)
Definition works as_uri env overrides (root : dep) (l : list package) : Prop :=
  (exists p, In p l /\ named p root) /\
  forall p extras ds d, needed as_uri env overrides root l p extras -> k_requires p = Some ds -> In d ds ->
    is_applicable_for as_uri d env extras = Ok true ->
    exists q, In q l /\ named q (effective overrides d) /\ allows (d_spec (effective overrides d)) (k_version q) = true.
(** the packages that come up: no version has a local label, extras that are given are not empty *)
Definition plain_versions repo_match (universe : list rpkg) : Prop := forall g p, In g universe -> In p (listed repo_match g) -> is_local (k_version p) = false.
Definition proper_extras (universe : list rpkg) : Prop := forall g, In g universe -> g_extras g <> Some [].

Lemma applicable_in : forall as_uri env extras ds l d, applicable as_uri env extras ds = Some l -> In d ds -> is_applicable_for as_uri d env extras = Ok true -> In d l.
Proof.
  intros as_uri env extras ds. induction ds as [|x ds IH]; intros l d H I A; [destruct I|]. cbn in H.
  destruct (is_applicable_for as_uri x env extras) as [[|]|] eqn:E; try discriminate; destruct (applicable as_uri env extras ds) as [r|] eqn:R; try discriminate; injection H as <-.
  - destruct I as [->|I]; [left; reflexivity|right; exact (IH r d eq_refl I A)].
  - destruct I as [->|I]; [congruence|exact (IH r d eq_refl I A)].
Qed.
Lemma without_local_id : forall v, is_local v = false -> without_local v = v.
Proof. intros [u p s|n|[r e pr po dv [l|]]] H; cbn in *; try reflexivity; discriminate. Qed.

Section C106.
  Variable as_uri : str -> str.
  Variable env : list (str * str).
  Variable repo_match : dep -> list package.
  Variable overrides : list (str * dep).
  Variable universe : list rpkg.
  Variable root : dep.
  Variable ds : list (pkg * spec).
  Hypothesis names : well_named repo_match universe.
  Hypothesis spelling : one_spelling universe.
  Hypothesis all_in : closed as_uri env repo_match overrides universe.
  Hypothesis once : NoDup universe.
  Hypothesis plain_v : plain_versions repo_match universe.
  Hypothesis proper : proper_extras universe.
  Hypothesis root_in : In (pkg_of root) universe.
  Hypothesis solution : is_solution real_ops (solver_problem as_uri env repo_match overrides universe) (code universe (pkg_of root)) ds.
  Notation chosen := (chosen repo_match universe ds).
  Lemma same_rpkg : forall g h, In g universe -> In h universe -> g_name g = g_name h -> has_extras g = false -> has_extras h = false -> g = h.
  Proof.
    intros [n e] [m f] G H E X Y. cbn in E. subst. apply proper in G, H. cbn in *. destruct e as [[|? ?]|], f as [[|? ?]|]; try reflexivity; try discriminate; congruence.
  Qed.
  (** a package with extras comes with the same package without *)
  Lemma chosen_base : forall g p, chosen g p -> exists h, chosen h p /\ g_name h = g_name g /\ has_extras h = false.
  Proof.
    intros g p C. destruct (has_extras g) eqn:X; [|exists g; auto]. destruct (chosen_needs as_uri env repo_match overrides universe all_in once (pkg_of root) ds solution g p C) as (ts & T & N).
    unfold terms_of in T. destruct (k_requires p) as [rs|]; [|discriminate]. destruct (applicable as_uri env (extras_of g) rs) as [l|]; [|discriminate]. rewrite X in T. injection T as <-.
    destruct (N _ (or_introl eq_refl)) as (q & Cq & A). cbn [fst snd] in *. exists (RPkg (g_name g) None). split; [|split; reflexivity].
    replace p with q; [exact Cq|]. destruct Cq as (Q1 & Q2 & _). destruct C as (G & P & _). apply (distinct_eq (listed repo_match g)); [apply listed_distinct| |exact P|].
    - rewrite <- (listed_name repo_match (RPkg (g_name g) None) g eq_refl). exact Q2.
    - cbn [allows match_allows] in A. unfold match_allows in A. rewrite (plain_v g p G P) in A. rewrite (without_local_id (k_version q)) in A by (apply (plain_v _ q Q1 Q2)). rewrite version_eqb_sym. exact A.
  Qed.
  Lemma name_of : forall g p d, chosen g p -> named p d -> In (pkg_of d) universe -> g_name g = g_name (pkg_of d).
  Proof. intros g p d (G & P & _) N D. apply spelling; [exact G|exact D|]. rewrite <- (names g p G P). exact N. Qed.
  Section Packages.
    Variable l : list package.
    Hypothesis result : forall p, In p l <-> exists g, chosen g p /\ has_extras g = false.
    (** a package of the list with the right name is the one that was chosen, also for the extras *)
    Lemma the_one : forall d q q', In (pkg_of d) universe -> chosen (pkg_of d) q' -> In q l -> named q d -> q = q'.
    Proof.
      intros d q q' D C I N. apply result in I. destruct I as (g & Cg & X). destruct (chosen_base _ _ C) as (h & Ch & E & Y).
      assert (g = h). { apply same_rpkg; [apply Cg|apply Ch|rewrite E; exact (name_of g q d Cg N D)|exact X|exact Y]. } subst h.
      exact (chosen_once as_uri env repo_match overrides universe (pkg_of root) ds solution g q q' Cg Ch).
    Qed.
    Lemma in_result : forall g p, chosen g p -> In p l.
    Proof. intros g p C. apply result. destruct (chosen_base g p C) as (h & Ch & _ & X). eauto. Qed.
    Lemma met : forall g p rs d, chosen g p -> k_requires p = Some rs -> In d rs -> is_applicable_for as_uri d env (extras_of g) = Ok true ->
      exists q, chosen (pkg_of (effective overrides d)) q /\ allows (d_spec (effective overrides d)) (k_version q) = true.
    Proof.
      intros g p rs d C R I A. destruct (chosen_needs as_uri env repo_match overrides universe all_in once (pkg_of root) ds solution g p C) as (ts & T & N).
      unfold terms_of in T. rewrite R in T. destruct (applicable as_uri env (extras_of g) rs) as [ap|] eqn:E; [|discriminate]. injection T as <-.
      destruct (N (term_of overrides d)) as (q & Cq & Al).
      - apply in_or_app. right. apply in_map. exact (applicable_in _ _ _ _ _ _ E I A).
      - exists q. unfold term_of in Cq, Al. unfold effective. destruct (dict_get (d_name d) overrides); cbn [fst snd] in *; auto.
    Qed.
    Lemma needed_chosen : forall p extras, needed as_uri env overrides root l p extras -> exists g, chosen g p /\ extras_of g = extras.
    Proof.
      intros p extras H. induction H as [p I N|p extras H (g & C & E)|p extras rs d q H (g & C & E) R I A Iq Nq].
      - destruct (chosen_root as_uri env repo_match overrides universe once (pkg_of root) ds root_in solution) as (q & Cq). rewrite (the_one root p q root_in Cq I N). exists (pkg_of root). split; [exact Cq|reflexivity].
      - destruct (chosen_base g p C) as (h & Ch & _ & X). exists h. split; [exact Ch|]. unfold has_extras, extras_of in *. destruct (g_extras h) as [[|? ?]|]; try discriminate; reflexivity.
      - subst extras. destruct (met g p rs d C R I A) as (q' & C' & Al). exists (pkg_of (effective overrides d)). split; [|reflexivity].
        rewrite (the_one (effective overrides d) q q'); [exact C'|apply C'|exact C'|exact Iq|exact Nq].
    Qed.
    Lemma chosen_named : forall d q, chosen (pkg_of d) q -> named q d.
    Proof. intros d q (G & Q & _). exact (names _ _ G Q). Qed.
    Lemma list_works : works as_uri env overrides root l.
    Proof.
      split.
      - destruct (chosen_root as_uri env repo_match overrides universe once (pkg_of root) ds root_in solution) as (q & Cq). exists q. split; [exact (in_result _ _ Cq)|exact (chosen_named root q Cq)].
      - intros p extras rs d H R I A. destruct (needed_chosen p extras H) as (g & C & <-). destruct (met g p rs d C R I A) as (q & Cq & Al). exists q. split; [exact (in_result _ _ Cq)|]. split; [exact (chosen_named _ q Cq)|exact Al].
    Qed.
    Lemma list_once : forall p q, In p l -> In q l -> in_descriptor (lower (k_name p)) = in_descriptor (lower (k_name q)) -> p = q.
    Proof.
      intros p q Ip Iq E. apply result in Ip, Iq. destruct Ip as (g & C & X), Iq as (h & D & Y). assert (g = h).
      { apply same_rpkg; [apply C|apply D| |exact X|exact Y]. apply spelling; [apply C|apply D|]. rewrite <- (names g p), <- (names h q); [exact E|apply D|apply D|apply C|apply C]. }
      subst h. exact (chosen_once as_uri env repo_match overrides universe (pkg_of root) ds solution g p q C D).
    Qed.
  End Packages.
End C106.

(** whatever the solver asked in between, the dependencies of a version that was offered are those of its package *)
Theorem C106_opened_partial : forall as_uri env repo_match overrides universe asked g v,
  well_named repo_match universe -> one_spelling universe -> (forall h, In h asked -> In h universe) -> In g asked -> In v (versions_of repo_match g) ->
  get_dependencies as_uri env overrides (opened_by repo_match asked) g v = Ok (dependencies_of as_uri env repo_match overrides g v).
Proof.
  intros as_uri env repo_match overrides universe asked g v N O A G V. unfold get_dependencies. rewrite (opened_find repo_match universe N O asked g v G A). destruct (versions_listed repo_match g v V) as (p & Hp & <- & F).
  unfold dependencies_of. rewrite F. reflexivity.
Qed.
(** C106 and C107, when the answer of the solver is a solution (see C15) and no package comes up under two names *)
Theorem C106_works_partial : forall as_uri env repo_match overrides universe root pick fuel ds,
  well_named repo_match universe -> one_spelling universe -> closed as_uri env repo_match overrides universe -> NoDup universe ->
  plain_versions repo_match universe -> proper_extras universe -> In (pkg_of root) universe ->
  solve spec version real_ops (solver_problem as_uri env repo_match overrides universe) (code universe (pkg_of root)) pick fuel = Ok ds ->
  is_solution real_ops (solver_problem as_uri env repo_match overrides universe) (code universe (pkg_of root)) ds ->
  exists l, resolve as_uri env repo_match overrides universe pick fuel root = Ok l /\ works as_uri env overrides root l.
Proof.
  intros as_uri env repo_match overrides universe root pick fuel ds N O C D P X R S Sol. unfold resolve. rewrite S. cbn [bind].
  destruct (collect_solution as_uri env repo_match overrides universe N O D (pkg_of root) ds Sol (decoded universe ds)) as (l & E & L); [apply decoded_in|auto|].
  exists l. split; [exact E|]. exact (list_works as_uri env repo_match overrides universe root ds N O C D P X R Sol l L).
Qed.
Theorem C107_one_version_partial : forall as_uri env repo_match overrides universe root pick fuel ds l,
  well_named repo_match universe -> one_spelling universe -> closed as_uri env repo_match overrides universe -> NoDup universe ->
  proper_extras universe -> In (pkg_of root) universe ->
  solve spec version real_ops (solver_problem as_uri env repo_match overrides universe) (code universe (pkg_of root)) pick fuel = Ok ds ->
  is_solution real_ops (solver_problem as_uri env repo_match overrides universe) (code universe (pkg_of root)) ds ->
  resolve as_uri env repo_match overrides universe pick fuel root = Ok l ->
  forall p q, In p l -> In q l -> in_descriptor (lower (k_name p)) = in_descriptor (lower (k_name q)) -> p = q.
Proof.
  intros as_uri env repo_match overrides universe root pick fuel ds l N O C D X R S Sol H. unfold resolve in H. rewrite S in H. cbn [bind] in H.
  destruct (collect_solution as_uri env repo_match overrides universe N O D (pkg_of root) ds Sol (decoded universe ds)) as (l' & E & L); [apply decoded_in|auto|].
  rewrite E in H. injection H as <-. intros p q. exact (list_once as_uri env repo_match overrides universe root ds N O X Sol l' L p q).
Qed.

(** an index, read as a user would write it *)
Definition final (r : list N) : version := VStd (SV r None None None None None).
Definition wants (s : string) : dep := match parse_dependency (fun x => x) (lit s) with Ok d => d | Err _ => Dep [] AllowAll None None end.
Definition sample_index : index := [
  (lit "root", [(final [1%N], Some [wants "A[x]"; wants "b"])]);
  (lit "a", [(final [2%N], Some [wants "c>=2"]); (final [1%N], Some [wants "c<3; extra == 'x'"])]);
  (lit "b", [(final [1%N], Some [wants "c<2"])]);
  (lit "c", [(final [2%N], Some []); (final [1%N], Some [])])].
Definition sample_universe : list rpkg := [RPkg (lit "a") None; RPkg (lit "a") (Some [lit "x"]); RPkg (lit "b") None; RPkg (lit "c") None; RPkg (lit "root") None].
Definition sample_problem : problem spec version := solver_problem (fun x => x) [] (pypi_match sample_index) [] sample_universe.
Definition sample_decisions : list (pkg * spec) := [(4, Match (final [1]) true); (2, Match (final [1]) true); (3, Match (final [1]) true); (1, Match (final [1]) true); (0, Match (final [1]) true)]%N.
Ltac of_list H := match type of H with In ?x ?l => let l' := eval vm_compute in l in change (In x l') in H; cbn [In] in H; repeat (destruct H as [<-|H]); try contradiction end.
Example C106_sample : well_named (pypi_match sample_index) sample_universe /\ one_spelling sample_universe /\
  closed (fun x => x) [] (pypi_match sample_index) [] sample_universe /\ NoDup sample_universe /\
  plain_versions (pypi_match sample_index) sample_universe /\ proper_extras sample_universe /\ In (pkg_of (wants "Root")) sample_universe /\
  is_solution real_ops sample_problem (code sample_universe (pkg_of (wants "Root"))) sample_decisions /\
  solve spec version real_ops sample_problem (code sample_universe (pkg_of (wants "Root"))) (fun _ => 0) 60 = Ok sample_decisions /\
  exists l, resolve (fun x => x) [] (pypi_match sample_index) [] sample_universe (fun _ => 0) 60 (wants "Root") = Ok l /\
    map (fun p => (k_name p, k_version p)) l = [(lit "root", final [1]); (lit "b", final [1]); (lit "c", final [1]); (lit "a", final [1])]%N.
Proof.
  split. { intros g p G P. of_list G; of_list P; vm_compute; reflexivity. }
  split. { intros g h G H. of_list G; of_list H; vm_compute; congruence. }
  split. { intros g v ts t G D It. unfold dependencies_of in D. destruct (find_version v (listed (pypi_match sample_index) g)) as [p|] eqn:F; [|discriminate]. apply find_version_in in F. destruct F as [F _].
    of_list G; of_list F; vm_compute in D; injection D as <-; of_list It; vm_compute; tauto. }
  split. { vm_compute. repeat (constructor; [cbn; intuition discriminate|]). constructor. }
  split. { intros g p G P. of_list G; of_list P; vm_compute; reflexivity. }
  split. { intros g G. of_list G; vm_compute; discriminate. }
  split. { vm_compute. tauto. }
  split. { split; [vm_compute; repeat (constructor; [cbn; intuition discriminate|]); constructor|]. split; [exists (final [1%N]); left; reflexivity|].
    intros p c I. unfold sample_decisions in I. cbn [In] in I. repeat (destruct I as [I|I]); try contradiction; injection I as <- <-; exists (final [1%N]).
    all: eexists; split; [reflexivity|]; split; [left; vm_compute; tauto|]; split; [vm_compute; reflexivity|].
    all: intros t It; of_list It; exists (final [1%N]); vm_compute; tauto. }
  split; [vm_compute; reflexivity|]. eexists. split; [vm_compute; reflexivity|vm_compute; reflexivity].
Qed.

(** ** C107 *)
(** the names of requirements are looked up as they are written: two spellings of a name are two packages for the solver *)
Definition two_spellings : index := [
  (lit "root", [(final [1%N], Some [wants "a"; wants "b"])]);
  (lit "a", [(final [1%N], Some [wants "foo_bar<2"])]);
  (lit "b", [(final [1%N], Some [wants "foo-bar>=2"])]);
  (lit "foo-bar", [(final [2%N], Some []); (final [1%N], Some [])])].
Definition spelled_universe : list rpkg := [RPkg (lit "a") None; RPkg (lit "b") None; RPkg (lit "foo-bar") None; RPkg (lit "foo_bar") None; RPkg (lit "root") None].
Theorem C107_one_version_refuted : exists l p q, resolve (fun x => x) [] (pypi_match two_spellings) [] spelled_universe (fun _ => 0) 60 (wants "root") = Ok l /\
  In p l /\ In q l /\ k_name p = k_name q /\ version_eqb (k_version p) (k_version q) = false.
Proof.
  eexists. exists (Package (lit "foo-bar") (final [1%N]) true (Some [])), (Package (lit "foo-bar") (final [2%N]) true (Some [])).
  split; [vm_compute; reflexivity|]. split; [cbn [In]; vm_compute; tauto|]. split; [cbn [In]; vm_compute; tauto|]. split; [reflexivity|vm_compute; reflexivity].
Qed.

(** ** C108 *)
(** the versions of which the solver hears: all final ones, and pre- and development releases only if there is nothing else *)
Definition held (ix : index) (name : str) (v : version) : Prop :=
  exists l r, dict_get (pypi_name name) ix = Some l /\ In (v, r) l.
Theorem C108_visible : forall ix name extras v, is_std v = true ->
  (exists w, version_eqb v w = true /\ In w (versions_of (pypi_match ix) (RPkg name extras))) <->
  (exists w, version_eqb v w = true /\ held ix name w /\ (is_pre_or_dev_release w = true -> forall u, held ix name u -> is_pre_or_dev_release u = true)).
Proof.
  intros ix name extras v SV. unfold versions_of, listed, repo_list, pypi_match, answer, held. cbn [g_name d_name d_spec allows_pre_or_dev].
  assert (Hd : forall w, (exists l r, dict_get (pypi_name name) ix = Some l /\ In (w, r) l) <-> exists r, In (w, r) (match dict_get (pypi_name name) ix with Some l => l | None => [] end)).
  { intro w. destruct (dict_get (pypi_name name) ix) as [l|]; split; [intros (l' & r & E & I); injection E as <-; eauto|intros (r & I); eauto|intros (l' & r & E & _); discriminate|intros (r & [])]. }
  set (l := match dict_get (pypi_name name) ix with Some l => l | None => [] end) in *.
  set (all := map _ l).
  assert (A : forall q, In q all -> exists r, In (k_version q, r) l).
  { intros q Q. subst all. apply in_map_iff in Q. destruct Q as ([w r] & <- & Q). exists r. exact Q. }
  assert (A' : forall w r, In (w, r) l -> In (Package (in_descriptor name) w true r) all).
  { intros w r I. subst all. apply in_map_iff. exists (w, r). split; [reflexivity|exact I]. }
  assert (K : forall q, In q all <-> In q (filter k_fits (filter (fun q => allows AllowAll (k_version q)) all))).
  { intros q. rewrite !filter_In. split; [|tauto]. intro Q. split; [split; [exact Q|reflexivity]|]. subst all. apply in_map_iff in Q. destruct Q as ([w r] & <- & Q). reflexivity. }
  change (allows_pre_or_dev AllowAll) with false. cbn match. set (m := filter k_fits (filter (fun q => allows AllowAll (k_version q)) all)) in *.
  set (n := match filter _ m with [] => m | x :: y => x :: y end).
  assert (M : forall q, In q n <-> In q all /\ (is_pre_or_dev_release (k_version q) = true -> forall x, In x all -> is_pre_or_dev_release (k_version x) = true)).
  { intro q. subst n. destruct (filter (fun q => negb (is_pre_or_dev_release (k_version q))) m) as [|x rest] eqn:F.
    - rewrite <- K. split; [|tauto]. intro Q. split; [exact Q|]. intros _ y Y. destruct (is_pre_or_dev_release (k_version y)) eqn:E; [reflexivity|exfalso]. apply K in Y.
      assert (Z : In y (filter (fun q => negb (is_pre_or_dev_release (k_version q))) m)) by (apply filter_In; split; [exact Y|rewrite E; reflexivity]). rewrite F in Z. destruct Z.
    - rewrite <- F. rewrite filter_In, <- K. split.
      + intros [Q N]. split; [exact Q|]. intro E. rewrite E in N. discriminate.
      + intros [Q N]. split; [exact Q|]. destruct (is_pre_or_dev_release (k_version q)) eqn:E; [exfalso|reflexivity]. assert (X : In x (filter (fun q => negb (is_pre_or_dev_release (k_version q))) m)) by (rewrite F; left; reflexivity).
        apply filter_In in X. destruct X as [X Y]. rewrite (N eq_refl x) in Y; [discriminate|]. apply K. exact X. }
  assert (Ft : forall q, In q (filter k_fits n) <-> In q n).
  { intro q. rewrite filter_In. split; [tauto|]. intro Q. split; [exact Q|]. apply M in Q. destruct Q as [Q _]. subst all. apply in_map_iff in Q. destruct Q as ([w r] & <- & _). reflexivity. }
  split.
  - intros (w & E & I). exists w. split; [exact E|]. apply filter_In in I. destruct I as [I _]. apply in_map_iff in I. destruct I as (p & <- & I). apply unique_in in I. apply Ft, M in I. destruct I as [I N].
    split; [apply Hd; exact (A p I)|]. intros P u U. apply Hd in U. destruct U as (r & U). exact (N P _ (A' u r U)).
  - intros (w & E & H & N). apply Hd in H. destruct H as (r & H). destruct (unique_has (filter k_fits n) (Package (in_descriptor name) w true r)) as (q & Q & V).
    + apply Ft, M. split; [exact (A' w r H)|]. intros P x X. apply (N P). apply Hd. exact (A x X).
    + cbn [k_version] in V. assert (VV : version_eqb v (k_version q) = true) by (eapply version_eqb_trans; eassumption). exists (k_version q). split; [exact VV|]. apply filter_In. split; [apply in_map; exact Q|].
      destruct v; try discriminate. destruct (k_version q); [discriminate|discriminate|reflexivity].
Qed.

Lemma needed_in : forall as_uri env overrides root l p extras, needed as_uri env overrides root l p extras -> In p l.
Proof. intros as_uri env overrides root l p extras H. induction H; assumption. Qed.
(** so a pre-release that is asked for by a requirement is not found when there is a final release *)
Definition alpha : version := VStd (SV [2%N] None (Some (lit "a", 1%N)) None None None).
Definition pre_index : index := [(lit "root", [(final [1%N], Some [wants "x>=2a1"])]); (lit "x", [(alpha, Some []); (final [1%N], Some [])])].
Theorem C108_prerelease_refuted : allows (d_spec (wants "x>=2a1")) alpha = true /\ is_pre_or_dev_release alpha = true /\ held pre_index (lit "x") alpha /\
  works (fun x => x) [] [] (wants "root") [Package (lit "root") (final [1%N]) true (Some [wants "x>=2a1"]); Package (lit "x") alpha true (Some [])] /\
  resolve (fun x => x) [] (pypi_match pre_index) [] [RPkg (lit "root") None; RPkg (lit "x") None] (fun _ => 0) 60 (wants "root") = Err UnsatError.
Proof.
  split; [vm_compute; reflexivity|]. split; [vm_compute; reflexivity|]. split; [eexists; exists (Some []); split; [vm_compute; reflexivity|left; reflexivity]|]. split; [|vm_compute; reflexivity].
  split; [eexists; split; [left; reflexivity|vm_compute; reflexivity]|].
  intros p extras ds d H R I A. exists (Package (lit "x") alpha true (Some [])). split; [right; left; reflexivity|].
  assert (P := needed_in _ _ _ _ _ _ _ H).
  destruct P as [<-|[<-|[]]]; cbn [k_requires] in R; injection R as <-; [destruct I as [<-|[]]|destruct I]. split; vm_compute; reflexivity.
Qed.

(** ** C109 *)
(** the resolver asks a repository for the name in lower case *)
Theorem C109_lower_case_partial : forall packages d, versions_of (local_match packages) (pkg_of d) <> [] ->
  exists l, dict_get (lower (d_name d)) packages = Some l /\ l <> [].
Proof.
  intros packages d H. unfold versions_of, listed, repo_list, local_match, pkg_of in H. cbn [g_name d_name] in H. destruct (dict_get (lower (d_name d)) packages) as [[|p l]|] eqn:E; [exfalso; apply H; reflexivity|exists (p :: l); split; [reflexivity|discriminate]|exfalso; apply H; reflexivity].
Qed.
(** so a package with upper case letters in its name is not found, not even under this name *)
Definition local_packages : list (str * list package) := [(lit "root", [Package (lit "root") (final [1%N]) true (Some [wants "MyLib"])]); (lit "MyLib", [Package (lit "MyLib") (final [1%N]) true (Some [])])].
Theorem C109_name_refuted : local_match local_packages (wants "MyLib") = [Package (lit "MyLib") (final [1%N]) true (Some [])] /\
  resolve (fun x => x) [] (local_match local_packages) [] [RPkg (lit "mylib") None; RPkg (lit "root") None] (fun _ => 0) 60 (wants "root") = Err UnsatError.
Proof. split; vm_compute; reflexivity. Qed.
Example C109_sample : versions_of (local_match [(lit "mylib", [Package (lit "mylib") (final [1%N]) true (Some [])])]) (pkg_of (wants "MyLib")) = [final [1%N]].
Proof. vm_compute. reflexivity. Qed.
Print Assumptions C106_opened_partial. Print Assumptions C106_works_partial. Print Assumptions C107_one_version_partial. Print Assumptions C107_one_version_refuted.
Print Assumptions C108_visible. Print Assumptions C108_prerelease_refuted. Print Assumptions C109_lower_case_partial. Print Assumptions C109_name_refuted.
