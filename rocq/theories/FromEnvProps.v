(** Properties of projects that are made from environments (C305). *)
From Coq Require Import String Ascii List Bool NArith Arith Lia.
From Verif Require Import Base BaseFacts NamesModel VersionModel VersionSpec VersionProofs SpecifierModel SpecifierSpec SpecParse SpecParseSpec DependencyModel DependencyProofs PlanModel PlanProps ScaffoldProps FromEnvModel.
Import ListNotations.
Open Scope string_scope. Open Scope nat_scope. Open Scope list_scope. Open Scope bool_scope.

Lemma Ok_inj : forall (A : Type) (x y : A), Ok x = Ok y -> x = y.
Proof. intros A x y H. congruence. Qed.
Lemma generalized_ok : forall name v, exists d, generalized name v = Ok d.
Proof. intros name v. destruct (C160_self name v) as (d & E & _). exists d. exact E. Qed.
(** the texts are one for each package that was asked for, in order; making them never fails *)
Theorem C305_requested : forall site, exists texts, dependencies_of site = Ok texts /\
  Forall2 (fun p t => exists d, generalized (i_name p) (i_version p) = Ok d /\ t = dep_str d) (filter (fun p => match i_request p with Some _ => true | None => false end) site) texts.
Proof.
  intro site. unfold dependencies_of. change (filter _ site) with (find_requested site). induction (find_requested site) as [|p l IH]; cbn [all_generalized bind map].
  - exists []. split; [reflexivity|constructor].
  - destruct IH as (texts & E & F). destruct (generalized_ok (i_name p) (i_version p)) as [d G]. rewrite G. cbn [bind]. destruct (all_generalized l) as [ds|]; [|discriminate E]. cbn [bind map] in *.
    eexists. split; [reflexivity|]. apply Ok_inj in E. rewrite E. constructor; [exists d; auto|exact F].
Qed.
Print Assumptions C305_requested.
(** each of them is read back as a dependency on this package that its installed version satisfies *)
Theorem C305_fits_partial : forall as_uri site texts p v, dependencies_of site = Ok texts -> In p site -> i_request p <> None ->
  i_version p = VStd v -> wf_sv v -> plain v -> ident (i_name p) -> normalize_name (i_name p) = Ok (i_name p) ->
  exists t d, In t texts /\ parse_dependency as_uri t = Ok d /\ d_name d = i_name p /\ allows (d_spec d) (i_version p) = true /\ d_marker d = None /\ d_extras d = None.
Proof.
  intros as_uri site texts p v D I R V W P N M. destruct (C305_requested site) as (texts' & E & F). rewrite D in E. apply Ok_inj in E. subst texts'.
  assert (J : In p (filter (fun p => match i_request p with Some _ => true | None => false end) site)) by (apply filter_In; split; [exact I|destruct (i_request p); [reflexivity|contradiction]]).
  assert (X : exists t d, In t texts /\ generalized (i_name p) (i_version p) = Ok d /\ t = dep_str d).
  { clear - F J. induction F as [|q t l m H F IH]; [destruct J|]. destruct J as [J|J].
    - subst q. destruct H as (d & G & T). exists t, d. split; [left; reflexivity|auto].
    - destruct (IH J) as (t' & d & K & Y). exists t', d. split; [right; exact K|exact Y]. }
  destruct X as (t & d & K & G & T). destruct (C160_self (i_name p) (i_version p)) as (d' & G' & N' & A'). rewrite G in G'. apply Ok_inj in G'. subst d'.
  exists t, d. split; [exact K|]. subst t. rewrite V in G. unfold generalized in G. set (next := SV _ _ _ _ _ _) in G. unfold mk_range in G. cbn [is_none andb] in G.
  destruct (sv_ltb v next) eqn:L; [|discriminate G]. cbn [bind] in G. apply Ok_inj in G.
  assert (Z : d_extras d = None /\ d_marker d = None /\ d_spec d = Range (Some v) (Some next) true false) by (subst d; auto). destruct Z as (Z1 & Z2 & Z3).
  split; [|split; [exact N'|split; [exact A'|split; [exact Z2|exact Z1]]]]. apply print_parse_dep.
  - rewrite N'. exact N.
  - rewrite N'. exact M.
  - intros l Y. rewrite Z1 in Y. discriminate Y.
  - rewrite Z3. destruct P as (P1 & P2 & P3). assert (PN : plain next) by (split; [discriminate|split; [exact P2|exact P3]]).
    cbn [printable]. split; [|split; [|split]].
    + cbn [wf_interval]. split; [left; discriminate|]. split; [discriminate|]. split; [discriminate|]. split; [intros m Y; injection Y as <-; repeat split; assumption|]. split; [intros m Y; injection Y as <-; exact PN|].
      intros a b Y1 Y2. injection Y1 as <-. injection Y2 as <-. exact L.
    + intros m Y. injection Y as <-. exact W.
    + intros m Y. injection Y as <-. split; [discriminate|]. exact (proj2 W).
    + intros m n Y1 Y2 _ _ pre x y _ Y. injection Y2 as <-. cbn [release next] in Y. destruct pre as [|a [|b pre]]; discriminate Y.
  - rewrite Z2. intros m Y. discriminate Y.
Qed.
Print Assumptions C305_fits_partial.
(** and the interpreter of the environment is one for the project *)
Theorem C305_python_partial : forall as_uri a b c, exists spec, parse_specifier as_uri (requires_python_of (SV [a; b; c] None None None None None)) = Ok spec /\ allows spec (VStd (SV [a; b; c] None None None None None)) = true.
Proof.
  intros as_uri a b c. destruct (C299_python as_uri a b) as (spec & E & A & _). exists spec. split; [|exact (A c)]. rewrite <- E. f_equal. unfold requires_python_of, sv_without_patch. cbn [release List.length Nat.ltb Nat.leb firstn]. cbn [version_str]. unfold sv_str. cbn. rewrite ?app_nil_r. reflexivity.
Qed.
Print Assumptions C305_python_partial.
(** what the user asked for is not kept: of no package the extras, *)
Theorem C305_extras_refuted : forall site texts p v r e l, dependencies_of site = Ok texts -> In p site -> i_request p = Some r -> d_extras r = Some (e :: l) ->
  i_version p = VStd v -> wf_sv v -> plain v -> ident (i_name p) -> normalize_name (i_name p) = Ok (i_name p) ->
  exists t d, In t texts /\ parse_dependency (fun s => s) t = Ok d /\ d_name d = i_name p /\ d_extras d = None.
Proof.
  intros site texts p v r e l D I R X V W P N M. destruct (C305_fits_partial (fun s => s) site texts p v D I) as (t & d & K & E & Nd & A & Mk & Ex); try assumption; [congruence|]. exists t, d. auto.
Qed.
Print Assumptions C305_extras_refuted.
(** and not the versions: a project may get a version that the request rules out *)
Theorem C305_request_refuted : exists request version other text d,
  dependencies_of [Installed (lit "numpy") (VStd version) (Some request)] = Ok [text] /\ parse_dependency (fun s => s) text = Ok d /\
  allows (d_spec request) (VStd version) = true /\ allows (d_spec request) (VStd other) = false /\ allows (d_spec d) (VStd other) = true.
Proof.
  exists (Dep (lit "numpy") (Range None (Some (SV [1%N; 24%N] None None None None None)) false false) None None), (SV [1%N; 23%N; 5%N] None None None None None), (SV [1%N; 26%N] None None None None None). do 2 eexists.
  split; [reflexivity|]. split; [vm_compute; reflexivity|]. vm_compute. repeat split.
Qed.
Print Assumptions C305_request_refuted.
Example C305_example :
  let site := [Installed (lit "requests") (VStd (SV [2%N; 31%N; 0%N] None None None None None)) (Some (Dep (lit "requests") AllowAll (Some [lit "socks"]) None));
               Installed (lit "idna") (VStd (SV [3%N; 4%N] None None None None None)) None;
               Installed (lit "black") (VStd (SV [22%N; 1%N] None (Some (lit "b", 0%N)) None None None)) (Some (Dep (lit "black") AllowAll None None))] in
  dependencies_of site = Ok [lit "requests >=2.31.0, <3"; lit "black >=22.1b0, <23b0"] /\
  wf_sv (SV [2%N; 31%N; 0%N] None None None None None) /\ plain (SV [2%N; 31%N; 0%N] None None None None None) /\ ident (lit "requests") /\ normalize_name (lit "requests") = Ok (lit "requests") /\
  requires_python_of (SV [3%N; 10%N; 4%N] None None None None None) = lit "~=3.10".
Proof.
  cbn zeta. split; [vm_compute; reflexivity|]. split; [split; [discriminate|intros t n X; discriminate X]|]. split; [split; [discriminate|split; [reflexivity|discriminate]]|]. split; [exists "r"%char, (lit "equests"); repeat split|]. split; vm_compute; reflexivity.
Qed.
