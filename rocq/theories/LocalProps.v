(** C143: file urls.  C144: what a file url names.  C145: directories of packages.  C146: names in a directory of packages.
    C147: files with other names.  C148: names and versions of distribution files.  C149: packages that nobody made.
    C150: dependencies of packages on the disk.  C151: plain urls. *)
From Coq Require Import String Ascii List Bool NArith Arith Lia Permutation.
From Verif Require Import Base BaseFacts ParserModel NamesModel VersionModel VersionSpec VersionParserModel VersionParserProofs VersionParse VersionParseProofs
  SpecifierModel DependencyModel UrlModel FsModel FsFacts LocalModel LocalProofs.
From Verif Require SharedModel SharedProofs ArtifactModel IndexModel IndexProofs GitModel ProjectModel.
Import ListNotations.
Open Scope string_scope.
Open Scope nat_scope.
Open Scope list_scope.
Open Scope bool_scope.

(** ** C148 *)
(** a name as it stands in the name of a distribution file: letters, digits, dots and underscores *)
Definition escaped (name : str) : Prop := name <> [] /\ forall c, In c name -> is_alnum c = true \/ c = "."%char \/ c = "_"%char.
Definition dashes (name : str) : str := map (fun c => if Ascii.eqb c "_" then "-"%char else c) name.
Lemma escaped_no_dash : forall name, escaped name -> ~ In "-"%char name.
Proof. intros name [_ H] I. destruct (H _ I) as [X|[X|X]]; discriminate. Qed.
Lemma escaped_valid : forall c, is_alnum c = true \/ c = "."%char \/ c = "_"%char -> invalid_char c = false /\ Ascii.eqb c "-" = false.
Proof.
  intros c [H|[->| ->]]; [|split; reflexivity|split; reflexivity]. unfold invalid_char. rewrite H. split; [reflexivity|]. destruct (Ascii.eqb_spec c "-"); [subst c; discriminate H|reflexivity].
Qed.
Lemma sub_runs_same : forall s, (forall c, In c s -> invalid_char c = false) -> sub_runs invalid_char "-" false s = s.
Proof. induction s as [|c s IH]; intro H; [reflexivity|]. cbn. rewrite (H c (or_introl eq_refl)), IH; [reflexivity|]. intros x I. apply H. right. exact I. Qed.
Lemma lstrip_same : forall s, (forall c, In c s -> Ascii.eqb c "-" = false) -> lstrip "-" s = s.
Proof. intros [|c s] H; [reflexivity|]. cbn. rewrite (H c (or_introl eq_refl)). reflexivity. Qed.
Lemma escaped_name : forall name, escaped name -> normalize_name name = Ok name.
Proof.
  intros name [N H]. unfold normalize_name. rewrite sub_runs_same by (intros c I; exact (proj1 (escaped_valid c (H c I)))). unfold strip.
  rewrite (lstrip_same name) by (intros c I; exact (proj2 (escaped_valid c (H c I)))). rewrite lstrip_same.
  - rewrite rev_involutive. destruct name; [contradiction N; reflexivity|reflexivity].
  - intros c I. apply (proj2 (escaped_valid c (H c (proj2 (in_rev name c) I)))).
Qed.
Lemma escaped_descriptor : forall name v, escaped name -> make_descriptor name v = Ok (Desc (dashes name) v).
Proof.
  intros name v E. unfold make_descriptor, descriptor_name. rewrite (escaped_name name E). destruct E as [N _]. destruct name; [contradiction N; reflexivity|reflexivity].
Qed.
Lemma no_dash_version : forall v, wf_sv v -> label_wf v -> ~ In "-"%char (sv_str v).
Proof. intros v W L I. pose proof (sv_str_vchar v W L) as H. rewrite forallb_forall in H. discriminate (H _ I). Qed.

(** the name of a wheel gives the name and the version of the package *)
Theorem C148_wheel : forall name v tags, escaped name -> wf_sv v -> label_wf v -> from_dist_name (name ++ lit "-" ++ sv_str v ++ lit "-" ++ tags) = Ok (Desc (dashes name) (VStd v)).
Proof.
  intros name v tags E W L. unfold from_dist_name. cbn [lit app list_ascii_of_string].
  assert (S : split_on "-" (name ++ lit "-" ++ sv_str v ++ lit "-" ++ tags) = name :: sv_str v :: split_on "-" tags).
  { change (name ++ lit "-" ++ sv_str v ++ lit "-" ++ tags) with (name ++ "-"%char :: (sv_str v ++ "-"%char :: tags)). rewrite split_on_app by (apply escaped_no_dash; exact E). rewrite split_on_app by (apply no_dash_version; assumption). reflexivity. }
  change (lit "-" ++ sv_str v ++ lit "-" ++ tags) with ("-"%char :: sv_str v ++ "-"%char :: tags) in S. rewrite S.
  assert (P : parse_version (sv_str v) = Ok (VStd v)) by (apply parse_sv_str; [exact W|exact L|apply lower_vchar; apply sv_str_vchar; assumption]).
  rewrite P. cbn [bind]. apply escaped_descriptor. exact E.
Qed.
(** so does the name of a source distribution, when the version has no local label.
    Missing: names with dashes and versions with local labels, for which it is false. *)
Theorem C148_sdist_partial : forall name v, escaped name -> wf_sv v -> local_label v = None -> from_dist_name (name ++ lit "-" ++ sv_str v ++ lit ".tar.gz") = Ok (Desc (dashes name) (VStd v)).
Proof.
  intros name v E W L. assert (LW : label_wf v) by (intros l X; congruence). unfold from_dist_name.
  assert (S : split_on "-" (name ++ lit "-" ++ sv_str v ++ lit ".tar.gz") = [name; sv_str v ++ lit ".tar.gz"]).
  { change (name ++ lit "-" ++ sv_str v ++ lit ".tar.gz") with (name ++ "-"%char :: (sv_str v ++ lit ".tar.gz")). rewrite split_on_app by (apply escaped_no_dash; exact E). rewrite split_on_single; [reflexivity|].
    intro I. apply in_app_or in I. destruct I as [I|I]; [exact (no_dash_version v W LW I)|]. cbn in I. repeat (destruct I as [I|I]; [discriminate I|]). contradiction. }
  rewrite S, (parse_version_tar v W L). cbn [bind]. apply escaped_descriptor. exact E.
Qed.
Definition sv_of (l : list N) : sv := SV l None None None None None.
Theorem C148_local_refuted : let v := SV [1%N; 0%N] None None None None (Some (lit "abc")) in
  wf_sv v /\ label_wf v /\ from_dist_name (lit "mylib-" ++ sv_str v ++ lit ".tar.gz") = Ok (Desc "mylib" (VStd (SV [1%N; 0%N] None None None None (Some (lit "abc.tar.gz"))))).
Proof.
  cbv zeta. split; [split; [discriminate|intros t n H; discriminate H]|]. split; [intros l H; injection H as <-; reflexivity|]. vm_compute. reflexivity.
Qed.
Theorem C148_dash_refuted : from_dist_name "my-lib-1.0.tar.gz" = Ok (Desc "my" (VNamed "lib")).
Proof. vm_compute. reflexivity. Qed.
Example C148_sample : escaped "my_lib" /\ from_dist_name "my_lib-1.0.post2-py3-none-any.whl" = Ok (Desc "my-lib" (VStd (SV [1%N; 0%N] None None (Some 2%N) None None))) /\
  from_dist_name "my_lib-2!1.0rc1.dev3.tar.gz" = Ok (Desc "my-lib" (VStd (SV [1%N; 0%N] (Some 2%N) (Some (lit "rc", 1%N)) None (Some 3%N) None))).
Proof.
  split; [|vm_compute; auto]. split; [discriminate|]. intros c I. cbn in I. repeat (destruct I as [<-|I]; [first [left; reflexivity|right; right; reflexivity]|]). contradiction.
Qed.

(** ** C143, C144 *)
Section Files.
  Variables (project_table : str -> res (option config)) (built_dependencies : path -> res (list dep)) (tag_fits : str -> bool) (interpreter : version) (cwd : path).
  Notation file_match := (file_match project_table tag_fits interpreter cwd).
  (** an absolute path in small letters, as the text of a url *)
  Definition plain_path (t : str) : Prop := starts_with (lit "/") t = true /\ lower t = t /\ no_line_end t /\ ~ In (lit "..") (GitModel.components t).
  (** the directory or file that it means *)
  Definition place (t : str) : path := rev (GitModel.components t).
  Lemma file_answer : forall f name t v ex mk, plain_path t -> parse_url_version (lit "file://" ++ t) = Ok v ->
    file_match f (Dep name (Match v true) ex mk) =
      do p <- (if is_dir f (place t) then do p <- load_project project_table f (place t) (last (GitModel.components t) []); Ok (Some p)
               else if has_dist_suffix (last (GitModel.components t) []) then do p <- package_from (place t) (last (GitModel.components t) []); Ok (Some p) else Ok None);
      Ok (match p with Some p => if is_compatible tag_fits interpreter p then [p] else [] | None => [] end).
  Proof.
    intros f name t v ex mk (A & L & N & D) V. destruct (file_url_version t v N V) as (s & ->). unfold LocalModel.file_match, match_with, file_do_match, required_url. cbn [d_spec].
    rewrite L. rewrite without_prefix_app. unfold load_package_from_filesystem. rewrite (absolute_place cwd t A D). fold (place t).
    match goal with |- (do l <- (do p <- ?X; _); _) = _ => destruct X as [[p|]|e] end; [|reflexivity|reflexivity]. cbn [bind]. f_equal. unfold filter_prereleases. destruct (allows_pre_or_dev _).
    - reflexivity.
    - cbn [filter]. destruct (is_compatible tag_fits interpreter p); [|reflexivity]. cbn [filter]. destruct (negb _); reflexivity.
  Qed.
  (** requirements that do not name a url are not answered *)
  Theorem C143_none : forall f d, (forall u r s, d_spec d <> Match (VUrl u r s) true) -> file_match f d = Ok [].
  Proof.
    intros f d N. unfold LocalModel.file_match, match_with, file_do_match. assert (R : required_url d = None); [|rewrite R; cbn [bind filter]; unfold filter_prereleases; cbn [filter]; destruct (allows_pre_or_dev (d_spec d)); reflexivity].
    unfold required_url. destruct (d_spec d) as [| | | |[u r s|n|v] [|]|] eqn:E; try reflexivity. exfalso. exact (N u r s eq_refl).
  Qed.
  (** what is found is at the place that the url names, and nothing is found where there is neither a directory nor a name of a
      distribution *)
  Theorem C143_place_partial : forall f name t v ex mk l, plain_path t -> parse_url_version (lit "file://" ++ t) = Ok v -> file_match f (Dep name (Match v true) ex mk) = Ok l ->
    (length l <= 1 /\ forall p, In p l -> place_of p = place t) /\
    (is_dir f (place t) = false -> (forall x n, place t = n :: x -> (forall b, n <> b ++ lit ".whl") /\ (forall b, n <> b ++ lit ".tar.gz")) -> l = []).
  Proof.
    intros f name t v ex mk l P V M. rewrite (file_answer f name t v ex mk P V) in M. split.
    - destruct (is_dir f (place t)).
      + unfold load_project in M. destruct (load_config project_table f (place t) _) as [c|e]; [|discriminate]. cbn [bind] in M.
        destruct (c_name c), (c_version c); try discriminate. destruct (make_descriptor _ _) as [d|e]; [|discriminate]. cbn [bind] in M.
        destruct (is_compatible tag_fits interpreter _); injection M as <-; (split; [cbn; lia|]); intros p I; [destruct I as [<-|[]]; reflexivity|contradiction].
      + destruct (has_dist_suffix _); [|cbn [bind] in M; injection M as <-; split; [cbn; lia|intros p I; contradiction]].
        destruct (package_from (place t) _) as [x|e] eqn:X; [|discriminate]. cbn [bind] in M. pose proof (proj1 (package_place _ _ _ X)) as Y.
        destruct (is_compatible tag_fits interpreter x); injection M as <-; (split; [cbn; lia|]); intros p I; [destruct I as [<-|[]]; exact Y|contradiction].
    - intros D S. rewrite D in M. assert (H : has_dist_suffix (last (GitModel.components t) []) = false).
      { destruct (place t) as [|n x] eqn:E.
        - unfold place in E. assert (Z : GitModel.components t = []) by (rewrite <- (rev_involutive (GitModel.components t)), E; reflexivity). rewrite Z. reflexivity.
        - destruct (S x n eq_refl) as [S1 S2]. unfold place in E. assert (Z : GitModel.components t = rev x ++ [n]) by (rewrite <- (rev_involutive (GitModel.components t)), E; reflexivity).
          rewrite Z, last_last. unfold has_dist_suffix, endswith_any, dist_suffixes. cbn [find].
          destruct (ArtifactModel.ends_with (lit ".tar.gz") n) eqn:A; [exfalso; apply ends_with_app in A; destruct A as (b & A); exact (S2 b A)|].
          destruct (ArtifactModel.ends_with (lit ".whl") n) eqn:B; [exfalso; apply ends_with_app in B; destruct B as (b & B); exact (S1 b B)|]. reflexivity. }
      rewrite H in M. cbn [bind] in M. injection M as <-. reflexivity.
  Qed.
  (** a project that is there is found *)
  Theorem C143_project_partial : forall f name t v ex mk text c n w, plain_path t -> parse_url_version (lit "file://" ++ t) = Ok v ->
    is_dir f (place t) = true -> lookup f (lit "pyproject.toml" :: place t) = Some (File text) -> project_table text = Ok (Some c) ->
    c_name c = Some n -> escaped n -> c_version c = Some w -> allows (c_python c) interpreter = true ->
    exists c', file_match f (Dep name (Match v true) ex mk) = Ok [Project (place t) (Desc (dashes n) w) c'] /\ c_dependencies c' = c_dependencies c /\ c_optional c' = c_optional c /\ c_dynamic c' = c_dynamic c.
  Proof.
    intros f name t v ex mk text c n w P V D F T N E W A. rewrite (file_answer f name t v ex mk P V), D. unfold load_project, load_config. rewrite F, T. cbn [bind]. rewrite N, (escaped_name n E). cbn [bind c_name c_version].
    rewrite W, (escaped_descriptor n w E). cbn [bind is_compatible c_python]. rewrite A. eexists. split; [reflexivity|]. repeat split; reflexivity.
  Qed.
  (** so is a wheel, when it can be used *)
  Theorem C143_wheel_partial : forall f name t v ex mk dir n w tags, plain_path t -> parse_url_version (lit "file://" ++ t) = Ok v -> is_dir f (place t) = false ->
    escaped n -> wf_sv w -> label_wf w -> place t = (n ++ lit "-" ++ sv_str w ++ lit "-" ++ tags ++ lit ".whl") :: dir ->
    tag_fits (ArtifactModel.tags_of (n ++ lit "-" ++ sv_str w ++ lit "-" ++ tags ++ lit ".whl")) = true ->
    file_match f (Dep name (Match v true) ex mk) = Ok [Wheel (place t) (Desc (dashes n) (VStd w))].
  Proof.
    intros f name t v ex mk dir n w tags P V D E W L Z G. rewrite (file_answer f name t v ex mk P V), D. assert (Y : last (GitModel.components t) [] = n ++ lit "-" ++ sv_str w ++ lit "-" ++ tags ++ lit ".whl").
    { unfold place in Z. rewrite <- (rev_involutive (GitModel.components t)), Z. cbn [rev]. apply last_last. }
    rewrite Y, Z. assert (B : ArtifactModel.ends_with (lit ".whl") (n ++ lit "-" ++ sv_str w ++ lit "-" ++ tags ++ lit ".whl") = true).
    { apply ends_with_app. exists (n ++ lit "-" ++ sv_str w ++ lit "-" ++ tags). rewrite <- !app_assoc. reflexivity. }
    assert (H : has_dist_suffix (n ++ lit "-" ++ sv_str w ++ lit "-" ++ tags ++ lit ".whl") = true).
    { unfold has_dist_suffix, endswith_any, dist_suffixes. cbn [find]. destruct (ArtifactModel.ends_with (lit ".tar.gz") _); [reflexivity|]. rewrite B. reflexivity. }
    rewrite H. unfold package_from. rewrite (C148_wheel n w (tags ++ lit ".whl") E W L). cbn [bind]. rewrite B. cbn [bind is_compatible hd]. rewrite G. reflexivity.
  Qed.
End Files.
(** ** Samples *)
Definition lib_config (name : str) : config := Config (Some name) (Some (VStd (sv_of [1%N; 0%N]))) AllowAll [] [] [].
(** the text of a pyproject.toml is the name of the project *)
Definition sample_table (text : str) : res (option config) := match text with [] => Ok None | _ => Ok (Some (lib_config text)) end.
Definition py39 : version := VStd (sv_of [3%N; 9%N]).
Definition pure (tag : str) : bool := str_eqb tag "py3-none-any".
Definition sample_match := file_match sample_table pure py39 [].
(** "name @ text" *)
Definition at_url (name text : str) : dep := match parse_url_version text with Ok v => Dep name (Match v true) None None | Err _ => Dep name AllowAll None None end.
Definition whl (n : str) : str := n ++ lit "-1.0-py3-none-any.whl".
Definition disk : fs :=
  [([], Dir); ([lit "src"], Dir); ([lit "a"; lit "src"], Dir); ([lit "A"; lit "src"], Dir); ([lit "pyproject.toml"; lit "a"; lit "src"], File "small");
   ([lit "pyproject.toml"; lit "A"; lit "src"], File "capital"); ([lit "wheels"], Dir); ([whl (lit "my_lib"); lit "wheels"], File "zip")].
Example C143_sample : plain_path (lit "/src/a") /\ plain_path (lit "/wheels/" ++ whl (lit "my_lib")) /\
  sample_match disk (at_url "small" "file:///src/a") = Ok [Project [lit "a"; lit "src"] (Desc "small" (VStd (sv_of [1%N; 0%N]))) (lib_config "small")] /\
  sample_match disk (at_url "my-lib" (lit "file:///wheels/" ++ whl (lit "my_lib"))) = Ok [Wheel [whl (lit "my_lib"); lit "wheels"] (Desc "my-lib" (VStd (sv_of [1%N; 0%N])))].
Proof.
  split; [|split; [|split; vm_compute; reflexivity]].
  - split; [reflexivity|]. split; [reflexivity|]. split; [intro I; cbn in I; repeat (destruct I as [I|I]; [discriminate I|]); exact I|]. intro I. vm_compute in I. repeat (destruct I as [I|I]; [discriminate I|]). exact I.
  - split; [reflexivity|]. split; [reflexivity|]. split; [intro I; cbn in I; repeat (destruct I as [I|I]; [discriminate I|]); exact I|]. intro I. vm_compute in I. repeat (destruct I as [I|I]; [discriminate I|]). exact I.
Qed.
(** the text of a url is put into small letters, so another directory is used *)
Theorem C143_case_refuted : sample_match disk (at_url "capital" "file:///src/A") = Ok [Project [lit "a"; lit "src"] (Desc "small" (VStd (sv_of [1%N; 0%N]))) (lib_config "small")] /\
  is_dir disk [lit "A"; lit "src"] = true /\ sample_match (keep (fun p => negb (under [lit "a"; lit "src"] p)) disk) (at_url "capital" "file:///src/A") = Ok [].
Proof. split; [|split]; vm_compute; reflexivity. Qed.

(** ** C144 *)
(** the package need not have the name that was asked for, *)
Theorem C144_name_refuted : sample_match disk (at_url "requests" "file:///src/a") = Ok [Project [lit "a"; lit "src"] (Desc "small" (VStd (sv_of [1%N; 0%N]))) (lib_config "small")].
Proof. vm_compute. reflexivity. Qed.
(** and a wheel that is not there is a package as well *)
Theorem C144_missing_refuted : lookup disk [whl (lit "none"); lit "wheels"] = None /\
  sample_match disk (at_url "none" (lit "file:///wheels/" ++ whl (lit "none"))) = Ok [Wheel [whl (lit "none"); lit "wheels"] (Desc "none" (VStd (sv_of [1%N; 0%N])))].
Proof. split; vm_compute; reflexivity. Qed.

(** ** C145 *)
(** the packages that a repository has for a name *)
Definition offered (packages : list (str * list package)) (k : str) : list package := match dict_get k packages with Some l => l | None => [] end.
Definition in_project (p : package) : Prop := match p with Project _ _ _ => True | _ => False end.
Section Directory.
  Variables (project_table : str -> res (option config)) (group_projects : fs -> path -> res (list path)).
  Notation build_local := (build_local project_table group_projects).
  Lemma load_is_project : forall f dir n p, load_project project_table f dir n = Ok p -> in_project p /\ place_of p = dir.
  Proof.
    intros f dir n p H. unfold load_project in H. destruct (load_config _ _ _ _) as [c|e]; [|discriminate]. cbn [bind] in H. destruct (c_name c), (c_version c); try discriminate.
    destruct (make_descriptor _ _) as [d|e]; [|discriminate]. cbn [bind] in H. injection H as <-. split; [exact I|reflexivity].
  Qed.
  Lemma loads_are_projects : forall f dirs l p, load_projects project_table f dirs = Ok l -> In p l -> in_project p /\ In (place_of p) dirs.
  Proof.
    induction dirs as [|x r IH]; intros l p H I; cbn in H; [injection H as <-; contradiction|]. destruct (load_project _ _ _ _) as [q|e] eqn:Q; [|discriminate]. cbn [bind] in H.
    destruct (load_projects project_table f r) as [qs|e]; [|discriminate]. cbn [bind] in H. injection H as <-. destruct (load_is_project _ _ _ _ Q) as [A B]. destruct I as [<-|I]; [split; [exact A|left; symmetry; exact B]|].
    destruct (IH qs p eq_refl I) as [C D]. split; [exact C|right; exact D].
  Qed.
  Lemma built : forall f dir packages, is_dir f dir = true -> build_local f dir = Ok packages ->
    exists projects l, distributions f dir (SharedModel.children f dir) = Ok l /\ (forall p, In p projects -> in_project p) /\
      forall k, offered packages k = filter (fun p => str_eqb k (name_of p)) (projects ++ l).
  Proof.
    intros f dir packages D H. unfold LocalModel.build_local in H. rewrite D in H.
    assert (G : forall projects, (forall p, In p projects -> in_project p) -> (do names <- SharedModel.iterdir f dir; add_distributions f dir names (fold_left add_package projects [])) = Ok packages ->
      exists projects l, distributions f dir (SharedModel.children f dir) = Ok l /\ (forall p, In p projects -> in_project p) /\ forall k, offered packages k = filter (fun p => str_eqb k (name_of p)) (projects ++ l)).
    { intros projects PP R. unfold SharedModel.iterdir in R. rewrite D in R. cbn [bind] in R. rewrite add_distributions_all in R. destruct (distributions f dir (SharedModel.children f dir)) as [l|e]; [|discriminate]. cbn [bind] in R. injection R as <-.
      exists projects, l. split; [reflexivity|]. split; [exact PP|]. intro k. change (offered (fold_left add_package l (fold_left add_package projects [])) k) with (entries (fold_left add_package l (fold_left add_package projects [])) k).
      rewrite !add_all, filter_app. reflexivity. }
    destruct (exists_at f _).
    - destruct (group_projects f dir) as [dirs|e]; [|discriminate]. cbn [bind] in H. destruct (load_projects project_table f dirs) as [ps|e] eqn:P; [|discriminate]. cbn [bind] in H.
      apply (G ps); [|exact H]. intros p I. exact (proj1 (loads_are_projects f dirs ps p P I)).
    - destruct (load_project project_table f dir (hd [] dir)) as [x|e] eqn:X.
      + cbn [bind] in H. apply (G [x]); [|exact H]. intros p [<-|[]]. exact (proj1 (load_is_project _ _ _ _ X)).
      + destruct e; try discriminate. cbn [bind] in H. apply (G []); [intros p []|exact H].
  Qed.
  Lemma is_distribution_file : forall f n dir, is_distribution f (n :: dir) = true <-> is_dir f (n :: dir) = false /\ ((exists b, n = b ++ lit ".tar.gz") \/ exists b, n = b ++ lit ".whl").
  Proof.
    intros f n dir. unfold is_distribution, has_dist_suffix, endswith_any, dist_suffixes. cbn [hd find]. rewrite andb_true_iff, negb_true_iff. rewrite <- !ends_with_app.
    destruct (ArtifactModel.ends_with (lit ".tar.gz") n), (ArtifactModel.ends_with (lit ".whl") n); cbn; intuition discriminate.
  Qed.
  (** every wheel and every source distribution of a directory is offered, once, under the name that its file name gives *)
  Theorem C145_every : forall f dir packages n content, build_local f dir = Ok packages -> is_dir f dir = true -> lookup f (n :: dir) = Some (File content) ->
    (exists b, n = b ++ lit ".tar.gz") \/ (exists b, n = b ++ lit ".whl") ->
    exists p d, from_dist_name n = Ok d /\ descriptor_of p = d /\ place_of p = n :: dir /\
      filter (fun q => path_eqb (place_of q) (n :: dir) && match q with Project _ _ _ => false | _ => true end) (offered packages (n_name d)) = [p].
  Proof.
    intros f dir packages n content B D L S. destruct (built f dir packages D B) as (projects & l & Dl & PP & O).
    assert (ID : is_distribution f (n :: dir) = true) by (apply is_distribution_file; split; [unfold is_dir; rewrite L; reflexivity|exact S]).
    assert (IN : In n (SharedModel.children f dir)) by (apply SharedProofs.children_in; rewrite L; discriminate).
    destruct (distributions_has _ _ _ _ _ Dl IN ID) as (p & Ip & Pp). destruct (package_place _ _ _ Pp) as (X1 & X2 & X3).
    exists p, (descriptor_of p). split; [exact X2|]. split; [reflexivity|]. split; [exact X1|]. rewrite O, filter_app, filter_app.
    assert (Z : filter (fun q => path_eqb (place_of q) (n :: dir) && match q with Project _ _ _ => false | _ => true end) (filter (fun q => str_eqb (n_name (descriptor_of p)) (name_of q)) projects) = []).
    { clear -PP. induction projects as [|q r IH]; [reflexivity|]. cbn [filter]. assert (R := IH (fun x I => PP x (or_intror I))). destruct (str_eqb _ _); [|exact R]. cbn [filter].
      pose proof (PP q (or_introl eq_refl)) as Q. destruct q; [rewrite andb_false_r; exact R|contradiction|contradiction]. }
    rewrite Z. cbn [app].
    pose proof (distributions_places _ _ _ _ Dl) as PL. pose proof (SharedProofs.children_nodup f dir) as ND.
    assert (NP : NoDup (map place_of l)).
    { rewrite PL. apply FinFun.Injective_map_NoDup; [intros a b E; injection E; auto|]. apply NoDup_filter. exact ND. }
    clear -Ip X1 X3 NP. assert (NPr : match p with Project _ _ _ => false | _ => true end = true) by (destruct p as [a b c|a b|a b]; [exfalso; exact (X3 a b c eq_refl)|reflexivity|reflexivity]).
    induction l as [|q r IH]; [contradiction|]. cbn [map] in NP. inversion NP as [|? ? NI ND]; subst. cbn [filter]. destruct Ip as [->|Ip].
    - unfold name_of at 1. rewrite str_eqb_refl. cbn [filter]. assert (PE : path_eqb (place_of p) (n :: dir) = true) by (rewrite X1; apply path_eqb_refl). rewrite PE, NPr. cbn [andb].
      assert (R : forall z, ~ In (place_of p) (map place_of z) -> filter (fun q => path_eqb (place_of q) (n :: dir) && match q with Project _ _ _ => false | _ => true end) (filter (fun q => str_eqb (n_name (descriptor_of p)) (name_of q)) z) = []).
      { intro z. induction z as [|y s IHs]; intro N; [reflexivity|]. cbn [filter]. assert (RS := IHs (fun I => N (or_intror I))). destruct (str_eqb _ _); [|exact RS]. cbn [filter]. destruct (path_eqb (place_of y) (n :: dir)) eqn:E; [|exact RS].
        exfalso. apply N. left. rewrite X1. apply path_eqb_eq. exact E. }
      rewrite (R r NI). reflexivity.
    - assert (E : path_eqb (place_of q) (n :: dir) = false).
      { destruct (path_eqb (place_of q) (n :: dir)) eqn:E; [|reflexivity]. exfalso. apply NI. apply path_eqb_eq in E. rewrite E, <- X1. apply in_map. exact Ip. }
      destruct (str_eqb _ _); [cbn [filter]; rewrite E; cbn [andb]|]; exact (IH Ip ND).
  Qed.
  (** so is every project of a group *)
  Theorem C145_group : forall f dir dirs packages d, build_local f dir = Ok packages -> is_dir f dir = true -> exists_at f (lit "pyproject-group.toml" :: dir) = true -> group_projects f dir = Ok dirs -> In d dirs ->
    exists p, load_project project_table f d (hd [] d) = Ok p /\ In p (offered packages (name_of p)).
  Proof.
    intros f dir dirs packages d B D G Q I. unfold LocalModel.build_local in B. rewrite D, G, Q in B. cbn [bind] in B. destruct (load_projects project_table f dirs) as [ps|e] eqn:P; [|discriminate]. cbn [bind] in B.
    unfold SharedModel.iterdir in B. rewrite D in B. cbn [bind] in B. rewrite add_distributions_all in B. destruct (distributions f dir (SharedModel.children f dir)) as [l|e]; [|discriminate]. cbn [bind] in B. injection B as <-.
    assert (L : exists p, load_project project_table f d (hd [] d) = Ok p /\ In p ps).
    { clear -P I. revert ps P I. induction dirs as [|x r IH]; intros ps P I; [destruct I|]. cbn in P. destruct (load_project project_table f x (hd [] x)) as [q|e] eqn:E; [|discriminate]. cbn [bind] in P. destruct (load_projects project_table f r) as [qs|e]; [|discriminate]. cbn [bind] in P. injection P as <-.
      destruct I as [->|I]; [exists q; split; [exact E|left; reflexivity]|]. destruct (IH qs eq_refl I) as (p & A & C). exists p. split; [exact A|right; exact C]. }
    destruct L as (p & A & C). exists p. split; [exact A|]. change (In p (entries (fold_left add_package l (fold_left add_package ps [])) (name_of p))). rewrite !add_all. apply in_or_app. left. apply in_or_app. right. apply filter_In. split; [exact C|apply str_eqb_refl].
  Qed.
  (** a path that is itself a distribution gives exactly this one *)
  Theorem C145_single : forall f dir n packages k, build_local f (n :: dir) = Ok packages -> is_dir f (n :: dir) = false ->
    if has_dist_suffix n then exists p, place_of p = n :: dir /\ from_dist_name n = Ok (descriptor_of p) /\ offered packages k = if str_eqb k (name_of p) then [p] else []
    else packages = [].
  Proof.
    intros f dir n packages k B D. unfold LocalModel.build_local in B. rewrite D in B. unfold is_distribution in B. rewrite D in B. cbn [negb andb hd] in B. destruct (has_dist_suffix n); [|injection B as <-; reflexivity].
    destruct (package_from (n :: dir) n) as [p|e] eqn:P; [|discriminate]. cbn [bind] in B. injection B as <-. destruct (package_place _ _ _ P) as (A & C & _). exists p. split; [exact A|]. split; [exact C|].
    unfold offered, add_package. cbn [dict_get app dict_set]. destruct (str_eqb k (name_of p)); reflexivity.
  Qed.
  (** what is offered under a name has this name, and is a project or a distribution file of the directory *)
  Theorem C145_only : forall f dir packages k p, build_local f dir = Ok packages -> is_dir f dir = true -> In p (offered packages k) ->
    name_of p = k /\ (in_project p \/ exists n, place_of p = n :: dir /\ exists_at f (n :: dir) = true /\ is_dir f (n :: dir) = false /\ from_dist_name n = Ok (descriptor_of p) /\
      ((exists b, n = b ++ lit ".tar.gz") \/ exists b, n = b ++ lit ".whl")).
  Proof.
    intros f dir packages k p B D I. destruct (built f dir packages D B) as (projects & l & Dl & PP & O). rewrite O in I. apply filter_In in I. destruct I as [I N]. apply str_eqb_eq in N. split; [symmetry; exact N|].
    apply in_app_or in I. destruct I as [I|I]; [left; exact (PP p I)|]. right. destruct (distributions_in _ _ _ _ _ Dl I) as (n & In' & ID & Pp). destruct (package_place _ _ _ Pp) as (X1 & X2 & _). apply is_distribution_file in ID. destruct ID as [D1 D2].
    exists n. split; [exact X1|]. split; [apply SharedProofs.children_in in In'; unfold exists_at; destruct (lookup f (n :: dir)); [reflexivity|contradiction In'; reflexivity]|]. split; [exact D1|]. split; [exact X2|exact D2].
  Qed.
  (** the answer of a repository: what is offered, allowed and usable; pre-releases only when they were asked for or nothing else is left *)
  Definition can_use (tag_fits : str -> bool) (interpreter : version) (d : dep) (p : package) : Prop := allows (d_spec d) (version_of p) = true /\
    match p with Project _ _ c => allows (c_python c) interpreter = true | Wheel file _ => tag_fits (ArtifactModel.tags_of (hd [] file)) = true | Sdist _ _ => True end.
  Theorem C145_answer : forall tag_fits interpreter packages d l, local_match tag_fits interpreter packages d = Ok l -> let usable := can_use tag_fits interpreter in
    (forall p, In p l -> In p (offered packages (d_name d)) /\ usable d p) /\
    (forall p, In p (offered packages (d_name d)) -> usable d p -> allows_pre_or_dev (d_spec d) = true \/ is_pre_or_dev_release (version_of p) = false -> In p l) /\
    (l = [] -> forall p, In p (offered packages (d_name d)) -> ~ usable d p) /\
    (Forall (fun p => IndexProofs.orderly (version_of p)) (offered packages (d_name d)) -> ForallOrdPairs (fun a b => version_ltb (version_of a) (version_of b) = false) l).
  Proof.
    intros tag_fits interpreter packages d l M usable. unfold LocalModel.local_match, match_with, local_do_match in M. cbn [bind] in M. fold (offered packages (d_name d)) in M.
    set (F := filter (fun p => allows (d_spec d) (version_of p)) (offered packages (d_name d))) in *. set (S := IndexModel.sorted_by_version version_of F) in *. set (C := filter (is_compatible tag_fits interpreter) S) in *.
    assert (HC : forall p, In p C <-> In p (offered packages (d_name d)) /\ usable d p).
    { intro p. unfold C. rewrite filter_In. assert (PS : In p S <-> In p F) by (split; apply Permutation_in; [apply IndexProofs.sort_perm|apply Permutation_sym; apply IndexProofs.sort_perm]). rewrite PS. unfold F. rewrite filter_In. unfold usable, can_use. destruct p; cbn [is_compatible]; tauto. }
    assert (HL : forall p, In p l -> In p C). { intros p I. injection M as <-. unfold filter_prereleases in I. destruct (allows_pre_or_dev (d_spec d)); [exact I|]. destruct (filter (fun p => negb (is_pre_or_dev_release (version_of p))) C) as [|y r] eqn:E; [exact I|]. rewrite <- E in I. apply filter_In in I. tauto. }
    split; [intros p I; apply HC; apply HL; exact I|]. split; [|split].
    - intros p I U W. assert (K : In p C) by (apply HC; split; assumption). injection M as <-. unfold filter_prereleases. destruct (allows_pre_or_dev (d_spec d)); [exact K|]. destruct W as [W|W]; [discriminate|].
      assert (K2 : In p (filter (fun p => negb (is_pre_or_dev_release (version_of p))) C)) by (apply filter_In; split; [exact K|rewrite W; reflexivity]). destruct (filter (fun p => negb (is_pre_or_dev_release (version_of p))) C) eqn:E; [contradiction|exact K2].
    - intros -> p I U. assert (K : In p C) by (apply HC; split; assumption). injection M as M. unfold filter_prereleases in M. destruct (allows_pre_or_dev (d_spec d)); [rewrite M in K; contradiction|].
      destruct (filter (fun p => negb (is_pre_or_dev_release (version_of p))) C) eqn:E; [rewrite M in K; contradiction|discriminate].
    - intro O. assert (FP : forall A (R : A -> A -> Prop) (g : A -> bool) x, ForallOrdPairs R x -> ForallOrdPairs R (filter g x)).
      { intros A R g x H. induction H as [|a x Ha H IH]; [constructor|]. cbn. destruct (g a); [|exact IH]. constructor; [|exact IH]. apply Forall_forall. intros y I. apply filter_In in I. rewrite Forall_forall in Ha. apply Ha. tauto. }
      assert (SS : ForallOrdPairs (fun a b => version_ltb (version_of a) (version_of b) = false) S).
      { apply (IndexProofs.sort_sorted version_of F). apply Forall_forall. intros p I. rewrite Forall_forall in O. apply O. apply filter_In in I. tauto. }
      injection M as <-. unfold filter_prereleases. destruct (allows_pre_or_dev (d_spec d)); [apply FP; exact SS|]. destruct (filter (fun p => negb (is_pre_or_dev_release (version_of p))) C) eqn:E; [apply FP; exact SS|]. rewrite <- E. apply FP. apply FP. exact SS.
  Qed.

  (** ** C147 *)
  (** the repository can be used when every distribution file has a proper name and the project, if there is one, can be read.
      Missing: other names, for which it is false. *)
  Theorem C147_usable_partial : forall f dir x, is_dir f dir = true -> exists_at f (lit "pyproject-group.toml" :: dir) = false -> load_project project_table f dir (hd [] dir) = Ok x ->
    (forall n, exists_at f (n :: dir) = true -> is_dir f (n :: dir) = false -> (exists b, n = b ++ lit ".tar.gz") \/ (exists b, n = b ++ lit ".whl") ->
       exists name v, escaped name /\ wf_sv v /\ (label_wf v /\ (exists tags, n = name ++ lit "-" ++ sv_str v ++ lit "-" ++ tags) \/ local_label v = None /\ n = name ++ lit "-" ++ sv_str v ++ lit ".tar.gz")) ->
    exists packages, build_local f dir = Ok packages.
  Proof.
    intros f dir x D G X N. unfold LocalModel.build_local. rewrite D, G, X. cbn [bind]. unfold SharedModel.iterdir. rewrite D. cbn [bind]. rewrite add_distributions_all.
    destruct (distributions_ok f dir (SharedModel.children f dir)) as (l & L); [|rewrite L; cbn [bind]; eauto]. intros n I Z. apply is_distribution_file in Z. destruct Z as [Z1 Z2].
    destruct (N n) as (name & v & E & W & [(LW & tags & ->)|(LN & ->)]); [apply SharedProofs.children_in in I; unfold exists_at; destruct (lookup f (n :: dir)); [reflexivity|contradiction I; reflexivity]|exact Z1|exact Z2| |].
    - eexists. apply C148_wheel; assumption.
    - eexists. apply C148_sdist_partial; assumption.
  Qed.
End Directory.
Definition no_group (f : fs) (p : path) : res (list path) := Ok [].
Definition sample_build := build_local sample_table no_group.
Definition sample_find (f : fs) (dir : path) (name : str) : res (list package) := do packages <- sample_build f dir; local_match pure py39 packages (Dep name AllowAll None None).
Definition v1 : version := VStd (sv_of [1%N; 0%N]).
Definition store : fs :=
  [([], Dir); ([lit "wheels"], Dir); ([whl (lit "my_lib"); lit "wheels"], File "zip"); ([lit "my_lib-2.0.tar.gz"; lit "wheels"], File "tar"); ([lit "my_lib-3.0rc1.tar.gz"; lit "wheels"], File "tar");
   ([whl (lit "other"); lit "wheels"], File "zip"); ([lit "notes.txt"; lit "wheels"], File "text"); ([lit "old.whl"; lit "wheels"], Dir)].
Example C145_sample : sample_find store [lit "wheels"] "my-lib" =
  Ok [Sdist [lit "my_lib-2.0.tar.gz"; lit "wheels"] (Desc "my-lib" (VStd (sv_of [2%N; 0%N]))); Wheel [whl (lit "my_lib"); lit "wheels"] (Desc "my-lib" v1)] /\
  (exists packages, sample_build store [lit "wheels"] = Ok packages /\ length (offered packages "my-lib") = 3).
Proof. split; [vm_compute; reflexivity|]. eexists. split; [vm_compute; reflexivity|vm_compute; reflexivity]. Qed.
Example C145_single_sample : exists packages, sample_build store [whl (lit "other"); lit "wheels"] = Ok packages /\ offered packages "other" = [Wheel [whl (lit "other"); lit "wheels"] (Desc "other" v1)].
Proof. eexists. split; vm_compute; reflexivity. Qed.
Example C145_group_sample : exists packages, build_local sample_table (fun _ _ => Ok [[lit "a"; lit "src"]]) (([lit "pyproject-group.toml"; lit "src"], File "") :: disk) [lit "src"] = Ok packages /\ length (offered packages "small") = 1.
Proof. eexists. split; vm_compute; reflexivity. Qed.
Example C143_none_sample : sample_match disk (Dep "small" AllowAll None None) = Ok [].
Proof. vm_compute. reflexivity. Qed.

(** ** C146 *)
(** the name of the wheel in the store is my_lib; only one of its spellings is found *)
Theorem C146_spelling_refuted : package_name_key "my_lib" = package_name_key "my-lib" /\ package_name_key "My-Lib" = package_name_key "my-lib" /\ package_name_key "my.lib" = package_name_key "my-lib" /\
  sample_find store [lit "wheels"] "my_lib" = Ok [] /\ sample_find store [lit "wheels"] "My-Lib" = Ok [] /\ sample_find store [lit "wheels"] "my.lib" = Ok [] /\ sample_find store [lit "wheels"] "my-lib" <> Ok [].
Proof. do 6 (split; [vm_compute; reflexivity|]). vm_compute. discriminate. Qed.
(** the spelling with dashes finds what the store has.  Missing: all other spellings. *)
Theorem C146_found_partial : forall project_table group_projects tag_fits interpreter f dir packages name v tags content l,
  build_local project_table group_projects f dir = Ok packages -> is_dir f dir = true -> escaped name -> wf_sv v -> label_wf v ->
  lookup f ((name ++ lit "-" ++ sv_str v ++ lit "-" ++ tags ++ lit ".whl") :: dir) = Some (File content) ->
  tag_fits (ArtifactModel.tags_of (name ++ lit "-" ++ sv_str v ++ lit "-" ++ tags ++ lit ".whl")) = true ->
  is_pre_or_dev_release (VStd v) = false ->
  local_match tag_fits interpreter packages (Dep (dashes name) AllowAll None None) = Ok l ->
  exists p, In p l /\ place_of p = (name ++ lit "-" ++ sv_str v ++ lit "-" ++ tags ++ lit ".whl") :: dir /\ version_of p = VStd v.
Proof.
  intros project_table group_projects tag_fits interpreter f dir packages name v tags content l B D E W L K T R M. set (n := name ++ lit "-" ++ sv_str v ++ lit "-" ++ tags ++ lit ".whl") in *.
  assert (S : exists b, n = b ++ lit ".whl") by (exists (name ++ lit "-" ++ sv_str v ++ lit "-" ++ tags); unfold n; rewrite <- !app_assoc; reflexivity).
  destruct (C145_every _ _ f dir packages n content B D K (or_intror S)) as (p & d & F & Dp & Pl & Fl).
  assert (FD : d = Desc (dashes name) (VStd v)) by (pose proof (C148_wheel name v (tags ++ lit ".whl") E W L) as X; assert (Y := eq_trans (eq_sym F) X); injection Y; auto).
  assert (I : In p (offered packages (dashes name))).
  { subst d. rewrite FD in Fl. cbn [n_name] in Fl. assert (J : In p [p]) by (left; reflexivity). rewrite <- Fl in J. apply filter_In in J. tauto. }
  assert (V : version_of p = VStd v) by (unfold version_of; rewrite Dp, FD; reflexivity).
  assert (IF : forall q, In q [p] -> match q with Project _ _ _ => false | _ => true end = true).
  { intros q J. rewrite <- Fl in J. apply filter_In in J. destruct J as [_ J]. apply andb_true_iff in J. tauto. }
  exists p. split; [|split; [exact Pl|exact V]]. apply (C145_answer tag_fits interpreter packages _ l M).
  - exact I.
  - split; [reflexivity|]. specialize (IF p (or_introl eq_refl)). destruct p as [a b c|a b|a b]; [discriminate| |reflexivity]. cbn [place_of] in Pl. cbn [is_compatible]. subst a. exact T.
  - right. rewrite V. exact R.
Qed.

(** ** C147 *)
(** one file with another name spoils the repository *)
Theorem C147_spoiled_refuted : sample_find (([lit "backup.whl"; lit "wheels"], File "zip") :: store) [lit "wheels"] "my-lib" = Err IndexError.
Proof. vm_compute. reflexivity. Qed.
Example C147_sample : exists x, load_project sample_table store [lit "wheels"] "wheels" = Ok x.
Proof. eexists. vm_compute. reflexivity. Qed.

(** ** C149 *)
(** a directory without a project is a project nevertheless *)
Theorem C149_made_up_refuted : lookup store [lit "pyproject.toml"; lit "wheels"] = None /\
  sample_find store [lit "wheels"] "wheels" = Ok [Project [lit "wheels"] (Desc "wheels" (VNamed "unknown_version")) (legacy_config "wheels" (VNamed "unknown_version"))].
Proof. split; vm_compute; reflexivity. Qed.
(** it has the name of the directory and no proper version, so no range with a lower bound allows it.
    Missing: the others do. *)
Theorem C149_bounds_partial : forall project_table f dir name p, lookup f (lit "pyproject.toml" :: dir) = None -> load_project project_table f dir name = Ok p ->
  version_of p = VNamed "unknown_version" /\ forall lo hi il ih, allows (Range (Some lo) hi il ih) (version_of p) = false.
Proof.
  intros project_table f dir name p L H. unfold load_project, load_config in H. rewrite L in H. cbn [bind] in H.
  assert (P : parse_version "unknown_version" = Ok (VNamed "unknown_version")) by (vm_compute; reflexivity). rewrite P in H. cbn [bind legacy_config c_name] in H. destruct (normalize_name name) as [n|e]; [|discriminate]. cbn [bind c_name c_version] in H.
  unfold make_descriptor in H. destruct (descriptor_name n) as [x|e]; [|discriminate]. cbn [bind] in H. assert (Q : p = Project dir (Desc x (VNamed "unknown_version")) (Config (Some n) (Some (VNamed "unknown_version")) AllowAll legacy_dynamic [] [])) by (symmetry; injection H; auto). subst p. clear H.
  split; [reflexivity|]. intros lo [hi|] [] []; vm_compute; reflexivity.
Qed.
Example C149_sample : exists p, load_project sample_table store [lit "wheels"] "wheels" = Ok p /\ lookup store [lit "pyproject.toml"; lit "wheels"] = None.
Proof. eexists. split; [vm_compute; reflexivity|vm_compute; reflexivity]. Qed.

(** ** C150 *)
(** the dependencies of a project are those that it declares, or that its build gives when it declares them dynamic, as far as they
    apply *)
Theorem C150_project : forall built_dependencies env as_uri dir d c extras l, dependencies built_dependencies env as_uri (Project dir d c) extras = Ok l ->
  exists all, (if existsb (str_eqb (lit "dependencies")) (c_dynamic c) || existsb (str_eqb (lit "optional-dependencies")) (c_dynamic c)
               then built_dependencies dir = Ok all else ProjectModel.all_dependencies (c_dependencies c) (c_optional c) = Ok all) /\
  forall x, In x l <-> In x all /\ is_applicable_for as_uri x env extras = Ok true.
Proof.
  intros built_dependencies env as_uri dir d c extras l H. cbn [dependencies] in H.
  assert (G : forall all l, applicable env as_uri all extras = Ok l -> forall x, In x l <-> In x all /\ is_applicable_for as_uri x env extras = Ok true).
  { induction all as [|y r IH]; intros z Z x; cbn [applicable] in Z; [injection Z as <-; cbn; tauto|]. destruct (is_applicable_for as_uri y env extras) as [b|e] eqn:A; [|discriminate]. cbn [bind] in Z.
    destruct (applicable env as_uri r extras) as [ds|e] eqn:R; [|discriminate]. cbn [bind] in Z. injection Z as <-. specialize (IH ds eq_refl x). destruct b.
    - cbn [In]. rewrite IH. split; [intros [<-|[I J]]; [split; [left; reflexivity|exact A]|split; [right; exact I|exact J]]|intros [[<-|I] J]; [left; reflexivity|right; split; assumption]].
    - rewrite IH. cbn [In]. split; [intros [I J]; split; [right; exact I|exact J]|intros [[<-|I] J]; [rewrite A in J; discriminate|split; assumption]]. }
  destruct (_ || _).
  - destruct (built_dependencies dir) as [all|e]; [|discriminate]. cbn [bind] in H. exists all. split; [reflexivity|exact (G all l H)].
  - destruct (ProjectModel.all_dependencies _ _) as [all|e]; [|discriminate]. cbn [bind] in H. exists all. split; [reflexivity|exact (G all l H)].
Qed.
(** those of a distribution file can never be had *)
Theorem C150_distribution_refuted : forall built_dependencies env as_uri p extras, ~ in_project p -> dependencies built_dependencies env as_uri p extras = Err AttributeError.
Proof. intros built_dependencies env as_uri [dir d c|file d|file d] extras N; [contradiction N; exact I|reflexivity|reflexivity]. Qed.
Example C150_sample : dependencies (fun _ => Err OtherErr) [] (fun x => x)
    (Project [lit "a"] (Desc "a" v1) (Config (Some (lit "a")) (Some v1) AllowAll [] [Dep "b" AllowAll None None; Dep "c" AllowAll None None] [])) [] = Ok [Dep "b" AllowAll None None; Dep "c" AllowAll None None] /\
  (exists p, sample_match disk (at_url "my-lib" (lit "file:///wheels/" ++ whl (lit "my_lib"))) = Ok [p] /\ ~ in_project p).
Proof. split; [vm_compute; reflexivity|]. eexists. split; [vm_compute; reflexivity|]. exact (fun H => H). Qed.

(** ** C151 *)
(** a url dependency means one package with the name that was asked for, whose only file is the one that the url names; other
    dependencies mean none *)
Theorem C151_one_partial : forall tag_fits name u repo scheme ex mk p, escaped name -> url_parse u = Ok p ->
  exists k, k_descriptor k = Desc (dashes name) (VUrl u repo scheme) /\ k_url k = u /\
    (forall dir file, u_path p = dir ++ lit "/" ++ file -> ~ In "/"%char file -> file <> [] -> file <> lit "." -> k_artifact k = file) /\
    url_match tag_fits (Dep name (Match (VUrl u repo scheme) true) ex mk) = Ok [k] \/
    url_match tag_fits (Dep name (Match (VUrl u repo scheme) true) ex mk) = Ok [] /\ exists b, last (GitModel.components (u_path p)) [] = b ++ lit ".whl" /\ tag_fits (ArtifactModel.tags_of (b ++ lit ".whl")) = false.
Proof.
  intros tag_fits name u repo scheme ex mk p E P. exists (UrlPackage (Desc (dashes name) (VUrl u repo scheme)) (last (GitModel.components (u_path p)) []) u). unfold url_match, url_do_match. cbn [d_spec d_name]. rewrite (escaped_descriptor name _ E), P. cbn [bind filter].
  unfold url_fits. cbn [k_artifact].
  assert (A : forall dir file, u_path p = dir ++ lit "/" ++ file -> ~ In "/"%char file -> file <> [] -> file <> lit "." -> last (GitModel.components (u_path p)) [] = file).
  { intros dir file Q N N1 N2. rewrite Q. unfold GitModel.components. change (dir ++ lit "/" ++ file) with (dir ++ "/"%char :: file).
    assert (S : forall a, exists l, split_on "/" (a ++ "/"%char :: file) = l ++ [file]).
    { induction a as [|c a IH]; [exists [[]]; cbn [app]; pose proof (split_on_app "/" [] file (fun x => x)) as Z; cbn [app] in Z; rewrite Z, split_on_single by exact N; reflexivity|].
      cbn [app split_on]. destruct IH as (l & IH). destruct (Ascii.eqb c "/"); [exists ([] :: l); rewrite IH; reflexivity|]. rewrite IH. destruct l as [|w l]; [|exists ((c :: w) :: l); reflexivity].
      exfalso. cbn [app] in IH. pose proof (split_on_no_char "/" (a ++ "/"%char :: file)) as W. assert (LL : length (split_on "/" (a ++ "/"%char :: file)) >= 2).
      { clear. induction a as [|c a IH]; [cbn [app]; pose proof (split_on_app "/" [] file (fun x => x)) as Z; cbn [app] in Z; rewrite Z; cbn; pose proof (split_on_nonempty "/" file); destruct (split_on "/" file); [contradiction H; reflexivity|cbn; lia]|].
        cbn [app split_on]. destruct (Ascii.eqb c "/"); [cbn; lia|]. destruct (split_on "/" (a ++ "/"%char :: file)); cbn in *; lia. }
      rewrite IH in LL. cbn in LL. lia. }
    destruct (S dir) as (l & ->). rewrite filter_app. cbn [filter]. assert (B : negb (str_eqb file "") && negb (str_eqb file ".") = true).
    { apply andb_true_iff. split; apply negb_true_iff; apply Bool.not_true_iff_false; intro X; apply str_eqb_eq in X; [exact (N1 X)|exact (N2 X)]. }
    rewrite B. apply last_last. }
  destruct (ArtifactModel.ends_with (lit ".whl") (last (GitModel.components (u_path p)) [])) eqn:W.
  - destruct (tag_fits _) eqn:G.
    + left. split; [reflexivity|]. split; [reflexivity|]. split; [exact A|reflexivity].
    + right. split; [reflexivity|]. apply ends_with_app in W. destruct W as (b & W). exists b. rewrite W in G. split; [exact W|exact G].
  - left. split; [reflexivity|]. split; [reflexivity|]. split; [exact A|reflexivity].
Qed.
Theorem C151_none : forall tag_fits d, (forall u r s, d_spec d <> Match (VUrl u r s) true) -> url_match tag_fits d = Ok [].
Proof.
  intros tag_fits [n s ex mk] H. unfold url_match, url_do_match. cbn [d_spec] in *. destruct s as [ | |sl|bl sp|v b|mn mx im ix]; try reflexivity. destruct v as [u r sc|x|x] eqn:EV; try (destruct b; reflexivity). destruct b; [|reflexivity]. exfalso. exact (H _ _ _ eq_refl).
Qed.
(** what is fetched is not what was asked for *)
Theorem C151_case_refuted : exists k, url_match pure (at_url "mylib" "https://files.example/Get/MyLib-1.0-py3-none-any.whl") = Ok [k] /\ k_url k = lit "https://files.example/get/mylib-1.0-py3-none-any.whl".
Proof. eexists. split; [vm_compute; reflexivity|vm_compute; reflexivity]. Qed.
Example C151_sample : exists k, url_match pure (at_url "mylib" "https://files.example/get/mylib-1.0-py3-none-any.whl") = Ok [k] /\ k_artifact k = lit "mylib-1.0-py3-none-any.whl" /\ n_name (k_descriptor k) = lit "mylib".
Proof. eexists. split; [vm_compute; reflexivity|]. split; vm_compute; reflexivity. Qed.
Print Assumptions C148_wheel.
Print Assumptions C148_sdist_partial.
Print Assumptions C148_local_refuted.
Print Assumptions C148_dash_refuted.
Print Assumptions C143_place_partial.
Print Assumptions C143_project_partial.
Print Assumptions C143_wheel_partial.
Print Assumptions C143_case_refuted.
Print Assumptions C144_name_refuted.
Print Assumptions C144_missing_refuted.
Print Assumptions C143_none.
Print Assumptions C145_group.
Print Assumptions C145_single.
Print Assumptions C145_every.
Print Assumptions C145_only.
Print Assumptions C145_answer.
Print Assumptions C147_usable_partial.
Print Assumptions C146_spelling_refuted.
Print Assumptions C146_found_partial.
Print Assumptions C147_spoiled_refuted.
Print Assumptions C149_made_up_refuted.
Print Assumptions C149_bounds_partial.
Print Assumptions C150_project.
Print Assumptions C150_distribution_refuted.
Print Assumptions C151_one_partial.
Print Assumptions C151_none.
Print Assumptions C151_case_refuted.
