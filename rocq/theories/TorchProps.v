(** Properties of the repository of the builds for cuda (C197, C198) *)
From Coq Require Import List Bool NArith Ascii String Arith Lia Permutation.
From Verif Require Import Base BaseFacts VersionModel VersionSpec VersionParse VersionParserProofs VersionProofs VersionProps SpecifierModel SpecParse SpecifierSpec SpecParseSpec SpecParseProofs SpecifierProps
  HtmlModel HtmlProofs TorchModel TorchProofs.
Import ListNotations.
Open Scope string_scope. Open Scope nat_scope. Open Scope list_scope. Open Scope bool_scope.

(** ** C197: the table of the versions of cuda *)
Definition cell (t : str) : tree := Node (lit "td") [] [Text t].
(** a row of three cells is read as the version in the second word of the first and the drivers of the others *)
Theorem C197_row : forall as_uri a w name rest linux windows v l m,
  ~ In " "%char w -> ~ In " "%char name -> (rest = [] \/ exists r, rest = " "%char :: r) ->
  parse_version name = Ok v -> parse_specifier as_uri linux = Ok l -> parse_specifier as_uri windows = Ok m ->
  row_spec as_uri (dom_of (Node (lit "tr") a [cell (w ++ " "%char :: name ++ rest); cell linux; cell windows])) = Ok (Cuda v l m).
Proof.
  intros as_uri a w name rest linux windows v l m W N R V L M.
  assert (C : forall t, data (dom_of (cell t)) = Ok t) by (intros t; transitivity (Ok (t ++ [])); [reflexivity|f_equal; apply app_nil_r]).
  unfold row_spec. cbn [dom_of map e_children].
  set (t0 := w ++ " "%char :: name ++ rest).
  change (columns [dom_of (cell t0); dom_of (cell linux); dom_of (cell windows)]) with
    (do d <- data (dom_of (cell t0)); do ds <- (do d1 <- data (dom_of (cell linux)); do ds1 <- (do d2 <- data (dom_of (cell windows)); do ds2 <- Ok []; Ok (d2 :: ds2)); Ok (d1 :: ds1)); Ok (d :: ds)).
  rewrite !C. cbn [bind get nth_error].
  assert (S1 : nth_error (split_on " "%char t0) 1 = Some name).
  { unfold t0. rewrite split_on_app by exact W. cbn [nth_error]. destruct R as [->|(r & ->)]; [rewrite app_nil_r, split_on_single by exact N; reflexivity|rewrite split_on_app by exact N; reflexivity]. }
  unfold get. rewrite S1. cbn [bind nth_error]. rewrite V. cbn [bind]. rewrite L. cbn [bind]. rewrite M. reflexivity.
Qed.
(** a page that is not there, or whose elements are not well nested, changes nothing: the table is the known one *)
Theorem C197_backup : forall as_uri page file writable, (forall evs, page = Ok evs -> forall d, parse evs <> Ok d) ->
  load_file as_uri page file writable = (from_configs as_uri file, file).
Proof.
  intros as_uri page file writable H. unfold load_file, page_specs. destruct page as [evs|]; [|reflexivity]. cbn [bind]. destruct (parse evs) as [d|] eqn:P; [|reflexivity]. exfalso. exact (H evs eq_refl d P).
Qed.
(** what was learned of a page is still known when the page cannot be read later *)
Definition keeps (c : cuda_spec) : Prop := (exists v, k_version c = VStd v /\ wf_sv v /\ label_wf v) /\ printable (k_linux c) /\ printable (k_windows c).
Theorem C197_remembered_partial : forall as_uri page file table, load_file as_uri page file true = (Ok table, map to_config table) -> Forall keeps table ->
  forall e writable, load_file as_uri (Err e) (snd (load_file as_uri page file true)) writable = (Ok table, map to_config table).
Proof.
  intros as_uri page file table L F e writable. rewrite L. cbn [snd]. unfold load_file at 1. cbn [page_specs bind]. f_equal. clear L. induction F as [|c cs K _ IH]; [reflexivity|].
  cbn [map from_configs]. destruct c as [v l w]. destruct K as ((s & E & W & B) & PL & PW). cbn [k_version k_linux k_windows] in *. subst v.
  unfold from_config, to_config. cbn [n_version n_linux n_windows k_version k_linux k_windows version_str]. rewrite C04_roundtrip by assumption. cbn [bind]. rewrite !print_parse by assumption. cbn [bind]. fold to_config. rewrite IH. reflexivity.
Qed.
(** the table of a page that can be read is used, also when the file of the known versions cannot be written *)
Theorem C197_known_partial : forall as_uri page file writable table, page_specs as_uri page = Ok table -> Forall keeps table -> fst (load_file as_uri page file writable) = Ok table.
Proof.
  intros as_uri page file writable table P F. destruct writable; unfold load_file; rewrite P; [reflexivity|]. cbn [fst].
  clear P. induction F as [|c cs K _ IH]; [reflexivity|].
  cbn [map from_configs]. destruct c as [v l w]. destruct K as ((s & E & W & B) & PL & PW). cbn [k_version k_linux k_windows] in *. subst v.
  unfold from_config, to_config. cbn [n_version n_linux n_windows k_version k_linux k_windows version_str]. rewrite C04_roundtrip by assumption. cbn [bind]. rewrite !print_parse by assumption. cbn [bind]. fold to_config. rewrite IH. reflexivity.
Qed.
(** the versions of cuda that a driver can run *)
Theorem C197_compatible : forall smi driver d is_windows table l, (driver = Some d \/ driver = None /\ smi = Ok d) -> compatible_cuda_versions smi driver is_windows table = Ok l ->
  forall v, In v l <-> exists s, In s table /\ k_version s = v /\ allows (if is_windows then k_windows s else k_linux s) d = true.
Proof.
  intros smi driver d is_windows table l D H v. unfold compatible_cuda_versions in H.
  assert (E : match driver with Some d => Ok d | None => smi end = Ok d) by (destruct D as [->|[-> ->]]; reflexivity). rewrite E in H. cbn [bind] in H. injection H as <-.
  rewrite in_map_iff. split.
  - intros (s & <- & I). apply filter_In in I as [I A]. exists s. split; [exact I|]. split; [reflexivity|]. destruct is_windows; cbn in A; [rewrite orb_false_r in A|]; exact A.
  - intros (s & I & <- & A). exists s. split; [reflexivity|]. apply filter_In. split; [exact I|]. destruct is_windows; cbn; [rewrite orb_false_r|]; exact A.
Qed.
Print Assumptions C197_row. Print Assumptions C197_backup. Print Assumptions C197_remembered_partial. Print Assumptions C197_known_partial. Print Assumptions C197_compatible.
Definition least (r : list N) : spec := Range (Some (sv_plain r)) None true false.
Definition nvidia : tree := Node (lit "table") [(lit "id", Some table_id)]
  [Node (lit "tbody") [] [Node (lit "tr") [] [cell (lit "CUDA 12.1 GA"); cell (lit ">=530.30"); cell (lit ">=531.14")];
                          Node (lit "tr") [] [cell (lit "CUDA 11.0.3"); cell (lit ">=450.51"); cell (lit ">=451.82")]]].
Definition nvidia_table : list cuda_spec :=
  [Cuda (VStd (sv_plain [11; 0; 3]%N)) (least [450; 51]%N) (least [451; 82]%N); Cuda (VStd (sv_plain [12; 1]%N)) (least [530; 30]%N) (least [531; 14]%N)].
Example C197_sample : load_file (fun u => u) (Ok (written nvidia)) [] true = (Ok nvidia_table, map to_config nvidia_table) /\
  compatible_cuda_versions (Ok (VStd (sv_plain [470]%N))) None false nvidia_table = Ok [VStd (sv_plain [11; 0; 3]%N)].
Proof. split; reflexivity. Qed.
Example C197_keeps_sample : Forall keeps nvidia_table.
Proof.
  assert (P : forall a b, printable (least [a; b]%N)).
  { intros a b. unfold least. split; [apply wfr; wf|]. split; [|split].
    - intros m H; injection H as <-. split; [discriminate|discriminate].
    - intros m H; discriminate H.
    - intros m n _ H. discriminate H. }
  assert (V : forall r, r <> [] -> exists v, VStd (sv_plain r) = VStd v /\ wf_sv v /\ label_wf v).
  { intros r N. exists (sv_plain r). split; [reflexivity|]. split; [split; [exact N|discriminate]|intros l H; discriminate H]. }
  constructor; [|constructor; [|constructor]]; (split; [apply V; discriminate|split; apply P]).
Qed.
(** a page without the table, of which there is nothing to learn, erases everything that was known *)
Theorem C197_empty_refuted : forall as_uri file, load_file as_uri (Ok (written (Node (lit "p") [] [Text (lit "moved")]))) file true = (Ok [], []).
Proof. reflexivity. Qed.
(** a page with one void element is not read at all *)
Theorem C197_void_refuted : forall as_uri file, load_file as_uri (Ok (EStart (lit "meta") [] :: written nvidia ++ [EEnd (lit "html")])) file true = (from_configs as_uri file, file).
Proof. reflexivity. Qed.
(** without a driver there is no repository, not even for the builds that need none *)
Theorem C197_driver_refuted : forall as_uri page file writable is_windows e, exists x,
  build as_uri [lit "pkm_torch_repository.resources"] page file writable (Err e) is_windows = Err x.
Proof.
  intros as_uri page file writable is_windows e. unfold build, load.
  change (str_mem (lit "pkm_torch_repository.resources") [lit "pkm_torch_repository.resources"]) with true.
  destruct (fst (load_file as_uri page file writable)) as [t|x]; [exists e|exists x]; reflexivity.
Qed.
(** with the modules that are distributed there is no repository *)
Theorem C197_module_refuted : forall as_uri page file writable smi is_windows,
  build as_uri [lit "download_torch_pkm_repo"; lit "download_torch_pkm_repo.resources"; lit "download_torch_pkm_repo.utils"] page file writable smi is_windows = Err OtherErr.
Proof. reflexivity. Qed.

(** ** C198: the builds that are offered *)
(** there is an answer when every package has a standard version *)
Theorem C198_answered : forall allow_cpu labels packages, (exists l, do_match allow_cpu labels packages = Ok l) <-> Forall is_standard packages.
Proof. intros allow_cpu labels packages. split; [intros (l & H); apply match_spec in H as [F _]; exact F|]. intros F. eexists. apply match_spec. split; [exact F|reflexivity]. Qed.
(** the packages that are offered are those without label or with the label cpu, if these are allowed, and those whose label is the one
    of a version of cuda that this machine can run; each as often as it is matched *)
Theorem C198_all : forall allow_cpu labels packages l, do_match allow_cpu labels packages = Ok l -> Permutation l (filter (offered allow_cpu labels) (flat_map std packages)).
Proof. intros allow_cpu labels packages l H. apply match_spec in H as [_ ->]. apply sort_perm. Qed.
(** a build for cuda is before every build for the cpu, and of two builds of the same kind the one with the greater version is first *)
Theorem C198_order : forall allow_cpu labels packages p a q b r, do_match allow_cpu labels packages = Ok (p ++ a :: q ++ b :: r) ->
  (local_label b <> None -> local_label b <> Some [] -> local_label b <> Some (lit "cpu") -> exists c, local_label a = Some (lit "cu" ++ c)) /\
  (((exists c d, local_label a = Some (lit "cu" ++ c) /\ local_label b = Some (lit "cu" ++ d)) \/ (local_label a = None /\ local_label b = None)) -> version_ltb (VStd a) (VStd b) = false).
Proof.
  intros allow_cpu labels packages p a q b r H. pose proof H as H0. apply match_spec in H as [F E]. pose proof (sort_sorted (filter (offered allow_cpu labels) (flat_map std packages))) as S. rewrite <- E in S.
  pose proof (desc_descending _ S p a q b r eq_refl) as K. apply C198_all in H0.
  assert (OA : offered allow_cpu labels a = true). { assert (I : In a (filter (offered allow_cpu labels) (flat_map std packages))) by (eapply Permutation_in; [exact H0|apply in_or_app; right; left; reflexivity]). apply filter_In in I as [_ I]. exact I. }
  assert (CU : forall x c, local_label x = Some (lit "cu" ++ c) -> arch x = 1) by (intros x c X; unfold arch, is_cpu; rewrite X; reflexivity).
  split.
  - intros N1 N2 N3. assert (AB : arch b = 1). { unfold arch, is_cpu. destruct (local_label b) as [lb|]; [|contradiction]. destruct (str_eqb lb (lit "cpu")) eqn:Q1; [apply str_eqb_eq in Q1; subst; contradiction|]. destruct (str_eqb lb []) eqn:Q2; [apply str_eqb_eq in Q2; subst; contradiction|reflexivity]. }
    destruct (Nat.eq_dec (arch a) 1) as [AA|AA].
    + unfold arch, is_cpu in AA. unfold offered in OA. destruct (local_label a) as [la|]; [|discriminate]. destruct (str_eqb la (lit "cpu") || str_eqb la []); [discriminate|]. apply andb_true_iff in OA as [OA _]. apply starts_with_iff in OA. destruct OA as (c & ->). exists c. reflexivity.
    + assert (key_ltb a b = true) by (apply key_spec; left; unfold arch in *; destruct (is_cpu a), (is_cpu b); lia). congruence.
  - intros D. cbn [version_ltb]. destruct (sv_ltb a b) eqn:L; [|reflexivity]. assert (key_ltb a b = true); [|congruence]. apply key_spec. right. split; [|exact L].
    destruct D as [(c & d & A & B)|[A B]]; [rewrite (CU _ _ A), (CU _ _ B); reflexivity|unfold arch, is_cpu; rewrite A, B; reflexivity].
Qed.
(** of two builds of one version the one for the newer cuda is first, when the numbers of the two have the same length *)
Theorem C198_cuda_partial : forall allow_cpu labels packages p q r s a b, forallb is_digit a = true -> forallb is_digit b = true -> List.length a = List.length b ->
  do_match allow_cpu labels packages = Ok (p ++ relabel s (lit "cu" ++ a) :: q ++ relabel s (lit "cu" ++ b) :: r) -> (read_N b <= read_N a)%N.
Proof.
  intros allow_cpu labels packages p q r s a b A B L H. destruct (N.le_gt_cases (read_N b) (read_N a)) as [X|X]; [exact X|]. exfalso. destruct (C198_order _ _ _ _ _ _ _ _ H) as [_ O].
  cbn [version_ltb] in O. rewrite (label_ltb s a b A B L X) in O. discriminate O. left. exists a, b. split; reflexivity.
Qed.
Print Assumptions C198_answered. Print Assumptions C198_all. Print Assumptions C198_order. Print Assumptions C198_cuda_partial.
Definition labelled (r : list N) (l : string) : version := VStd (SV r None None None None (Some (lit l))).
Definition unlabelled (r : list N) : version := VStd (SV r None None None None None).
Example C198_sample : do_match true [lit "cu118"; lit "cu121"] [unlabelled [2; 2]%N; labelled [2; 1]%N "cu118"; labelled [2; 1]%N "rocm5.6"; labelled [2; 1]%N "cu121"; labelled [2; 1]%N "cpu"; labelled [2; 1]%N "cu117"] =
  Ok (flat_map std [labelled [2; 1]%N "cu121"; labelled [2; 1]%N "cu118"; unlabelled [2; 2]%N; labelled [2; 1]%N "cpu"]).
Proof. reflexivity. Qed.
(** the build for cuda 9.2 is before the one for cuda 10.0 *)
Theorem C198_cuda_refuted : do_match true [lit "cu92"; lit "cu100"] [labelled [1; 2]%N "cu100"; labelled [1; 2]%N "cu92"] = Ok (flat_map std [labelled [1; 2]%N "cu92"; labelled [1; 2]%N "cu100"]).
Proof. reflexivity. Qed.
(** a build of an old version for cuda is before every newer version without label, although these run on the machine too *)
Theorem C198_old_refuted : do_match true [lit "cu118"] [unlabelled [2; 3]%N; labelled [1; 0]%N "cu118"] = Ok (flat_map std [labelled [1; 0]%N "cu118"; unlabelled [2; 3]%N]).
Proof. reflexivity. Qed.
(** the build cu110 is not offered to a machine whose cuda is listed as 11.0.3 *)
Theorem C198_patch_refuted : exists l, cuda_labels [VStd (sv_plain [11; 0; 3]%N)] = Ok l /\ do_match true l [labelled [1; 7]%N "cu110"] = Ok [].
Proof. eexists. split; reflexivity. Qed.
(** one file whose version is not standard spoils the repository *)
Theorem C198_named_refuted : forall labels, do_match true labels [unlabelled [2; 3]%N; VNamed (lit "nightly")] = Err AttributeError.
Proof. reflexivity. Qed.
