(** C65: optional dependencies.  C66: cleaning the build directory.  C67: the attached environment.  C68: entry points.
    C69, C70: groups of projects. *)
From Coq Require Import String Ascii List Bool NArith Arith Lia.
From Verif Require Import Base BaseFacts FsModel FsFacts VersionModel SpecifierModel VersionParse MarkerModel MarkerSpec DependencyModel SharedModel ProjectModel ProjectProofs.
Import ListNotations.
Open Scope string_scope.
Open Scope nat_scope.
Open Scope list_scope.
Open Scope bool_scope.

(** ** C65 *)
(** the mandatory dependencies come as they are, and each other one comes from a dependency of a group *)
Theorem C65_dependencies : forall deps groups l, all_dependencies deps groups = Ok l ->
  (exists o, l = deps ++ o) /\
  forall d, In d l <-> In d deps \/ exists g ds d0, In (g, ds) groups /\ In d0 ds /\ guard_dep g d0 = Ok d.
Proof.
  intros deps groups l H. split; [|intro d; apply all_deps_in, H]. unfold all_dependencies in H.
  destruct (optional_deps groups) as [o|]; [|discriminate]. injection H as <-. exists o. reflexivity.
Qed.
(** a dependency of a group that has no marker applies exactly when the extra is requested.
    Missing: dependencies with a marker, names of groups with the letter J or characters that no marker may quote *)
Theorem C65_plain_partial : forall g d, d_marker d = None -> (forall c, In c g -> quotable squote c) -> no_J g ->
  exists d', guard_dep g d = Ok d' /\ d_name d' = d_name d /\ d_spec d' = d_spec d /\ d_extras d' = d_extras d /\
    forall u env extras, is_applicable_for u d' env extras = Ok true <-> In g extras.
Proof.
  intros g d D Q J. destruct (guard_plain g d D Q J) as (m & E & A). exists (with_marker d m). split; [exact E|].
  split; [reflexivity|]. split; [reflexivity|]. split; [reflexivity|]. intros u env extras. rewrite A, <- str_mem_in. split; [intro H; injection H as H; exact H|intros ->; reflexivity].
Qed.
Example C65_plain_witness : (forall c, In c (lit "tests") -> quotable squote c) /\ no_J "tests".
Proof.
  split.
  - intros c H. cbn in H. left. right. right. left. unfold letter. right. repeat (destruct H as [<-|H]; [vm_compute; split; discriminate|]). contradiction.
  - intro H. cbn in H. repeat (destruct H as [H|H]; [discriminate|]). contradiction.
Qed.
(** REFUTED for every dependency of a group with a marker of its own: it is taken over as it is, so it applies whether the extra
    is requested or not *)
Theorem C65_marker_unguarded : forall g d s m r, d_marker d = Some m -> read_marker s = Ok (m, r) -> guard_dep g d = Ok d.
Proof. exact guard_marked. Qed.
Theorem C65_marker_refuted : exists d s m r l env, read_marker s = Ok (m, r) /\ d_marker d = Some m /\
  all_dependencies [] [(lit "docs", [d])] = Ok l /\ l = [d] /\ forall u, is_applicable_for u d env [] = Ok true.
Proof.
  exists (Dep "sphinx" AllowAll None (Some (Marker (lit "os_name == 'posix'") (MAtom (VVar "os_name") (OCmp "==") (VText "posix"))))).
  exists (lit "os_name == 'posix'"). do 3 eexists. exists [(lit "os_name", lit "posix")]. split; [vm_compute; reflexivity|]. split; [reflexivity|].
  split; [vm_compute; reflexivity|]. split; [reflexivity|]. intro u. vm_compute. reflexivity.
Qed.
(** a group with the letter J in its name makes the dependencies of the project unusable *)
Theorem C65_letter_refuted : exists d, d_marker d = None /\ all_dependencies [] [(lit "JSON", [d])] = Err ValueError.
Proof. exists (Dep "ujson" AllowAll None None). split; [reflexivity|vm_compute; reflexivity]. Qed.

(** ** C66 *)
(** below the build directory, the directories named by a kept version stay as they are and everything else goes;
    nothing else changes *)
Theorem C66_clean_partial : forall f dist keep f', wf_fs f -> clean_dist f dist keep = Ok f' ->
  (forall c r, lookup f (c :: dist) = Some Dir -> In c (map version_str keep) -> lookup f' (r ++ c :: dist) = lookup f (r ++ c :: dist)) /\
  (forall c r, lookup f (c :: dist) = Some Dir -> ~ In c (map version_str keep) -> lookup f' (r ++ c :: dist) = None) /\
  (forall c r, lookup f (c :: dist) <> Some Dir -> lookup f' (r ++ c :: dist) = None) /\
  (forall q, (forall c, under (c :: dist) q = false) -> lookup f' q = lookup f q).
Proof.
  intros f dist keep f' W H. destruct (exists_at f dist) eqn:X.
  2: { unfold clean_dist in H. rewrite X in H. injection H as <-. apply exists_at_false in X.
       assert (N : forall c r, lookup f (r ++ c :: dist) = None).
       { intros c r. destruct (lookup f (r ++ c :: dist)) eqn:Q; [|reflexivity]. exfalso.
         assert (Y : lookup f dist = Some Dir); [|congruence]. apply (wf_above f (r ++ [c])); [exact W| |destruct r; discriminate].
         rewrite <- app_assoc. cbn [app]. congruence. }
       split; [reflexivity|]. split; [intros c r D; specialize (N c []); cbn [app] in N; congruence|]. split; [intros; apply N|reflexivity]. }
  assert (D : is_dir f dist = true). { destruct (is_dir f dist) eqn:D; [reflexivity|]. unfold clean_dist, iterdir in H. rewrite X, D in H. discriminate. }
  assert (Sp := fun q => clean_spec f dist keep f' q H D). split; [|split; [|split]].
  - intros c r Dc K. destruct (Sp (r ++ c :: dist)) as [[(d & A & B) R]|[_ R]]; [|exact R]. exfalso. unfold g_entry in B.
    assert (U : under (d :: dist) (r ++ c :: dist) = true) by (destruct (lookup f (d :: dist)) as [[|]|]; [rewrite B; apply under_refl|tauto|rewrite B; apply under_refl]).
    assert (Ed : d = c) by (eapply SharedProofs.apart; [exact U|apply under_app]). subst d. rewrite Dc in B. tauto.
  - intros c r Dc K. destruct (Sp (r ++ c :: dist)) as [[_ R]|[A R]]; [exact R|]. exfalso. apply (A c); [congruence|]. unfold g_entry. rewrite Dc. split; [exact K|apply under_app].
  - intros c r Dc. destruct (Sp (r ++ c :: dist)) as [[_ R]|[A R]]; [exact R|]. rewrite R. destruct (lookup f (r ++ c :: dist)) eqn:Q; [|reflexivity]. exfalso.
    destruct r as [|x r]; [|apply Dc, (wf_above f (x :: r)); [exact W|congruence|discriminate]]. cbn [app] in Q. apply (A c); [congruence|]. unfold g_entry. rewrite Q.
    destruct n; [reflexivity|contradiction].
  - intros q U. destruct (Sp q) as [[(d & A & B) R]|[_ R]]; [|exact R]. exfalso. specialize (U d). unfold g_entry in B.
    destruct (lookup f (d :: dist)) as [[|]|]; [rewrite B, under_refl in U; discriminate|destruct B; congruence|rewrite B, under_refl in U; discriminate].
Qed.
(** cleaning fails only when the build directory is a file *)
Theorem C66_total : forall f dist keep, (exists f', clean_dist f dist keep = Ok f') <-> ~ exists t, lookup f dist = Some (File t).
Proof.
  intros f dist keep. unfold clean_dist, exists_at, iterdir, is_dir. destruct (lookup f dist) as [[t|]|]; cbn [is_some negb bind]; split.
  - intros [f' H]. discriminate.
  - intro H. exfalso. eauto.
  - intros _ [t H]. discriminate.
  - intros _. eexists. reflexivity.
  - intros _ [t H]. discriminate.
  - intros _. eexists. reflexivity.
Qed.
Definition dist_fs (name : str) : fs :=
  [([], Dir); ([lit "dist"], Dir); ([lit "note"; lit "dist"], File "x"); ([name; lit "dist"], Dir); ([lit "a.whl"; name; lit "dist"], File "w")].
Example C66_witness : exists f' v, parse_version "1.0" = Ok v /\ clean_dist (dist_fs "1.0") [lit "dist"] [v] = Ok f' /\
  lookup f' [lit "a.whl"; lit "1.0"; lit "dist"] = Some (File "w") /\ lookup f' [lit "note"; lit "dist"] = None.
Proof. do 2 eexists. split; [vm_compute; reflexivity|]. split; [vm_compute; reflexivity|]. vm_compute. split; reflexivity. Qed.
(** REFUTED: the artifacts of a version to keep go when the directory spells the version in another way *)
Theorem C66_spelling_refuted : exists f' v w, parse_version "1.0" = Ok v /\ parse_version "1.0.0" = Ok w /\ version_eqb v w = true /\
  clean_dist (dist_fs "1.0.0") [lit "dist"] [v] = Ok f' /\ lookup f' [lit "a.whl"; lit "1.0.0"; lit "dist"] = None.
Proof. do 3 eexists. split; [vm_compute; reflexivity|]. split; [vm_compute; reflexivity|]. split; [vm_compute; reflexivity|]. split; vm_compute; reflexivity. Qed.

(** ** C67 *)
(** an environment that is there is used as it is *)
Theorem C67_existing : forall create f own group project name, is_venv_path f (attached_path own group project name) = true ->
  attached_environment create f own group project name = (f, Ok (attached_path own group project name)).
Proof. intros create f own group project name V. unfold attached_environment. rewrite V. reflexivity. Qed.
(** nothing outside of the path of the environment changes, if its creation changes nothing outside of it *)
Theorem C67_outside_partial : forall create f own group project name q,
  (forall g p g', create g p = Ok g' -> under p q = false -> lookup g' q = lookup g q) ->
  under (attached_path own group project name) q = false ->
  lookup (fst (attached_environment create f own group project name)) q = lookup f q.
Proof.
  intros create f own group project name q C U. unfold attached_environment. set (p := attached_path own group project name) in *.
  destruct (is_venv_path f p); [reflexivity|]. destruct (exists_at f p); [destruct (is_dir f p); [|reflexivity]|].
  - destruct (create (remove_tree f p) p) as [f'|] eqn:E; cbn [fst]; [rewrite (C _ _ _ E U)|]; rewrite lookup_remove_tree, U; reflexivity.
  - destruct (create f p) as [f'|] eqn:E; cbn [fst]; [apply (C _ _ _ E U)|reflexivity].
Qed.
(** where the environment of a project is: the settings of the project count before those of its group, and in them the path
    before the zoo; without either it is the directory .venv of the project *)
Theorem C67_place : forall own group project name p,
  attached_path own group project name = p <->
  (exists cfg, (own = Some cfg \/ own = None /\ group = Some cfg) /\
     (at_path cfg = Some p \/ (exists z, at_path cfg = None /\ at_zoo cfg = Some z /\ p = name :: z) \/ at_path cfg = None /\ at_zoo cfg = None /\ p = lit ".venv" :: project))
  \/ own = None /\ group = None /\ p = lit ".venv" :: project.
Proof.
  intros own group project name p. unfold attached_path. split.
  - intros <-. destruct own as [c|]; [|destruct group as [c|]]; [left; exists c; split; [left; reflexivity|]|left; exists c; split; [right; split; reflexivity|]|right; repeat split].
    + destruct (at_path c) as [q|]; [left; reflexivity|right]. destruct (at_zoo c) as [z|]; [left; exists z; repeat split|right; repeat split].
    + destruct (at_path c) as [q|]; [left; reflexivity|right]. destruct (at_zoo c) as [z|]; [left; exists z; repeat split|right; repeat split].
  - intros [(c & [->|[-> ->]] & H)|(-> & -> & ->)]; [| |reflexivity].
    + destruct H as [->|[(z & -> & -> & ->)|(-> & -> & ->)]]; [|reflexivity|reflexivity]. destruct (at_zoo c); reflexivity.
    + destruct H as [->|[(z & -> & -> & ->)|(-> & -> & ->)]]; [|reflexivity|reflexivity]. destruct (at_zoo c); reflexivity.
Qed.
Example C67_place_sample : attached_path None (Some (Attached None (Some [lit "zoo"]))) [lit "prj"] "prj" = [lit "prj"; lit "zoo"] /\ attached_path (Some (Attached None None)) (Some (Attached None (Some [lit "zoo"]))) [lit "prj"] "prj" = [lit ".venv"; lit "prj"].
Proof. split; reflexivity. Qed.
(** REFUTED for every directory that is no environment: all that is in it is deleted, also when no environment can be created then *)
Theorem C67_deletes_always : forall create f own group project name q e,
  lookup f (attached_path own group project name) = Some Dir -> is_venv_path f (attached_path own group project name) = false ->
  create (remove_tree f (attached_path own group project name)) (attached_path own group project name) = Err e ->
  under (attached_path own group project name) q = true ->
  attached_environment create f own group project name = (remove_tree f (attached_path own group project name), Err e) /\
  lookup (fst (attached_environment create f own group project name)) q = None.
Proof.
  intros create f own group project name q e D V C U. unfold attached_environment. set (p := attached_path own group project name) in *.
  assert (X : exists_at f p = true) by (apply exists_at_true; congruence). assert (Y : is_dir f p = true) by (apply is_dir_true; exact D).
  rewrite V, X, Y, C. split; [reflexivity|]. cbn [fst]. rewrite lookup_remove_tree, U. reflexivity.
Qed.
Theorem C67_deletes_refuted : exists f own q, is_venv_path f (attached_path own None [lit "prj"] "prj") = false /\
  lookup f q = Some (File "thesis") /\
  forall create, create (remove_tree f (attached_path own None [lit "prj"] "prj")) (attached_path own None [lit "prj"] "prj") = Err NoSuchElement ->
  lookup (fst (attached_environment create f own None [lit "prj"] "prj")) q = None.
Proof.
  exists [([], Dir); ([lit "home"], Dir); ([lit "work.tex"; lit "home"], File "thesis"); ([lit "prj"], Dir)], (Some (Attached (Some [lit "home"]) None)), [lit "work.tex"; lit "home"].
  split; [reflexivity|]. split; [reflexivity|]. intros create C. eapply C67_deletes_always; [reflexivity|reflexivity|exact C|reflexivity].
Qed.

(** ** C68 *)
(** the entry points that are written are read again, with the references as they are read back, when no two of them have the
    same group and name *)
Theorem C68_file_partial : forall l e, NoDup (map (fun e => (e_group e, e_name e)) l) ->
  (In e (data_entries (entries_data l)) <-> exists r, In (Entry (e_group e) (e_name e) r) l /\ e_ref e = oref_parse (oref_str r)).
Proof.
  intros l e N. rewrite read_written. split; intros (r & A & B); exists r; (split; [|exact B]).
  - apply (last_entry_in l (Entry (e_group e) (e_name e) r) N). exact A.
  - apply (last_entry_in l (Entry (e_group e) (e_name e) r) N) in A. exact A.
Qed.
(** and references without extras are read back as they were *)
Theorem C68_reference_partial : forall m o, without ":" m -> without "[" o -> o <> [] ->
  oref_parse (oref_str (ORef m (Some o) None)) = ORef m (Some o) None /\ oref_parse (oref_str (ORef m None None)) = ORef m None None.
Proof. intros m o M O N. split; [apply oref_plain; assumption|apply oref_module; assumption]. Qed.
Example C68_reference_witness : without ":" "pkg.mod" /\ without "[" "main" /\ oref_parse "pkg.mod:main" = ORef "pkg.mod" (Some (lit "main")) None.
Proof.
  split; [|split; [|vm_compute; reflexivity]]; intro H; cbn in H; repeat (destruct H as [H|H]; [discriminate|]); contradiction.
Qed.
(** REFUTED for every reference with extras: the object gets a blank at its end each time *)
Theorem C68_extras_grow : forall m o x l, without ":" m -> without "[" o -> o <> [] -> x <> [] -> (forall y, In y (x :: l) -> extra_ok y) ->
  oref_parse (oref_str (ORef m (Some o) (Some (x :: l)))) = ORef m (Some (o ++ lit " ")) (Some (x :: l)).
Proof. exact oref_extras. Qed.
Theorem C68_extras_refuted : exists r, r = oref_parse "pkg:main [cli]" /\ oref_parse (oref_str r) <> r.
Proof. eexists. split; [reflexivity|]. vm_compute. discriminate. Qed.
(** REFUTED: a project with a table of entry points cannot be read *)
Theorem C68_tables_refuted : forall fuel t tables scripts guis, all_entrypoints fuel (t :: tables) scripts guis = Err RecursionErr.
Proof. intros. unfold all_entrypoints. rewrite entry_points_tables. reflexivity. Qed.
(** without such tables, the scripts and gui scripts of the project are its entry points, but all of them count as console scripts *)
Theorem C68_scripts : forall fuel scripts guis,
  all_entrypoints (S fuel) [] scripts guis = Ok (entries_of console scripts ++ entries_of console guis).
Proof. exact entry_points_scripts. Qed.
Theorem C68_gui_refuted : exists guis l, all_entrypoints 10 [] [] guis = Ok l /\ guis = [(lit "draw", lit "pkg:draw")] /\
  dict_get gui (entries_data l) = None /\ dict_get console (entries_data l) = Some guis.
Proof. do 2 eexists. split; [|split; [reflexivity|]]; vm_compute; [reflexivity|split; reflexivity]. Qed.
(** and a gui script takes the place of the script with the same name *)
Theorem C68_same_name_refuted : exists l, all_entrypoints 10 [] [(lit "run", lit "pkg:cli")] [(lit "run", lit "pkg:gui")] = Ok l /\ length l = 2 /\
  data_entries (entries_data l) = [Entry console "run" (ORef "pkg" (Some (lit "gui")) None)].
Proof. eexists. split; [vm_compute; reflexivity|]. split; vm_compute; reflexivity. Qed.

(** ** C69 *)
(** the projects that are built are the ones that are listed by the group or by a group that it lists *)
Theorem C69_built_iff : forall fuel k p l, projects_below fuel k p = Ok l -> forall q, In q l <-> below k p q.
Proof. exact projects_below_spec. Qed.
(** the walk ends when no group is below itself *)
Theorem C69_ends : forall k (rank : path -> nat),
  (forall p r, In r (g_children (load_group k p)) -> ~ In r (d_projects k) -> rank r < rank p) ->
  forall fuel p, rank p < fuel -> exists l, projects_below fuel k p = Ok l.
Proof. exact projects_below_ends. Qed.
Definition sample_disk : disk :=
  Disk [([lit "g"], PGroup [[lit "a"; lit "g"]; [lit "h"; lit "g"]] None); ([lit "h"; lit "g"], PGroup [[lit "b"; lit "h"; lit "g"]] None)]
       [[lit "a"; lit "g"]; [lit "b"; lit "h"; lit "g"]].
Example C69_witness : projects_below 9 sample_disk [lit "g"] = Ok [[lit "a"; lit "g"]; [lit "b"; lit "h"; lit "g"]] /\ below sample_disk [lit "g"] [lit "b"; lit "h"; lit "g"].
Proof.
  split; [vm_compute; reflexivity|]. apply (B_down _ _ [lit "h"; lit "g"]).
  - right. left. reflexivity.
  - intros [H|[H|[]]]; discriminate.
  - apply B_here; [left; reflexivity|right; left; reflexivity].
Qed.
(** REFUTED: a listed directory that is neither a project nor a group is passed over in silence *)
Theorem C69_missing_refuted : exists k p q, In q (g_children (load_group k p)) /\ ~ In q (d_projects k) /\ group_at (d_groups k) q = None /\
  projects_below 9 k p = Ok [].
Proof.
  exists (Disk [([lit "g"], PGroup [[lit "gone"; lit "g"]] None)] []), [lit "g"], [lit "gone"; lit "g"]. split; [left; reflexivity|].
  split; [intros []|]. split; vm_compute; reflexivity.
Qed.
(** REFUTED: a project that two groups list is built twice *)
Theorem C69_twice_refuted : exists k p q, projects_below 9 k p = Ok [q; q].
Proof.
  exists (Disk [([lit "g"], PGroup [[lit "a"]; [lit "h"]] None); ([lit "h"], PGroup [[lit "a"]] None)] [[lit "a"]]), [lit "g"], [lit "a"]. vm_compute. reflexivity.
Qed.
(** REFUTED: the root of a group is never found *)
Theorem C69_root_refuted : forall fuel k p r, group_root fuel k p = Ok r -> r = None.
Proof. exact root_none. Qed.
Example C69_root_witness : group_parent sample_disk [lit "h"; lit "g"] = Some [lit "g"] /\ group_root 9 sample_disk [lit "h"; lit "g"] = Ok None.
Proof. split; vm_compute; reflexivity. Qed.
(** the group of a project is the nearest directory above it whose group file lists it *)
Theorem C69_group_of : forall k p d, find_group k p = Some d <->
  exists a b g, parents p = a ++ d :: b /\ group_at (d_groups k) d = Some g /\ In p (g_children g) /\
    forall e ge, In e a -> group_at (d_groups k) e = Some ge -> ~ In p (g_children ge).
Proof. intros. apply find_in_spec. Qed.
(** the parent of a group is the one that its file names, or else the group that lists it *)
Theorem C69_parent : forall k p d, group_parent k p = Some d <->
  (exists g, group_at (d_groups k) p = Some g /\ g_parent g = Some d) \/
  (forall g, group_at (d_groups k) p = Some g -> g_parent g = None) /\ find_group k p = Some d.
Proof.
  intros k p d. unfold group_parent, load_group. destruct (group_at (d_groups k) p) as [g|]; cbn [g_parent].
  - destruct (g_parent g) as [q|] eqn:E; split; intro H.
    + injection H as <-. left. exists g. split; [reflexivity|exact E].
    + destruct H as [(g' & G & P)|[N F]]; [injection G as <-; rewrite E in P; exact P|]. specialize (N g eq_refl). congruence.
    + right. split; [intros g' G; injection G as <-; exact E|exact H].
    + destruct H as [(g' & G & P)|[N F]]; [injection G as <-; congruence|exact F].
  - split; intro H; [right; split; [discriminate|exact H]|]. destruct H as [(g' & G & P)|[N F]]; [discriminate|exact F].
Qed.
Example C69_parent_sample : group_parent (Disk [([lit "g"], PGroup [[lit "h"; lit "g"]] None); ([lit "h"; lit "g"], PGroup [] (Some [lit "other"]))] []) [lit "h"; lit "g"] = Some [lit "other"] /\ group_parent sample_disk [lit "h"; lit "g"] = Some [lit "g"].
Proof. split; vm_compute; reflexivity. Qed.

(** ** C70 *)
(** removing takes away exactly the entries that stand for the path, when paths are understood in the directory of the group *)
Theorem C70_remove_partial : forall P (resolve : P -> path) entries p e,
  In e (group_remove resolve resolve entries p) <-> In e entries /\ resolve e <> resolve p.
Proof.
  intros P resolve entries p e. rewrite remove_spec, filter_In. apply and_iff_compat_l. rewrite negb_true_iff, path_eqb_neq. reflexivity.
Qed.
Theorem C70_add_remove_partial : forall P (resolve : P -> path) entries p, (forall e, In e entries -> resolve e <> resolve p) ->
  group_remove resolve resolve (group_add entries p) p = entries.
Proof.
  intros P resolve entries p N. rewrite remove_spec. unfold group_add. rewrite filter_app. cbn [filter]. rewrite path_eqb_refl. cbn [negb]. rewrite app_nil_r.
  induction entries as [|e l IH]; [reflexivity|]. cbn [filter]. destruct (path_eqb (resolve e) (resolve p)) eqn:E.
  - apply path_eqb_eq in E. exfalso. exact (N e (or_introl eq_refl) E).
  - cbn [negb]. f_equal. apply IH. intros x Hx. apply N. right. exact Hx.
Qed.
Example C70_witness : group_remove (fun x => [x; lit "g"]) (fun x => [x; lit "g"]) (group_add [lit "a"] (lit "b")) (lit "b") = [lit "a"].
Proof. vm_compute. reflexivity. Qed.
(** REFUTED: entries are written relative to the group and removed relative to the current directory *)
Theorem C70_relative_refuted : exists (resolve from_cwd : str -> path) entries p, entries = group_add [] p /\
  (forall x, resolve x = [x; lit "g"]) /\ (forall x, from_cwd x = [x; lit "elsewhere"]) /\
  group_remove resolve from_cwd entries p = entries.
Proof.
  exists (fun x => [x; lit "g"]), (fun x => [x; lit "elsewhere"]), [lit "a"], (lit "a"). split; [reflexivity|]. split; [reflexivity|]. split; [reflexivity|].
  vm_compute. reflexivity.
Qed.
Print Assumptions C65_dependencies. Print Assumptions C65_plain_partial. Print Assumptions C65_marker_unguarded. Print Assumptions C66_clean_partial.
Print Assumptions C66_total. Print Assumptions C67_outside_partial. Print Assumptions C67_deletes_always. Print Assumptions C68_file_partial.
Print Assumptions C68_extras_grow. Print Assumptions C68_scripts. Print Assumptions C69_built_iff. Print Assumptions C69_ends. Print Assumptions C69_group_of. Print Assumptions C70_add_remove_partial.
