(** C32-C34: installation plans, uninstallation, removal of a package's files. *)
From Coq Require Import String Ascii List Bool NArith Arith Lia Permutation.
From Verif Require Import Base BaseFacts FsModel FilesModel NamesModel InstallModel InstallProofs RemovalProofs.
Import ListNotations.
Open Scope string_scope.
Open Scope nat_scope.
Open Scope list_scope.
Open Scope bool_scope.

(** ** C32: the installation plan is the exact difference *)
(** what holds of the packages that come in: one package per key on both sides, and a resolved package that is the
    installed one has its version *)
Definition plan_input (installed : list ipkg) (packages : list rpkg) : Prop :=
  NoDup (map i_key installed) /\ NoDup (map r_key (filter (fun r => negb (r_request r)) packages)) /\
  (forall r, In r packages -> r_installed r = true -> exists i, In i installed /\ i_key i = r_key r /\ i_version i = r_version r).
(** whatever order the operations are executed in, exactly the resolved packages are there, in the resolved versions *)
Theorem C32_exactly_the_resolution : forall installed packages user_requests store_modes order, plan_input installed packages ->
  Permutation order (compute_operations installed packages user_requests store_modes) -> forall k v,
  (exists i, dict_get k (execute user_requests store_modes installed order) = Some i /\ i_version i = v) <->
  (exists r, In r packages /\ r_request r = false /\ r_key r = k /\ r_version r = v).
Proof. intros installed packages ur sm order (A & B & C) P k v. exact (plan_versions installed packages ur sm order A B C P k v). Qed.
Print Assumptions C32_exactly_the_resolution.
(** an installed package that is right already is not touched *)
Theorem C32_right_ones_untouched : forall installed packages user_requests store_modes order r i, plan_input installed packages ->
  Permutation order (compute_operations installed packages user_requests store_modes) ->
  In r packages -> r_request r = false -> In i installed -> i_key i = r_key r -> i_version i = r_version r ->
  (dict_get (r_key r) store_modes = None \/ dict_get (r_key r) store_modes = Some Auto \/ dict_get (r_key r) store_modes = Some (i_mode i)) ->
  (dict_get (r_key r) user_requests = None \/ dict_get (r_key r) user_requests = i_request i) ->
  (forall o, In o order -> op_key o = r_key r -> o = OSkip r) /\
  dict_get (r_key r) (execute user_requests store_modes installed order) = Some i.
Proof.
  intros installed packages ur sm order r i (A & B & C) P IR RR II K V HM HU. destruct (plan_right installed packages ur sm order A B P r i IR RR II K V HM HU) as [X Y].
  split; [|exact Y]. intros o IO. apply X. exact (Permutation_in o P IO).
Qed.
Print Assumptions C32_right_ones_untouched.
(** every operation has its reason *)
Theorem C32_no_needless_operation : forall installed packages user_requests store_modes o,
  In o (compute_operations installed packages user_requests store_modes) ->
  match o with
  | OSkip r => In r packages
  | OInstall r => In r packages /\ forall i, In i installed -> i_key i <> r_key r
  | OUpdate r => In r packages /\ exists i, In i installed /\ i_key i = r_key r /\
      (i_version i <> r_version r \/ exists m, dict_get (r_key r) store_modes = Some m /\ m <> Auto /\ m <> i_mode i)
  | OMark i => In i installed /\ exists d, dict_get (i_key i) user_requests = Some d /\ i_request i <> Some d
  | ORemove i => In i installed /\ forall r, In r packages -> r_request r = false -> r_key r <> i_key i
  end.
Proof. exact plan_needless. Qed.
Print Assumptions C32_no_needless_operation.
(** requests are recorded *)
Theorem C32_requests_recorded : forall installed packages user_requests store_modes order r d, plan_input installed packages ->
  Permutation order (compute_operations installed packages user_requests store_modes) ->
  In r packages -> r_request r = false -> dict_get (r_key r) user_requests = Some d ->
  exists i, dict_get (r_key r) (execute user_requests store_modes installed order) = Some i /\ i_request i = Some d.
Proof. intros installed packages ur sm order r d (A & B & C) P. exact (plan_requests installed packages ur sm order B P r d). Qed.
Print Assumptions C32_requests_recorded.
(** an explicit store mode is obeyed, when the resolved package is not the installed package object itself *)
Theorem C32_store_mode_partial : forall installed packages user_requests store_modes order r m, plan_input installed packages ->
  Permutation order (compute_operations installed packages user_requests store_modes) ->
  In r packages -> r_request r = false -> r_installed r = false -> dict_get (r_key r) store_modes = Some m -> m <> Auto ->
  exists i, dict_get (r_key r) (execute user_requests store_modes installed order) = Some i /\ i_mode i = m.
Proof. intros installed packages ur sm order r m (A & B & C) P. exact (plan_modes installed packages ur sm order B P r m). Qed.
Print Assumptions C32_store_mode_partial.
Example C32_witness :
  let installed := [IP "a" 1 Copy (Some (lit "a")); IP "b" 1 Copy None; IP "c" 4 Copy None] in
  let packages := [RP "" 0 true false; RP "a" 1 false true; RP "b" 2 false false; RP "d" 1 false false] in
  plan_input installed packages /\
  compute_operations installed packages [(lit "d", lit "d >= 1")] [(lit "d", Editable)] =
    [OSkip (RP "a" 1 false true); OUpdate (RP "b" 2 false false); OInstall (RP "d" 1 false false); ORemove (IP "c" 4 Copy None)] /\
  execute [(lit "d", lit "d >= 1")] [(lit "d", Editable)] installed (rev (compute_operations installed packages [(lit "d", lit "d >= 1")] [(lit "d", Editable)])) =
    [(lit "a", IP "a" 1 Copy (Some (lit "a"))); (lit "b", IP "b" 2 Copy None); (lit "d", IP "d" 1 Editable (Some (lit "d >= 1")))].
Proof.
  cbv zeta. split; [|split; vm_compute; reflexivity]. unfold plan_input. split; [|split].
  - cbn. constructor; [intros [X|[X|[]]]; discriminate|]. constructor; [intros [X|[]]; discriminate|]. constructor; [intros []|constructor].
  - cbn. constructor; [intros [X|[X|[]]]; discriminate|]. constructor; [intros [X|[]]; discriminate|]. constructor; [intros []|constructor].
  - intros r [<-|[<-|[<-|[<-|[]]]]] E; try discriminate E. exists (IP "a" 1 Copy (Some (lit "a"))). split; [left; reflexivity|split; reflexivity].
Qed.
(** the store mode of a package that is resolved to the installed package is not changed *)
Theorem C32_store_mode_refuted : exists installed packages store_modes,
  plan_input installed packages /\ dict_get (lit "a") store_modes = Some Editable /\ compute_operations installed packages [] store_modes = [OUpdate (RP "a" 1 false true)] /\
  execute [] store_modes installed (compute_operations installed packages [] store_modes) = [(lit "a", IP "a" 1 Copy None)].
Proof.
  exists [IP "a" 1 Copy (Some (lit "a"))], [RP "a" 1 false true], [(lit "a", Editable)]. split; [|vm_compute; auto]. split; [|split].
  - cbn. constructor; [intros []|constructor].
  - cbn. constructor; [intros []|constructor].
  - intros r [<-|[]] _. eexists. split; [left; reflexivity|split; reflexivity].
Qed.
Print Assumptions C32_store_mode_refuted.
(** installed packages that are not part of the resolution do not stay untouched: they are removed *)
Theorem C32_unrelated_removed_refuted : exists installed packages, plan_input installed packages /\
  In (IP "tool" 1 Copy None) installed /\ In (ORemove (IP "tool" 1 Copy None)) (compute_operations installed packages [] []).
Proof.
  exists [IP "tool" 1 Copy None], [RP "a" 1 false false]. split; [|split; [left; reflexivity|vm_compute; auto]]. split; [|split].
  - cbn. constructor; [intros []|constructor].
  - cbn. constructor; [intros []|constructor].
  - intros r [<-|[]] E. discriminate E.
Qed.
Print Assumptions C32_unrelated_removed_refuted.

(** ** C33: uninstall removes exactly what nobody needs any more *)
(** [find_orphan_packages] answers for every dependency graph, and answers exactly the packages that no requested
    package reaches through published dependencies (whether they apply in this environment or not) *)
Theorem C33_orphans_end : forall installed, NoDup (map g_key installed) -> exists fuel res, find_orphan_packages fuel installed = Some res.
Proof. intros installed N. exists (length installed + cost installed []). exact (orphans_ends installed N). Qed.
Print Assumptions C33_orphans_end.
Theorem C33_orphans_exact_partial : forall fuel installed res, NoDup (map g_key installed) -> find_orphan_packages fuel installed = Some res -> forall p,
  In p res <-> In p installed /\ ~ reachable installed (fun _ => true) (filter g_requested installed) p.
Proof. exact orphans_exact. Qed.
Print Assumptions C33_orphans_exact_partial.
Example C33_orphans_witness :
  let a := GP "a" "a" true [(lit "b", true)] in let b := GP "b" "b" false [(lit "a", true); (lit "x", true)] in let c := GP "c" "c" false [(lit "d", true)] in let d := GP "d" "d" false [(lit "c", true)] in
  find_orphan_packages 20 [a; b; c; d] = Some [c; d].
Proof. vm_compute. reflexivity. Qed.
(** a package needed only by a dependency that does not apply here is not reported *)
Theorem C33_inapplicable_refuted : exists installed res p, NoDup (map g_key installed) /\ find_orphan_packages 20 installed = Some res /\
  In p installed /\ ~ reachable installed snd (filter g_requested installed) p /\ ~ In p res.
Proof.
  exists [GP "a" "a" true [(lit "winlib", false)]; GP "winlib" "winlib" false []], [], (GP "winlib" "winlib" false []). split; [|split; [|split; [|split]]].
  - cbn. constructor; [intros [X|[]]; discriminate|]. constructor; [intros []|constructor].
  - vm_compute. reflexivity.
  - right. left. reflexivity.
  - assert (G : forall p, reachable [GP "a" "a" true [(lit "winlib", false)]; GP "winlib" "winlib" false []] snd (filter g_requested [GP "a" "a" true [(lit "winlib", false)]; GP "winlib" "winlib" false []]) p -> p = GP "a" "a" true [(lit "winlib", false)]).
    { intros p R. induction R as [p I|p d q R IH I U F]; [cbn in I; destruct I as [I|[]]; auto|]. subst p. cbn in I. destruct I as [<-|[]]. discriminate U. }
    intro R. apply G in R. discriminate R.
  - intros [].
Qed.
Print Assumptions C33_inapplicable_refuted.
(** [uninstall]: with the resolver answering the installed packages that the remaining requests reach, and names given as
    the packages spell them, exactly the needed packages stay, the named ones without their mark, and exactly the names
    that are gone are returned *)
Definition needed (installed : list gpkg) (to_remove : list str) : gpkg -> Prop :=
  reachable installed snd (filter (fun p => g_requested p && negb (str_mem (g_name p) to_remove)) installed).
Definition uninstall_input (key : str -> str) (installed : list gpkg) (to_remove : list str) (solution : list gpkg) : Prop :=
  (forall p, In p installed -> g_key p = key (g_name p)) /\ NoDup (map g_key installed) /\
  (forall p, In p solution <-> needed installed to_remove p) /\
  (forall n p, In n to_remove -> In p installed -> key n = key (g_name p) -> n = g_name p).
Theorem C33_uninstall_partial : forall key installed to_remove solution, uninstall_input key installed to_remove solution ->
  (forall p, In p installed -> needed installed to_remove p ->
     In (GP (g_name p) (g_key p) (g_requested p && negb (str_mem (g_name p) to_remove)) (g_deps p)) (fst (uninstall key installed to_remove solution))) /\
  (forall p, In p installed -> ~ needed installed to_remove p -> forall q, In q (fst (uninstall key installed to_remove solution)) -> g_key q <> g_key p) /\
  (forall q, In q (fst (uninstall key installed to_remove solution)) -> exists p, In p installed /\ g_key p = g_key q) /\
  (forall n, In n (snd (uninstall key installed to_remove solution)) <-> In n to_remove /\ forall p, needed installed to_remove p -> key (g_name p) <> key n).
Proof.
  intros key installed rm sol (K & N & S & P). split; [|split; [|split]].
  - intros p I. apply (uninstall_kept key installed rm sol K N S P p I).
  - intros p I. apply (uninstall_kept key installed rm sol K N S P p I).
  - intros q J. destruct (uninstall_only key installed rm sol N S q J) as (p & A & B & _). exists p. auto.
  - intro n. exact (uninstall_reported key installed rm sol S P n).
Qed.
Print Assumptions C33_uninstall_partial.
(** the same with the resolver as a function that answers what the packages it is given reach *)
Theorem C33_resolved_partial : forall key resolve installed to_remove,
  (forall p, In p installed -> g_key p = key (g_name p)) -> NoDup (map g_key installed) ->
  (forall requests, incl requests installed -> forall p, In p (resolve requests) <-> reachable installed snd requests p) ->
  (forall n p, In n to_remove -> In p installed -> key n = key (g_name p) -> n = g_name p) ->
  let after := uninstall_with key resolve installed to_remove in
  (forall p, In p installed -> needed installed to_remove p ->
     In (GP (g_name p) (g_key p) (g_requested p && negb (str_mem (g_name p) to_remove)) (g_deps p)) (fst after)) /\
  (forall p, In p installed -> ~ needed installed to_remove p -> forall q, In q (fst after) -> g_key q <> g_key p) /\
  (forall q, In q (fst after) -> exists p, In p installed /\ g_key p = g_key q) /\
  (forall n, In n (snd after) <-> In n to_remove /\ forall p, needed installed to_remove p -> key (g_name p) <> key n).
Proof.
  intros key resolve installed rm K N R P after. apply C33_uninstall_partial. split; [exact K|]. split; [exact N|]. split; [|exact P].
  apply R. intros p I. apply filter_In in I. apply I.
Qed.
Print Assumptions C33_resolved_partial.
Example C33_resolved_witness :
  let a := GP "a" "a" true [(lit "b", true)] in let b := GP "b" "b" false [] in
  (forall requests, incl requests [a; b] -> forall p, In p (flat_map (fun r => if str_eqb (g_name r) "a" then [a; b] else [r]) requests) <-> reachable [a; b] snd requests p) /\
  uninstall_with lower (flat_map (fun r => if str_eqb (g_name r) "a" then [a; b] else [r])) [a; b] [lit "a"] = ([], [lit "a"]).
Proof.
  cbv zeta. split; [|vm_compute; reflexivity]. intros rq I p. rewrite in_flat_map. split.
  - intros (r & J & Q). destruct (I r J) as [<-|[<-|[]]]; cbn [g_name] in Q.
    + change (str_eqb "a" "a") with true in Q. cbv iota in Q. destruct Q as [<-|[<-|[]]]; [apply reach_root; exact J|].
      apply (reach_dep _ _ _ _ (lit "b", true) _ (reach_root _ _ _ _ J)); [left; reflexivity|reflexivity|vm_compute; reflexivity].
    + change (str_eqb "b" "a") with false in Q. cbv iota in Q. destruct Q as [<-|[]]. apply reach_root. exact J.
  - intro R. induction R as [p J|p d q R IH J U F].
    + exists p. split; [exact J|]. destruct (I p J) as [<-|[<-|[]]]; left; reflexivity.
    + destruct IH as (r & J1 & Q). destruct (I r J1) as [<-|[<-|[]]]; cbn [g_name] in Q.
      * change (str_eqb "a" "a") with true in Q. cbv iota in Q. exists (GP "a" "a" true [(lit "b", true)]). split; [exact J1|].
        apply find_pkg_spec in F. destruct F as [F _]. exact F.
      * change (str_eqb "b" "a") with false in Q. cbv iota in Q. destruct Q as [<-|[]]. destruct J.
Qed.
Example C33_uninstall_witness :
  let a := GP "a" "a" true [(lit "b", true); (lit "c", false)] in let b := GP "b" "b" true [(lit "a", true)] in let c := GP "c" "c" true [] in
  uninstall_input lower [a; b; c] [lit "b"; lit "c"] [a; b] /\
  uninstall lower [a; b; c] [lit "b"; lit "c"] [a; b] = ([a; GP "b" "b" false [(lit "a", true)]], [lit "c"]).
Proof.
  cbv zeta. split; [|vm_compute; reflexivity]. unfold uninstall_input. split; [|split; [|split]].
  - intros p [<-|[<-|[<-|[]]]]; vm_compute; reflexivity.
  - cbn. constructor; [intros [X|[X|[]]]; discriminate|]. constructor; [intros [X|[]]; discriminate|]. constructor; [intros []|constructor].
  - intro p. split.
    + assert (RA : needed [GP "a" "a" true [(lit "b", true); (lit "c", false)]; GP "b" "b" true [(lit "a", true)]; GP "c" "c" true []] [lit "b"; lit "c"] (GP "a" "a" true [(lit "b", true); (lit "c", false)])) by (apply reach_root; vm_compute; left; reflexivity).
      intros [<-|[<-|[]]]; [exact RA|]. apply (reach_dep _ _ _ _ (lit "b", true) _ RA); [left; reflexivity|reflexivity|vm_compute; reflexivity].
    + intro R. unfold needed in R. induction R as [p I|p d q R IH I U F].
      * vm_compute in I. destruct I as [<-|[]]. left. reflexivity.
      * destruct IH as [<-|[<-|[]]]; cbn [g_deps] in I.
        -- destruct I as [<-|[<-|[]]]; [|discriminate U]. vm_compute in F. injection F as <-. right. left. reflexivity.
        -- destruct I as [<-|[]]. vm_compute in F. injection F as <-. left. reflexivity.
  - intros n p [<-|[<-|[]]] [<-|[<-|[<-|[]]]]; vm_compute; intro X; reflexivity || discriminate X.
Qed.
(** a name that is spelled differently from the package is reported as removed, yet the package stays, still requested *)
Theorem C33_spelling_refuted : exists installed to_remove solution, (forall p, In p solution <-> needed installed to_remove p) /\
  to_remove = [lit "Foo_Bar"] /\ package_name_key "Foo_Bar" = Ok (lit "foo_bar") /\ package_name_key "foo-bar" = Ok (lit "foo_bar") /\
  uninstall (fun n => match package_name_key n with Ok k => k | Err _ => [] end) installed to_remove solution =
    ([GP "foo-bar" "foo_bar" true []], [lit "Foo_Bar"]).
Proof.
  exists [GP "foo-bar" "foo_bar" true []], [lit "Foo_Bar"], [GP "foo-bar" "foo_bar" true []]. split; [|split; [|split; [|split]]]; try (vm_compute; reflexivity).
  intro p. split.
  - intros [<-|[]]. apply reach_root. vm_compute. left. reflexivity.
  - intro R. destruct R as [p I|p d q R I U F]; [vm_compute in I; exact I|]. apply find_pkg_spec in F. destruct F as [[<-|[]] _]. left. reflexivity.
Qed.
Print Assumptions C33_spelling_refuted.

(** ** C34: removing a package only deletes its own files *)
(** the removal runs to its end, whatever order the directories are visited in, unless a record names a directory *)
Theorem C34_ends : forall dist_info records f, (forall p, In p (installed_files dist_info records) -> is_dir f p = false) -> exists f', removal dist_info records f f'.
Proof. exact removal_exists. Qed.
Print Assumptions C34_ends.
Theorem C34_own_files_gone : forall dist_info records f f', removal dist_info records f f' -> forall p,
  In p (installed_files dist_info records) \/ under dist_info p = true -> lookup f' p = None.
Proof. exact removal_gone. Qed.
Print Assumptions C34_own_files_gone.
(** every other file stays, except below the [__pycache__] directories of the directories of the package *)
Theorem C34_other_files_stay_partial : forall dist_info records f f', removal dist_info records f f' -> forall p c, lookup f p = Some (File c) ->
  ~ In p (installed_files dist_info records) -> under dist_info p = false ->
  (forall d q, In q (installed_files dist_info records) -> under d (parent q) = true -> eligible (parent dist_info) d = true -> under (pycache d) p = false) ->
  lookup f' p = Some (File c).
Proof. exact removal_files. Qed.
Print Assumptions C34_other_files_stay_partial.
(** directories that go held files of the package and are empty, or belong to a [__pycache__] or the dist-info *)
Theorem C34_removed_directories : forall dist_info records f f', removal dist_info records f f' -> forall d, lookup f d = Some Dir -> lookup f' d = None ->
  under dist_info d = true \/
  (exists e q, In q (installed_files dist_info records) /\ under e (parent q) = true /\ eligible (parent dist_info) e = true /\ under (pycache e) d = true) \/
  (exists q, In q (installed_files dist_info records) /\ under d (parent q) = true /\ eligible (parent dist_info) d = true /\ forall c, lookup f' (c :: d) = None).
Proof. exact removal_dirs. Qed.
Print Assumptions C34_removed_directories.
(** no directory of the site is left empty by the removal *)
Theorem C34_no_empty_directory_left : forall dist_info records f f', removal dist_info records f f' -> forall q,
  eligible (parent dist_info) q = true -> is_empty_directory f q = false -> is_empty_directory f' q = false.
Proof. exact removal_no_empty. Qed.
Print Assumptions C34_no_empty_directory_left.
Definition C34_site : path := [lit "site"].
Definition C34_info : path := lit "a.dist-info" :: C34_site.
Definition C34_fs : fs :=
  [(C34_site, Dir); (C34_info, Dir); (lit "RECORD" :: C34_info, File "r"); (lit "lib" :: C34_site, Dir); ([lit "a.py"; lit "lib"; lit "site"], File "a");
   ([lit "b.py"; lit "lib"; lit "site"], File "b"); ([lit "secret"], File "s");
   ([lit "__pycache__"; lit "lib"; lit "site"], Dir); ([lit "b.pyc"; lit "__pycache__"; lit "lib"; lit "site"], File "pb")].
(** the file system afterwards: the package's file, its dist-info and the shared [__pycache__] are gone *)
Definition C34_after : fs := [(C34_site, Dir); ([lit "lib"; lit "site"], Dir); ([lit "b.py"; lit "lib"; lit "site"], File "b"); ([lit "secret"], File "s")].
Example C34_witness : removal C34_info [lit "lib/a.py"] C34_fs C34_after.
Proof.
  eexists. exists C34_after. split; [vm_compute; reflexivity|]. split; [|vm_compute; reflexivity].
  eapply (clean_keep _ _ _ [lit "lib"; lit "site"]); [vm_compute; left; reflexivity|vm_compute; reflexivity|vm_compute; reflexivity|].
  eapply (clean_rmdir _ _ _ C34_info); [vm_compute; left; reflexivity|vm_compute; reflexivity|vm_compute; reflexivity|].
  eapply (clean_skip _ _ _ C34_site); [vm_compute; left; reflexivity|vm_compute; reflexivity|].
  match goal with |- clean _ ?f ?s _ => let s' := eval vm_compute in s in change s with s'; let f' := eval vm_compute in f in change f with f' end. apply clean_done.
Qed.
(** the compiled files of another package in a shared directory are deleted *)
Theorem C34_shared_pycache_refuted : exists dist_info records f f' p c, removal dist_info records f f' /\ lookup f p = Some (File c) /\ under (parent dist_info) p = true /\ ~ In p (installed_files dist_info records) /\ under dist_info p = false /\ lookup f' p = None.
Proof.
  exists C34_info, [lit "lib/a.py"], C34_fs, C34_after, [lit "b.pyc"; lit "__pycache__"; lit "lib"; lit "site"], "pb". split; [exact C34_witness|]. split; [vm_compute; reflexivity|]. split; [vm_compute; reflexivity|].
  split; [intros [X|[X|[]]]; vm_compute in X; discriminate|]. split; vm_compute; reflexivity.
Qed.
Print Assumptions C34_shared_pycache_refuted.
(** a record that leads out of the installation target deletes a file outside of it *)
Theorem C34_escape_refuted : exists dist_info records f p c, lookup f p = Some (File c) /\ under (parent dist_info) p = false /\ (exists f', removal dist_info records f f') /\ forall f', removal dist_info records f f' -> lookup f' p = None.
Proof.
  exists C34_info, [lit "../secret"], C34_fs, [lit "secret"], "s". split; [vm_compute; reflexivity|]. split; [vm_compute; reflexivity|]. split.
  - apply removal_exists. intros p [<-|[<-|[]]]; vm_compute; reflexivity.
  - intros f' R. apply (removal_gone _ _ _ _ R). left. left. vm_compute. reflexivity.
Qed.
Print Assumptions C34_escape_refuted.
