(** C181 - C188: the commands that change a project, its publication, stored credentials and tasks. *)
From Coq Require Import String Ascii List Bool NArith Arith Lia.
From Verif Require Import Base BaseFacts FsModel FsFacts NamesModel VersionModel VersionParse SpecifierModel MarkerModel DependencyModel ProjectModel ProjectProofs PlanModel PlanProps
  ControllerModel ControllerProofs.
Import ListNotations.
Open Scope string_scope.
Open Scope nat_scope.
Open Scope list_scope.
Open Scope bool_scope.

(** a small world for the samples: an environment is a list of packages with their versions; of the dependencies without a marker,
    and of those of the group, the first allowed version is installed *)
Definition final (r : list N) : version := VStd (SV r None None None None None).
Definition toy_env := list (str * version).
Definition toy_key (n : str) : str := match package_name_key n with Ok k => k | Err _ => [] end.
Definition toy_installed (e : toy_env) (n : str) : option (str * version) :=
  if is_ok (package_name_key n) then find (fun p => str_eqb (toy_key (fst p)) (toy_key n) && is_ok (package_name_key (fst p))) e else None.
Definition toy_install (index : toy_env) (l : list dep) (g : option str) (u : list str) (m : list (str * unit)) (e : toy_env) : toy_env * option exn :=
  fold_left (fun o d => match o with
    | (e, Some x) => (e, Some x)
    | (e, None) => if match d_marker d, g with None, _ => true | Some k, Some n => str_eqb (marker_str k) (extra_is n) | _, _ => false end
                   then match find (fun p => str_eqb (fst p) (d_name d) && allows (d_spec d) (snd p)) index with
                        | Some p => (p :: e, None)
                        | None => (e, Some UnsatError)
                        end
                   else (e, None)
    end) l (e, None).
Definition toy_remove (names : list str) (force : bool) (e : toy_env) : toy_env * option exn := (filter (fun p => negb (str_mem (fst p) names)) e, None).
Definition fine {A} (a : A) : option exn := None.
Definition fine_lock {A} (e : A) (l : nat) : nat * option exn := (S l, None).
Definition broken_lock {A} (e : A) (l : nat) : nat * option exn := (l, Some IOErr).
Definition plain (n : str) (s : spec) : dep := Dep n s None None.
Definition shop : toy_env := [(lit "b", final [2%N; 1%N]); (lit "a", final [1%N; 4%N; 2%N]); (lit "c", final [3%N])].
Definition old_b : dep := plain (lit "b") (Match (final [2%N; 1%N]) true).
Definition fresh (c : config) : world toy_env nat := World c None c [] 0.

(** *** C181: what is written down *)
(** Missing: requests without a version lose their extras and their marker, below. *)
Theorem C181_written_partial : forall Env Lock Mode install_project installed save update_lock deps group update mode (w w' : world Env Lock),
  install_dependencies install_project installed save update_lock deps group update (mode : Mode) w = (w', None) ->
  NoDup (map dep_key deps) ->
  (forall e n m v, installed e n = Some (m, v) -> package_name_key m = package_name_key n /\ is_ok (package_name_key n) = true) ->
  w_file w' = w_memory w' /\
  (exists news, get_list group (w_memory w') = filter (fun d => negb (str_mem (dep_key d) (map dep_key deps))) (get_list group (w_memory w)) ++ news /\
     Forall2 (fun d n => d_spec d <> AllowAll /\ n = d \/
                         d_spec d = AllowAll /\ exists m v, installed (w_env w') (d_name d) = Some (m, v) /\ d_name n = m /\ allows (d_spec n) v = true) deps news) /\
  (forall h, the_group h <> the_group group -> get_list h (w_memory w') = get_list h (w_memory w)).
Proof.
  intros Env Lock Mode ip ins sv ul deps group update mode w w' H ND K. unfold install_dependencies in H.
  set (w1 := set_memory Env Lock (put_list group (combined deps (get_list group (w_memory w))) (w_memory w)) w) in *.
  destruct (try_install _ _ _ _ _ _ _ deps group update mode w1) as [w2 [x|]] eqn:T; [discriminate|]. injection H as ->.
  unfold try_install, run_install, next, see in T.
  assert (S : exists l, (w_seen w1 = Some l \/ all_dependencies (c_deps (w_memory w1)) (c_groups (w_memory w1)) = Ok l)
    /\ exists e, ip l group (if update then map d_name deps else []) (map (fun d => (d_name d, mode)) deps) (w_env w1) = (e, None) /\
    exists l2, refine_all Env ins e (get_list group (w_memory w1)) deps = Ok l2 /\ w_env w' = e /\ w_memory w' = put_list group l2 (w_memory w1) /\ w_file w' = w_memory w').
  { destruct (w_seen w1) as [l|] eqn:SE.
    - exists l. split; [left; reflexivity|]. destruct (ip l _ _ _ _) as [e [x|]]; [discriminate|]. exists e. split; [reflexivity|]. cbn in T.
      destruct (refine_all _ _ _ _ _) as [l2|] eqn:R; [|discriminate]. exists l2. unfold run_save, run_lock in T. cbn in T. destruct (sv _); [discriminate|].
      cbn in T. destruct (ul e (w_lock w)) as [k [x|]]; [discriminate|]. injection T as <-. cbn. auto.
    - destruct (all_dependencies _ _) as [l|]; [|discriminate]. exists l. split; [right; reflexivity|]. cbn in T. destruct (ip l _ _ _ _) as [e [x|]] eqn:I; [discriminate|].
      exists e. split; [reflexivity|]. cbn in T. destruct (refine_all _ _ _ _ _) as [l2|] eqn:R; [|discriminate]. exists l2. unfold run_save, run_lock in T. cbn in T.
      destruct (sv _); [discriminate|]. cbn in T. destruct (ul e (w_lock w)) as [k [x|]]; [discriminate|]. injection T as <-. cbn. auto. }
  destruct S as (l & _ & e & _ & l2 & R & EE & EM & EF). split; [exact EF|]. split.
  - unfold w1 in R. cbn [w_memory set_memory] in R. rewrite get_put in R. unfold combined in R.
    destruct (refine_all_written ins e (fun n m v I => proj1 (K e n m v I))) with (ds := deps) (pre := filter (fun d => negb (str_mem (dep_key d) (map dep_key deps))) (get_list group (w_memory w))) (done := @nil dep) (l := l2) as (news & E & F).
    + intros n N. destruct (ins e n) as [[m v]|] eqn:I; [exact (proj2 (K e n m v I))|contradiction].
    + exact ND.
    + intros x I. rewrite app_nil_r in I. apply filter_In in I. destruct I as [_ I]. apply negb_true_iff in I. intro J. apply str_mem_in in J. congruence.
    + exact R.
    + exists news. split; [rewrite EM, get_put; exact E|]. rewrite EE. clear -F. induction F as [|d n ds ns W F IH]; constructor; [|exact IH].
      destruct W as [W|(S & m & v & I & G)]; [left; exact W|right]. split; [exact S|]. exists m, v. destruct (C160_self m v) as (x & G2 & N & A). rewrite G in G2. injection G2 as <-. auto.
  - intros h N. rewrite EM, get_put_other by exact N. unfold w1. cbn [w_memory set_memory]. apply get_put_other. exact N.
Qed.
Print Assumptions C181_written_partial.
Definition toy_run (index : toy_env) (deps : list dep) (group : option str) (w : world toy_env nat) : world toy_env nat * option exn :=
  install_dependencies (toy_install index) toy_installed fine fine_lock deps group false tt w.
Example C181_sample : forall e n m v, toy_installed e n = Some (m, v) -> package_name_key m = package_name_key n /\ is_ok (package_name_key n) = true.
Proof.
  intros e n m v H. unfold toy_installed in H. destruct (is_ok (package_name_key n)) eqn:O; [|discriminate]. split; [|reflexivity].
  apply find_some in H. destruct H as [_ H]. cbn [fst] in H. apply andb_true_iff in H. destruct H as [E I]. apply str_eqb_eq in E. unfold toy_key in E.
  destruct (package_name_key m), (package_name_key n); try discriminate. congruence.
Qed.
Example C181_run_sample : exists w, toy_run shop [plain (lit "a") AllowAll; plain (lit "c") (Match (final [3%N]) true)] None (fresh (Config [old_b; plain (lit "A") (Match (final [1%N]) true)] [])) = (w, None) /\
  map d_name (c_deps (w_file w)) = [lit "b"; lit "a"; lit "c"] /\ map (fun v => map (fun d => allows (d_spec d) v) (c_deps (w_file w))) [final [1%N; 9%N]; final [2%N]] = [[false; true; false]; [false; false; false]].
Proof. eexists. split; [vm_compute; reflexivity|]. split; vm_compute; reflexivity. Qed.
(** the extras of the request are lost *)
Theorem C181_extras_refuted : exists d w, d_extras d = Some [lit "tls"] /\ toy_run shop [d] None (fresh (Config [] [])) = (w, None) /\ map d_extras (c_deps (w_file w)) = [None].
Proof. exists (Dep (lit "a") AllowAll (Some [lit "tls"]) None). eexists. split; [reflexivity|]. split; vm_compute; reflexivity. Qed.
Print Assumptions C181_extras_refuted.
(** a request that is not for this environment cannot be written down: after the installation it fails *)
Theorem C181_marker_refuted : forall m, exists w, toy_run shop [Dep (lit "a") AllowAll None (Some m)] None (fresh (Config [old_b] [])) = (w, Some AssertionError) /\ c_deps (w_file w) = [old_b].
Proof. intro m. eexists. split; reflexivity. Qed.
Print Assumptions C181_marker_refuted.

(** *** C182: an installation that fails *)
Theorem C182_lists : forall Env Lock Mode install_project installed save update_lock deps group update mode (w w' : world Env Lock) e,
  install_dependencies install_project installed save update_lock deps group update (mode : Mode) w = (w', Some e) ->
  forall h, get_list h (w_memory w') = get_list h (w_memory w).
Proof.
  intros Env Lock Mode ip ins sv ul deps group update mode w w' e H h. unfold install_dependencies in H.
  set (w1 := set_memory Env Lock (put_list group (combined deps (get_list group (w_memory w))) (w_memory w)) w) in *.
  destruct (try_install _ _ _ _ _ _ _ deps group update mode w1) as [w2 [x|]] eqn:T; [|discriminate]. injection H as <- ->. cbn [w_memory set_memory].
  assert (M : exists l, w_memory w2 = put_list group l (w_memory w1) \/ w_memory w2 = w_memory w1).
  { unfold try_install, run_install, next, see in T. destruct (w_seen w1).
    - destruct (ip _ _ _ _ _) as [e2 [y|]]; [injection T as <- _; exists []; right; reflexivity|]. cbn in T. destruct (refine_all _ _ _ _ _) as [l2|]; [|injection T as <- _; exists []; right; reflexivity].
      exists l2. left. unfold run_save, run_lock in T. cbn in T. destruct (sv _); [injection T as <- _; reflexivity|]. cbn in T. destruct (ul _ _). injection T as <- _. reflexivity.
    - destruct (all_dependencies _ _) as [l|]; [|injection T as <- _; exists []; right; reflexivity]. cbn in T.
      destruct (ip _ _ _ _ _) as [e2 [y|]]; [injection T as <- _; exists []; right; reflexivity|]. cbn in T. destruct (refine_all _ _ _ _ _) as [l2|]; [|injection T as <- _; exists []; right; reflexivity].
      exists l2. left. unfold run_save, run_lock in T. cbn in T. destruct (sv _); [injection T as <- _; reflexivity|]. cbn in T. destruct (ul _ _). injection T as <- _. reflexivity. }
  assert (D : the_group h = the_group group \/ the_group h <> the_group group).
  { destruct (the_group h) as [a|], (the_group group) as [b|]; try (left; reflexivity); try (right; discriminate). destruct (str_eqb a b) eqn:E; [left; apply str_eqb_eq in E; congruence|].
    right. intro X. injection X as ->. rewrite str_eqb_refl in E. discriminate. }
  destruct D as [D|D].
  - assert (G : forall c, get_list h c = get_list group c). { intro c. unfold get_list. rewrite D. reflexivity. } rewrite !G. apply get_put.
  - rewrite get_put_other by exact D. destruct M as (l & [->| ->]); [rewrite get_put_other by exact D|]; apply get_put_other; exact D.
Qed.
Print Assumptions C182_lists.
(** the file stays as it was; missing: failures of the lock file, which is written last *)
Theorem C182_file_partial : forall Env Lock Mode install_project installed save update_lock deps group update mode (w w' : world Env Lock) e,
  (forall env l, snd (update_lock env l) = None) ->
  install_dependencies install_project installed save update_lock deps group update (mode : Mode) w = (w', Some e) -> w_file w' = w_file w /\ w_lock w' = w_lock w.
Proof.
  intros Env Lock Mode ip ins sv ul deps group update mode w w' e U H. unfold install_dependencies in H.
  set (w1 := set_memory Env Lock (put_list group (combined deps (get_list group (w_memory w))) (w_memory w)) w) in *.
  destruct (try_install _ _ _ _ _ _ _ deps group update mode w1) as [w2 [x|]] eqn:T; [|discriminate]. injection H as <- ->. cbn [w_file w_lock set_memory].
  unfold try_install, run_install, next, see in T. destruct (w_seen w1).
  - destruct (ip _ _ _ _ _) as [e2 [y|]]; [injection T as <- _; auto|]. cbn in T. destruct (refine_all _ _ _ _ _) as [l2|]; [|injection T as <- _; auto].
    unfold run_save, run_lock in T. cbn in T. destruct (sv _); [injection T as <- _; auto|]. cbn in T. specialize (U e2 (w_lock w)). destruct (ul e2 (w_lock w)). cbn in U. subst. discriminate.
  - destruct (all_dependencies _ _) as [l|]; [|injection T as <- _; auto]. cbn in T. destruct (ip _ _ _ _ _) as [e2 [y|]]; [injection T as <- _; auto|]. cbn in T.
    destruct (refine_all _ _ _ _ _) as [l2|]; [|injection T as <- _; auto]. unfold run_save, run_lock in T. cbn in T. destruct (sv _); [injection T as <- _; auto|].
    cbn in T. specialize (U e2 (w_lock w)). destruct (ul e2 (w_lock w)). cbn in U. subst. discriminate.
Qed.
Print Assumptions C182_file_partial.
Example C182_sample : exists w, toy_run shop [plain (lit "zzz") AllowAll] (Some (lit "dev")) (fresh (Config [old_b] [(lit "dev", [plain (lit "c") AllowAll])])) = (w, Some UnsatError) /\
  w_memory w = Config [old_b] [(lit "dev", [plain (lit "c") AllowAll])].
Proof. eexists. split; [vm_compute; reflexivity|]. vm_compute. reflexivity. Qed.
(** the lock file cannot be written: the command fails, but pyproject.toml has the new dependency and the object in memory has not *)
Theorem C182_lock_refuted : exists w, install_dependencies (toy_install shop) toy_installed fine broken_lock [plain (lit "c") (Match (final [3%N]) true)] None false tt (fresh (Config [old_b] [])) = (w, Some IOErr) /\
  map d_name (c_deps (w_file w)) = [lit "b"; lit "c"] /\ map d_name (c_deps (w_memory w)) = [lit "b"].
Proof. eexists. split; [vm_compute; reflexivity|]. split; vm_compute; reflexivity. Qed.
Print Assumptions C182_lock_refuted.
(** the failed request is remembered: the next installation of the project fails as well, although it is not listed any more *)
Theorem C182_remembered_refuted : exists w w2, toy_run shop [plain (lit "zzz") AllowAll] None (fresh (Config [old_b] [])) = (w, Some UnsatError) /\
  c_deps (w_memory w) = [old_b] /\ run_install (toy_install shop) None [] [] w = (w2, Some UnsatError) /\
  snd (run_install (toy_install shop) None [] [] (fresh (Config [old_b] []))) = None.
Proof. do 2 eexists. split; [vm_compute; reflexivity|]. split; [vm_compute; reflexivity|]. split; vm_compute; reflexivity. Qed.
Print Assumptions C182_remembered_refuted.
(** a new group that could not be installed stays as an empty one *)
Theorem C182_group_refuted : exists w, toy_run shop [plain (lit "zzz") AllowAll] (Some (lit "dev")) (fresh (Config [old_b] [])) = (w, Some UnsatError) /\ c_groups (w_memory w) = [(lit "dev", [])].
Proof. eexists. split; vm_compute; reflexivity. Qed.
Print Assumptions C182_group_refuted.

(** *** C183: removing dependencies *)
Theorem C183_removed : forall Env Lock update_at uninstall save update_lock names force (w w' : world Env Lock) ,
  uninstall_dependencies update_at uninstall save update_lock names force w = (w', None) ->
  w_file w' = w_memory w' /\
  forall h d, In d (get_list h (w_memory w')) <-> In d (get_list h (w_memory w)) /\ forall n, In n names -> package_name_key n <> Ok (dep_key d).
Proof.
  intros Env Lock ua un sv ul names force w w' H. unfold uninstall_dependencies in H. destruct (keys_of names) as [keys|] eqn:K; [|discriminate].
  set (c := Config (without keys (c_deps (w_memory w))) (map (fun g => (fst g, without keys (snd g))) (c_groups (w_memory w)))) in *.
  assert (M : w_memory w' = c /\ w_file w' = c).
  { unfold see in H. cbn in H. destruct (w_seen w).
    - destruct (ua _ _) as [e [x|]]; [discriminate|]. cbn in H. destruct (un _ _ _) as [e2 [x|]]; [discriminate|]. cbn in H. unfold run_save, run_lock in H. cbn in H.
      destruct (sv _); [discriminate|]. cbn in H. destruct (ul _ _) as [l3 [x|]]; [discriminate|]. injection H as <-. cbn. auto.
    - destruct (all_dependencies _ _); [|discriminate]. cbn in H. destruct (ua _ _) as [e [x|]]; [discriminate|]. cbn in H. destruct (un _ _ _) as [e2 [x|]]; [discriminate|]. cbn in H. unfold run_save, run_lock in H. cbn in H.
      destruct (sv _); [discriminate|]. cbn in H. destruct (ul _ _) as [l3 [x|]]; [discriminate|]. injection H as <-. cbn. auto. }
  destruct M as [M F]. split; [congruence|]. intros h d. rewrite M.
  assert (G : get_list h c = without keys (get_list h (w_memory w))).
  { unfold get_list, c. destruct (the_group h) as [n|]; [|reflexivity]. cbn [c_groups]. clear. induction (c_groups (w_memory w)) as [|[k l] r IH]; [reflexivity|]. cbn.
    destruct (str_eqb n k); [reflexivity|]. exact IH. }
  rewrite G. unfold without. rewrite filter_In. assert (KS : str_mem (dep_key d) keys = true <-> exists n, In n names /\ package_name_key n = Ok (dep_key d)).
  { rewrite str_mem_in. clear -K. revert keys K. induction names as [|n names IH]; intros keys K; [injection K as <-; split; [intros []|intros (n & [] & _)]|]. cbn in K.
    destruct (package_name_key n) as [k|] eqn:E; [|discriminate]. cbn in K. destruct (keys_of names) as [ks|]; [|discriminate]. injection K as <-. specialize (IH ks eq_refl). split.
    - intros [->|I]; [exists n; split; [left; reflexivity|exact E]|]. apply IH in I. destruct I as (m & I & Em). exists m. split; [right; exact I|exact Em].
    - intros (m & [<-|I] & Em); [left; congruence|]. right. apply IH. exists m. auto. }
  split.
  - intros [I N]. split; [exact I|]. intros n In_ E. apply negb_true_iff in N. assert (T : str_mem (dep_key d) keys = true) by (apply KS; exists n; auto). congruence.
  - intros [I N]. split; [exact I|]. apply negb_true_iff. destruct (str_mem (dep_key d) keys) eqn:T; [|reflexivity]. destruct (proj1 KS eq_refl) as (n & In_ & E). destruct (N n In_ E).
Qed.
Print Assumptions C183_removed.
(** a removal that fails writes nothing; missing: failures of the lock file *)
Theorem C183_file_partial : forall Env Lock update_at uninstall save update_lock names force (w w' : world Env Lock) e,
  (forall env l, snd (update_lock env l) = None) -> uninstall_dependencies update_at uninstall save update_lock names force w = (w', Some e) -> w_file w' = w_file w /\ w_lock w' = w_lock w.
Proof.
  intros Env Lock ua un sv ul names force w w' e U H. unfold uninstall_dependencies in H. destruct (keys_of names) as [keys|] eqn:K; [|injection H as <- _; auto].
  unfold see in H. cbn in H. destruct (w_seen w).
  - destruct (ua _ _) as [e1 [x|]]; [injection H as <- _; auto|]. cbn in H. destruct (un _ _ _) as [e2 [x|]]; [injection H as <- _; auto|]. cbn in H. unfold run_save, run_lock in H. cbn in H.
    destruct (sv _); [injection H as <- _; auto|]. cbn in H. specialize (U e2 (w_lock w)). destruct (ul e2 (w_lock w)). cbn in U. subst. discriminate.
  - destruct (all_dependencies _ _); [|injection H as <- _; auto]. cbn in H. destruct (ua _ _) as [e1 [x|]]; [injection H as <- _; auto|]. cbn in H. destruct (un _ _ _) as [e2 [x|]]; [injection H as <- _; auto|].
    cbn in H. unfold run_save, run_lock in H. cbn in H. destruct (sv _); [injection H as <- _; auto|]. cbn in H. specialize (U e2 (w_lock w)). destruct (ul e2 (w_lock w)). cbn in U. subst. discriminate.
Qed.
Print Assumptions C183_file_partial.
Definition toy_update (l : list dep) (e : toy_env) : toy_env * option exn := (e, None).
Example C183_sample : exists w, uninstall_dependencies toy_update toy_remove fine fine_lock [lit "Py_Yaml"; lit "b"] false
    (fresh (Config [old_b; plain (lit "PyYAML") AllowAll; plain (lit "py-yaml") AllowAll] [(lit "dev", [plain (lit "py.yaml") AllowAll; plain (lit "c") AllowAll])])) = (w, None) /\
  map d_name (c_deps (w_file w)) = [lit "PyYAML"] /\ map (fun g => map d_name (snd g)) (c_groups (w_file w)) = [[lit "c"]].
Proof. eexists. split; [vm_compute; reflexivity|]. split; vm_compute; reflexivity. Qed.
(** the environment cannot be changed: the dependency is gone from memory, and the next command that saves writes that *)
Theorem C183_memory_refuted : exists un w, uninstall_dependencies toy_update un fine fine_lock [lit "b"] false (fresh (Config [old_b] [])) = (w, Some UnsatError) /\
  c_deps (w_file w) = [old_b] /\ c_deps (w_memory w) = [].
Proof. exists (fun _ _ e => (e, Some UnsatError)). eexists. split; [vm_compute; reflexivity|]. split; vm_compute; reflexivity. Qed.
Print Assumptions C183_memory_refuted.

(** *** C184: new dependencies are installed *)
(** the project is installed with the new dependencies; missing: when the dependencies were looked at before, below *)
Theorem C184_installed_partial : forall Env Lock Mode install_project installed save update_lock deps update mode (w w' : world Env Lock),
  w_seen w = None -> install_dependencies install_project installed save update_lock deps None update (mode : Mode) w = (w', None) ->
  exists l, (forall d, In d deps -> In d l) /\ (forall d, In d (c_deps (w_memory w)) -> ~ In (dep_key d) (map dep_key deps) -> In d l) /\
    (w_env w', None) = install_project l None (if update then map d_name deps else []) (map (fun d => (d_name d, mode)) deps) (w_env w).
Proof.
  intros Env Lock Mode ip ins sv ul deps update mode w w' S H. unfold install_dependencies in H.
  set (w1 := set_memory Env Lock (put_list None (combined deps (get_list None (w_memory w))) (w_memory w)) w) in *.
  destruct (try_install _ _ _ _ _ _ _ deps None update mode w1) as [w2 [x|]] eqn:T; [discriminate|]. injection H as ->.
  unfold try_install, run_install, next, see in T. change (w_seen w1) with (w_seen w) in T. rewrite S in T.
  destruct (all_dependencies _ _) as [l|] eqn:A; [|discriminate]. cbn in T. destruct (ip l _ _ _ _) as [e [x|]] eqn:I; [discriminate|]. cbn in T.
  destruct (refine_all _ _ _ _ _) as [l2|]; [|discriminate]. unfold run_save, run_lock in T. cbn in T. destruct (sv _); [discriminate|]. cbn in T. destruct (ul e (w_lock w)) as [k [x|]]; [discriminate|].
  injection T as <-. cbn [w_env set_lock set_file set_memory set_env]. exists l. unfold all_dependencies in A. cbn in A. destruct (optional_deps _) as [o|]; [|discriminate]. cbn in A. injection A as <-.
  unfold combined. split; [|split; [|symmetry; exact I]].
  - intros d D. rewrite !in_app_iff. left. right. exact D.
  - intros d D N. rewrite !in_app_iff. left. left. apply filter_In. split; [exact D|]. apply negb_true_iff. destruct (str_mem (dep_key d) (map dep_key deps)) eqn:E; [|reflexivity]. apply str_mem_in in E. contradiction.
Qed.
Print Assumptions C184_installed_partial.
Example C184_sample : exists w, toy_run shop [plain (lit "a") AllowAll] None (fresh (Config [old_b] [])) = (w, None) /\ map fst (w_env w) = [lit "a"; lit "b"].
Proof. eexists. split; vm_compute; reflexivity. Qed.
(** a second installation by the same object does not see the new dependency *)
Theorem C184_again_refuted : exists w w2, toy_run shop [plain (lit "c") (Match (final [3%N]) true)] None (fresh (Config [] [])) = (w, None) /\
  toy_run shop [old_b] None w = (w2, None) /\ map d_name (c_deps (w_file w2)) = [lit "c"; lit "b"] /\ toy_installed (w_env w2) (lit "b") = None.
Proof. do 2 eexists. split; [vm_compute; reflexivity|]. split; [vm_compute; reflexivity|]. split; vm_compute; reflexivity. Qed.
Print Assumptions C184_again_refuted.

(** *** C185: publication *)
(** exactly the files of the directory of the version are sent, each once; the directory is built if it is not there.
    Missing: that it belongs to the present state of the project, below *)
Theorem C185_sent_partial : forall build listing accepts dist version publishable params given ask f log f' log' args,
  (forall f p n, In n (listing f p) <-> exists_at f (n :: p) = true) -> (forall f p, NoDup (listing f p)) ->
  publish build listing accepts dist version publishable params given ask f log = (f', log', Ok args) ->
  (exists up, log' = log ++ up /\ NoDup (map fst up) /\ forall n c, In (n, c) up <-> lookup f' (n :: version :: dist) = Some (File c)) /\
  (f' = f \/ exists_at f (version :: dist) = false /\ build f = (f', None)) /\
  map fst args = params /\ forall p v, In (p, v) args -> (dict_get p given = Some v \/ v = ask p).
Proof.
  intros build listing accepts dist version publishable params given ask f log f' log' args L ND H. unfold publish in H.
  assert (U : forall f dir names log log', NoDup names -> upload accepts f dir names log = (log', None) ->
    exists up, log' = log ++ up /\ NoDup (map fst up) /\ forall n c, In (n, c) up <-> In n names /\ lookup f (n :: dir) = Some (File c)).
  { clear. intros f dir names. induction names as [|n names IH]; intros log log' N H.
    - injection H as <-. exists []. split; [rewrite app_nil_r; reflexivity|]. split; [constructor|]. intros n c. split; [intros []|intros [[] _]].
    - inversion N as [|? ? N1 N2]; subst. cbn [upload] in H. destruct (lookup f (n :: dir)) as [[c|]|] eqn:E.
      + destruct (accepts log (n, c)); [discriminate|]. destruct (IH _ _ N2 H) as (up & -> & U1 & U2). exists ((n, c) :: up). split; [rewrite <- app_assoc; reflexivity|]. split.
        * cbn [map fst]. constructor; [|exact U1]. intro I. apply in_map_iff in I. destruct I as ([m d] & Em & I). cbn in Em. subst m. apply U2 in I. destruct I. contradiction.
        * intros m d. split.
          -- intros [X|I]; [injection X as <- <-; split; [left; reflexivity|exact E]|]. apply U2 in I. destruct I as [I1 I2]. split; [right; exact I1|exact I2].
          -- intros [[<-|I] G]; [left; congruence|]. right. apply U2. auto.
      + destruct (IH _ _ N2 H) as (up & -> & U1 & U2). exists up. split; [reflexivity|]. split; [exact U1|]. intros m d. rewrite U2. split; [intros [I G]; split; [right; exact I|exact G]|].
        intros [[<-|I] G]; [congruence|auto].
      + destruct (IH _ _ N2 H) as (up & -> & U1 & U2). exists up. split; [reflexivity|]. split; [exact U1|]. intros m d. rewrite U2. split; [intros [I G]; split; [right; exact I|exact G]|].
        intros [[<-|I] G]; [congruence|auto]. }
  assert (P : forall g, match project_publish listing accepts dist version g log with (l, None) => (g, l, Ok (map (fun p => (p, match dict_get p given with Some (c :: v) => c :: v | _ => ask p end)) params)) | (l, Some e) => (g, l, Err e) end = (f', log', Ok args) ->
    f' = g /\ (exists up, log' = log ++ up /\ NoDup (map fst up) /\ forall n c, In (n, c) up <-> lookup f' (n :: version :: dist) = Some (File c)) /\
    map fst args = params /\ forall p v, In (p, v) args -> (dict_get p given = Some v \/ v = ask p)).
  { clear H. intros g H. unfold project_publish in H. destruct (exists_at g (version :: dist)); [|discriminate]. destruct (upload accepts g (version :: dist) _ log) as [l [e|]] eqn:E; [discriminate|].
    injection H as <- <- <-. destruct (U _ _ _ _ _ (ND _ _) E) as (up & -> & U1 & U2). split; [reflexivity|]. split; [|split].
    - exists up. split; [reflexivity|]. split; [exact U1|]. intros n c. rewrite U2, L. unfold exists_at. split; [intros [_ G]; exact G|]. intro G. rewrite G. auto.
    - rewrite map_map. apply map_id.
    - intros p v I. apply in_map_iff in I. destruct I as (q & X & _). injection X as -> <-. destruct (dict_get p given) as [[|c v]|]; auto. }
  destruct (exists_at f (version :: dist)) eqn:X.
  - destruct publishable; cbn [negb] in H; [|discriminate]. destruct (P f H) as (-> & A & B). auto.
  - destruct (build f) as [g [e|]] eqn:B; [discriminate|]. destruct publishable; cbn [negb] in H; [|discriminate]. destruct (P g H) as (-> & A & C). split; [exact A|]. split; [right; auto|exact C].
Qed.
Print Assumptions C185_sent_partial.
Definition dist_dir : path := [lit "dist"; lit "project"].
(** a build makes two files of the source *)
Definition toy_build (f : fs) : fs * option exn :=
  match lookup f [lit "code.py"; lit "project"] with
  | Some (File c) => (write (write (write f (lit "1.0" :: dist_dir) Dir) (lit "a.tar.gz" :: lit "1.0" :: dist_dir) (File c)) (lit "a.whl" :: lit "1.0" :: dist_dir) (File c), None)
  | _ => (f, Some IOErr)
  end.
Definition toy_listing (f : fs) (p : path) : list str := nodup (list_eq_dec ascii_dec) (map (fun e => hd [] (fst e)) (filter (fun e => is_child p (fst e)) f)).
Definition everything (log : upload_log) (x : str * str) : option exn := None.
(** like a package index: a file cannot be sent twice *)
Definition once (log : upload_log) (x : str * str) : option exn := if dict_has (fst x) log then Some IOErr else None.
Definition flaky (log : upload_log) (x : str * str) : option exn := match log with [_] => Some IOErr | _ => once log x end.
Definition project_files : fs := [([lit "code.py"; lit "project"], File (lit "new")); ([lit "project"], Dir)].
Example C185_listing_sample : (forall f p n, In n (toy_listing f p) <-> exists_at f (n :: p) = true) /\ (forall f p, NoDup (toy_listing f p)).
Proof.
  split; [|intros; apply NoDup_nodup]. intros f p n. unfold toy_listing. rewrite nodup_In, in_map_iff. unfold exists_at. split.
  - intros ([q x] & E & I). apply filter_In in I. destruct I as [I C]. cbn [fst] in E, C. destruct q as [|m q]; [discriminate|]. cbn in E, C. subst m. apply path_eqb_eq in C. subst q.
    induction f as [|[r y] f IH]; [destruct I|]. cbn [lookup]. destruct (path_eqb (n :: p) r) eqn:R; [reflexivity|]. apply IH. destruct I as [X|I]; [|exact I]. injection X as -> ->. rewrite path_eqb_refl in R. discriminate.
  - intro H. destruct (lookup f (n :: p)) as [x|] eqn:E; [|discriminate]. clear H. exists (n :: p, x). split; [reflexivity|]. apply filter_In. split; [|cbn; apply path_eqb_refl].
    induction f as [|[r y] f IH]; [discriminate|]. cbn [lookup] in E. destruct (path_eqb (n :: p) r) eqn:R; [apply path_eqb_eq in R; subst r; injection E as ->; left; reflexivity|right; exact (IH E)].
Qed.
Example C185_sample : exists f, publish toy_build toy_listing once dist_dir (lit "1.0") true [lit "user"; lit "password"] [(lit "user", lit "me")] (fun _ => lit "secret") project_files []
  = (f, [(lit "a.whl", lit "new"); (lit "a.tar.gz", lit "new")], Ok [(lit "user", lit "me"); (lit "password", lit "secret")]).
Proof. eexists. vm_compute. reflexivity. Qed.
(** what was built before a change of the code is sent *)
Theorem C185_stale_refuted : exists f log f', publish toy_build toy_listing once dist_dir (lit "1.0") true [] [] (fun p => p) f [] = (f', log, Ok []) /\
  lookup f [lit "code.py"; lit "project"] = Some (File (lit "new")) /\ log = [(lit "a.whl", lit "old")] /\
  lookup (fst (toy_build f)) (lit "a.whl" :: lit "1.0" :: dist_dir) = Some (File (lit "new")).
Proof.
  exists ((lit "a.whl" :: lit "1.0" :: dist_dir, File (lit "old")) :: (lit "1.0" :: dist_dir, Dir) :: project_files). do 2 eexists. split; [vm_compute; reflexivity|]. split; [reflexivity|]. split; vm_compute; reflexivity.
Qed.
Print Assumptions C185_stale_refuted.
(** after a publication that broke off, the rest can never be sent to an index that takes each file once *)
Theorem C185_resumed_refuted : exists f log, publish toy_build toy_listing flaky dist_dir (lit "1.0") true [] [] (fun p => p) project_files [] = (f, log, Err IOErr) /\
  log = [(lit "a.whl", lit "new")] /\ lookup f (lit "a.tar.gz" :: lit "1.0" :: dist_dir) = Some (File (lit "new")) /\
  publish toy_build toy_listing once dist_dir (lit "1.0") true [] [] (fun p => p) f log = (f, log, Err IOErr).
Proof. do 2 eexists. split; [vm_compute; reflexivity|]. split; [reflexivity|]. split; vm_compute; reflexivity. Qed.
Print Assumptions C185_resumed_refuted.

(** *** C186: stored credentials *)
Section Stored.
  Context {Key : Type} (make_cipher : str -> Key) (encrypt : Key -> str -> str) (decrypt : Key -> str -> option str) (dumps : table -> str) (loads : str -> res table).
  Context (decrypts : forall k m, decrypt k (encrypt k m) = Some m) (refuses : forall k k2 m, k <> k2 -> decrypt k2 (encrypt k m) = None)
    (one_key : forall p q, make_cipher p = make_cipher q -> p = q) (reads : forall t, loads (dumps t) = Ok t).
  Let get := auth_args_for Key make_cipher decrypt loads.
  Let add := add_auth_args Key make_cipher encrypt decrypt dumps loads.
  Let rm := rm_auth_args Key make_cipher encrypt decrypt dumps loads.

  Lemma unlock_saved : forall password t, unlock Key make_cipher decrypt loads password (saved Key encrypt dumps (make_cipher password, t)) = Ok (make_cipher password, t).
  Proof using decrypts reads.
    intros password t. unfold unlock, saved. cbn [fst snd]. rewrite decrypts, starts_with_app, skipn_app, skipn_all, Nat.sub_diag. cbn [skipn app]. rewrite reads. reflexivity.
  Qed.
  Lemma unlocked_key : forall password file s u, (forall k t, s = Some (k, t) -> k = make_cipher password) -> ensure_unlocked Key make_cipher decrypt loads password file s = Ok u -> fst u = make_cipher password.
  Proof using.
    intros password file s u S H. unfold ensure_unlocked in H. destruct s as [[k t]|]; [injection H as <-; exact (S k t eq_refl)|]. unfold unlock in H. destruct file as [b|]; [|injection H as <-; reflexivity].
    destruct (starts_with magic _); [|discriminate]. destruct (loads _); [|discriminate]. injection H as <-. reflexivity.
  Qed.
  (** what is stored is found again with the same password, and the other entries are as before *)
  Theorem C186_kept : forall password file s name args s' file', (forall k t, s = Some (k, t) -> k = make_cipher password) ->
    add password file s name args = Ok (s', file') -> get password file' None name = Ok (Some args) /\ forall n, n <> name -> get password file' None n = get password file s n.
  Proof using decrypts reads.
    intros password file s name args s' file' S H. unfold add, add_auth_args in H. unfold get, auth_args_for. destruct (ensure_unlocked _ _ _ _ password file s) as [u|] eqn:E; [|discriminate].
    pose proof (unlocked_key _ _ _ _ S E) as K. destruct u as [k t]. cbn in K, H. subst k. injection H as <- <-. cbn [ensure_unlocked]. rewrite unlock_saved. cbn [bind snd]. split; [rewrite dict_get_set_same; reflexivity|].
    intros n N. rewrite dict_get_set_other by exact N. reflexivity.
  Qed.
  Theorem C186_forgotten : forall password file s name s' file', (forall k t, s = Some (k, t) -> k = make_cipher password) ->
    (forall u, ensure_unlocked Key make_cipher decrypt loads password file s = Ok u -> NoDup (map fst (snd u))) ->
    rm password file s name = Ok (s', file') -> get password file' None name = Ok None /\ forall n, n <> name -> get password file' None n = get password file s n.
  Proof using decrypts reads.
    intros password file s name s' file' S D H. unfold rm, rm_auth_args in H. unfold get, auth_args_for. destruct (ensure_unlocked _ _ _ _ password file s) as [u|] eqn:E; [|discriminate].
    pose proof (unlocked_key _ _ _ _ S E) as K. specialize (D u eq_refl). destruct u as [k t]. cbn in K, H, D. subst k. destruct (dict_has name t); [|discriminate]. injection H as <- <-. cbn [ensure_unlocked]. rewrite unlock_saved. cbn [bind snd].
    split; [rewrite dict_get_del_same by exact D; reflexivity|]. intros n N. rewrite dict_get_del_other by exact N. reflexivity.
  Qed.
  (** another password opens nothing and changes nothing *)
  Theorem C186_password : forall password other file s name args s' file', (forall k t, s = Some (k, t) -> k = make_cipher password) ->
    add password file s name args = Ok (s', file') -> other <> password ->
    forall n a, get other file' None n = Err IOErr /\ add other file' None n a = Err IOErr /\ rm other file' None n = Err IOErr.
  Proof using refuses one_key.
    intros password other file s name args s' file' S H N n a. unfold add, add_auth_args in H. destruct (ensure_unlocked _ _ _ _ password file s) as [u|] eqn:E; [|discriminate].
    pose proof (unlocked_key _ _ _ _ S E) as K. destruct u as [k t]. cbn in K, H. subst k. injection H as _ <-.
    assert (X : unlock Key make_cipher decrypt loads other (saved Key encrypt dumps (make_cipher password, dict_set name args t)) = Err IOErr).
    { unfold unlock, saved. cbn [fst snd]. rewrite refuses; [reflexivity|]. intro Q. apply N. symmetry. apply one_key. exact Q. }
    unfold get, add, rm, auth_args_for, add_auth_args, rm_auth_args, ensure_unlocked. cbn [fst snd] in *. rewrite X. auto.
  Qed.
End Stored.
Print Assumptions C186_kept. Print Assumptions C186_forgotten. Print Assumptions C186_password.
(** a cipher and a format for the samples *)
Definition toy_text (s : str) : str := flat_map (fun c => ["1"%char; c]) s ++ ["0"%char].
Fixpoint toy_untext (b : str) : option (str * str) :=
  match b with
  | f :: b' => if Ascii.eqb f "0" then Some ([], b') else
               match b' with c :: r => match toy_untext r with Some (s, r) => Some (c :: s, r) | None => None end | [] => None end
  | [] => None
  end.
Lemma toy_text_back : forall s r, toy_untext (toy_text s ++ r) = Some (s, r).
Proof. induction s as [|c s IH]; intro r; [reflexivity|]. cbn. unfold toy_text in IH. rewrite IH. reflexivity. Qed.
Definition toy_list {A} (enc : A -> str) (l : list A) : str := flat_map (fun a => "1"%char :: enc a) l ++ ["0"%char].
Fixpoint toy_unlist {A} (dec : str -> option (A * str)) (fuel : nat) (b : str) : option (list A * str) :=
  match fuel, b with
  | S n, f :: b => if Ascii.eqb f "0" then Some ([], b) else
                   match dec b with Some (a, r) => match toy_unlist dec n r with Some (l, r) => Some (a :: l, r) | None => None end | None => None end
  | _, _ => None
  end.
Lemma toy_list_back : forall {A} (enc : A -> str) dec l n r, (forall a r, dec (enc a ++ r) = Some (a, r)) -> length l < n -> toy_unlist dec n (toy_list enc l ++ r) = Some (l, r).
Proof.
  intros A enc dec l. induction l as [|a l IH]; intros n r D H; (destruct n as [|n]; [cbn in H; lia|]); [reflexivity|]. unfold toy_list. cbn. rewrite <- !app_assoc, D.
  specialize (IH n r D). unfold toy_list in IH. rewrite <- app_assoc in IH. cbn in H. rewrite IH by lia. reflexivity.
Qed.
Lemma toy_list_long : forall {A} (enc : A -> str) l, length l < length (toy_list enc l).
Proof. intros A enc l. induction l as [|a l IH]; [cbn; lia|]. unfold toy_list in *. cbn. rewrite <- app_assoc, app_length. cbn in IH. lia. Qed.
Definition toy_pair (p : str * str) : str := toy_text (fst p) ++ toy_text (snd p).
Definition toy_unpair (b : str) : option (str * str * str) :=
  match toy_untext b with Some (x, r) => match toy_untext r with Some (y, r) => Some (x, y, r) | None => None end | None => None end.
Lemma toy_pair_back : forall p r, toy_unpair (toy_pair p ++ r) = Some (p, r).
Proof. intros [x y] r. unfold toy_unpair, toy_pair. cbn [fst snd]. rewrite <- app_assoc, !toy_text_back. reflexivity. Qed.
Definition toy_entry (e : str * list (str * str)) : str := toy_text (fst e) ++ toy_list toy_pair (snd e).
Definition toy_unentry (b : str) : option (str * list (str * str) * str) :=
  match toy_untext b with Some (x, r) => match toy_unlist toy_unpair (length r) r with Some (y, r) => Some (x, y, r) | None => None end | None => None end.
Lemma toy_entry_back : forall e r, toy_unentry (toy_entry e ++ r) = Some (e, r).
Proof.
  intros [x l] r. unfold toy_unentry, toy_entry. cbn [fst snd]. rewrite <- app_assoc, toy_text_back, (toy_list_back toy_pair toy_unpair l); [reflexivity|exact toy_pair_back|].
  rewrite app_length. pose proof (toy_list_long toy_pair l). lia.
Qed.
Definition toy_dumps (t : table) : str := toy_list toy_entry t.
Definition toy_loads (b : str) : res table := match toy_unlist toy_unentry (length b) b with Some (t, []) => Ok t | _ => Err ValueError end.
Definition toy_encrypt (k m : str) : str := toy_text k ++ m.
Definition toy_decrypt (k b : str) : option str := match toy_untext b with Some (k2, m) => if str_eqb k2 k then Some m else None | None => None end.
Example C186_world_sample : (forall k m, toy_decrypt k (toy_encrypt k m) = Some m) /\ (forall k k2 m, k <> k2 -> toy_decrypt k2 (toy_encrypt k m) = None) /\
  (forall p q : str, (fun x => x) p = (fun x => x) q -> p = q) /\ (forall t, toy_loads (toy_dumps t) = Ok t).
Proof.
  split; [|split; [|split]].
  - intros k m. unfold toy_decrypt, toy_encrypt. rewrite toy_text_back, str_eqb_refl. reflexivity.
  - intros k k2 m N. unfold toy_decrypt, toy_encrypt. rewrite toy_text_back. destruct (str_eqb k k2) eqn:E; [apply str_eqb_eq in E; contradiction|reflexivity].
  - auto.
  - intro t. unfold toy_loads, toy_dumps. pose proof (toy_list_back toy_entry toy_unentry t (length (toy_list toy_entry t)) [] toy_entry_back (toy_list_long toy_entry t)) as H.
    rewrite app_nil_r in H. rewrite H. reflexivity.
Qed.
Definition toy_add := add_auth_args str (fun x => x) toy_encrypt toy_decrypt toy_dumps toy_loads.
Definition toy_rm := rm_auth_args str (fun x => x) toy_encrypt toy_decrypt toy_dumps toy_loads.
Definition toy_get := auth_args_for str (fun x => x) toy_decrypt toy_loads.
Definition toy_unlock := unlock str (fun x => x) toy_decrypt toy_loads.
Definition me : list (str * str) := [(lit "user", lit "me")].
Example C186_sample : exists s1 f1 s2 f2, toy_add (lit "pw") None None (lit "main") me = Ok (s1, f1) /\ toy_add (lit "pw") f1 None (lit "test") [] = Ok (s2, f2) /\
  toy_get (lit "pw") f2 None (lit "main") = Ok (Some me) /\ (exists s3 f3, toy_rm (lit "pw") f2 s2 (lit "main") = Ok (s3, f3) /\ toy_get (lit "pw") f3 None (lit "main") = Ok None /\ toy_get (lit "pw") f3 None (lit "test") = Ok (Some [])) /\
  toy_get (lit "other") f2 None (lit "main") = Err IOErr.
Proof. do 4 eexists. split; [vm_compute; reflexivity|]. split; [vm_compute; reflexivity|]. split; [vm_compute; reflexivity|]. split; [do 2 eexists; split; [vm_compute; reflexivity|split; vm_compute; reflexivity]|vm_compute; reflexivity]. Qed.
(** of two programs that have opened the store, the second to save loses what the first has saved *)
Theorem C186_lost_refuted : exists f0 u s1 f1 s2 f2, toy_unlock (lit "pw") f0 = Ok u /\
  toy_add (lit "pw") f0 (Some u) (lit "main") me = Ok (s1, f1) /\ toy_get (lit "pw") f1 None (lit "main") = Ok (Some me) /\
  toy_add (lit "pw") f1 (Some u) (lit "test") [] = Ok (s2, f2) /\ toy_get (lit "pw") f2 None (lit "main") = Ok None.
Proof. exists None. do 5 eexists. split; [vm_compute; reflexivity|]. split; [vm_compute; reflexivity|]. split; [vm_compute; reflexivity|]. split; vm_compute; reflexivity. Qed.
Print Assumptions C186_lost_refuted.
(** what is stored for a repository is not used for the next publication there *)
Theorem C186_used_refuted : exists f0 s f log, toy_add (lit "pw") None None (lit "main") me = Ok (s, f0) /\ toy_get (lit "pw") f0 None (lit "main") = Ok (Some me) /\
  publish_command str (fun x => x) toy_encrypt toy_decrypt toy_dumps toy_loads
    (fun given => snd (publish toy_build toy_listing once dist_dir (lit "1.0") true [lit "user"] given (fun _ => lit "asked") project_files [])) true (lit "pw") f0 (lit "main") []
  = (f, Ok log) /\ log = [(lit "user", lit "asked")] /\ toy_get (lit "pw") f None (lit "main") = Ok (Some log).
Proof. do 4 eexists. split; [vm_compute; reflexivity|]. split; [vm_compute; reflexivity|]. split; [vm_compute; reflexivity|]. split; vm_compute; reflexivity. Qed.
Print Assumptions C186_used_refuted.

(** *** C187: tasks attached to commands *)
(** a command without attached tasks runs once, and its outcome is the outcome *)
Theorem C187_plain : forall modules interpreter project_path f project command fails,
  (forall phase, In phase [lit "before"; lit "after"] -> attached_name f project phase command = None) ->
  run_attached modules interpreter project_path f project command fails = ([RanCommand], fails).
Proof.
  intros modules interpreter project_path f project command fails H. unfold run_attached, run_phase. rewrite (H (lit "before")) by (cbn; auto). destruct fails; [reflexivity|].
  rewrite (H (lit "after")) by (cbn; auto). reflexivity.
Qed.
Print Assumptions C187_plain.
(** a task file is what attaches a task: [tasks/commands/<words>/before.py] *)
Theorem C187_attached : forall f project phase c words, is_some (attached_name f project phase (c :: words)) = true <->
  exists_at f ((phase ++ lit ".py") :: rev (map (map (fun c => if Ascii.eqb c "-" then "_"%char else c)) words) ++ lit "commands" :: lit "tasks" :: project) = true.
Proof. intros f project phase c words. unfold attached_name. cbn [map skipn]. fold underscored. destruct (exists_at f _); cbn; split; congruence. Qed.
Print Assumptions C187_attached.
(** no module has a dash in its name, so the command that starts an attached task cannot succeed: a task before a command keeps the
    command from running, and a task after it makes a command fail that has succeeded *)
Theorem C187_before_refuted : forall modules interpreter project_path f project command fails t, Forall (fun m => ~ In "-"%char m) modules ->
  attached_name f project (lit "before") command = Some t -> run_attached modules interpreter project_path f project command fails = ([], Some RuntimeErr).
Proof.
  intros modules interpreter project_path f project command fails t F H. unfold run_attached, run_phase. rewrite H. unfold run_task, python_exit, runner_line.
  destruct (str_mem _ modules) eqn:I; [|rewrite andb_false_r; reflexivity]. exfalso. apply str_mem_in in I. rewrite Forall_forall in F. apply (F _ I). apply in_or_app. right. left. reflexivity.
Qed.
Theorem C187_after_refuted : forall modules interpreter project_path f project command t, Forall (fun m => ~ In "-"%char m) modules ->
  attached_name f project (lit "before") command = None -> attached_name f project (lit "after") command = Some t ->
  run_attached modules interpreter project_path f project command None = ([RanCommand], Some RuntimeErr).
Proof.
  intros modules interpreter project_path f project command t F B H. unfold run_attached, run_phase. rewrite B, H. unfold run_task, python_exit, runner_line.
  destruct (str_mem _ modules) eqn:I; [|rewrite andb_false_r; reflexivity]. exfalso. apply str_mem_in in I. rewrite Forall_forall in F. apply (F _ I). apply in_or_app. right. left. reflexivity.
Qed.
Print Assumptions C187_before_refuted. Print Assumptions C187_after_refuted.
Definition task_files : fs := [([lit "before.py"; lit "build"; lit "commands"; lit "tasks"; lit "project"], File []); ([lit "after.py"; lit "install"; lit "commands"; lit "tasks"; lit "project"], File [])].
Example C187_sample : Forall (fun m => ~ In "-"%char m) [lit "pkm_cli.tasks.execute_task_cli"] /\
  attached_name task_files [lit "project"] (lit "before") [lit "pkm"; lit "build"] = Some (lit "commands.build.before") /\
  attached_name task_files [lit "project"] (lit "before") [lit "pkm"; lit "install"] = None /\
  attached_name task_files [lit "project"] (lit "after") [lit "pkm"; lit "install"] = Some (lit "commands.install.after") /\
  run_attached [lit "pkm_cli.tasks.execute_task_cli"] (lit "python") (lit "project") task_files [lit "project"] [lit "pkm"; lit "clean"] (Some IOErr) = ([RanCommand], Some IOErr).
Proof. split; [repeat constructor; vm_compute; intuition discriminate|]. repeat split; vm_compute; reflexivity. Qed.
(** the other implementation starts an attached task as the task named "-a" *)
Theorem C187_executor_refuted : forall interpreter project_path phase args,
  execute_attached interpreter project_path phase args <> executor_line interpreter project_path (Some phase) args /\
  skipn 6 (execute_attached interpreter project_path phase args) = [lit "run"; lit "-a"; phase] ++ args.
Proof. intros. split; [intro H; vm_compute in H; congruence|reflexivity]. Qed.
Print Assumptions C187_executor_refuted.

(** *** C188: which module a task is *)
(** a task of the project comes first, and a task without a dot is found among the installed tasks; what is found is one of the two *)
Theorem C188_own : forall modules name, (forall p, parent_module (underscored name) = Some p -> In p modules) -> In (underscored name) modules -> find_task modules name = Ok (underscored name).
Proof.
  intros modules name P I. unfold find_task, find_spec. assert (M : forall x, In x modules -> str_mem x modules = true) by (intros x X; apply str_mem_in; exact X).
  destruct (parent_module (underscored name)) as [p|]; [rewrite (M _ (P p eq_refl))|]; rewrite (M _ I); reflexivity.
Qed.
Theorem C188_found : forall modules name m, find_task modules name = Ok m -> In m modules /\ (m = underscored name \/ m = lit "pkm_tasks." ++ underscored name /\ ~ In (underscored name) modules).
Proof.
  intros modules name m H. unfold find_task in H.
  assert (S : forall n, find_spec modules n = Found -> In n modules).
  { intros n F. unfold find_spec in F. destruct (parent_module n) as [p|]; [destruct (str_mem p modules); [|discriminate]|]; (destruct (str_mem n modules) eqn:E; [apply str_mem_in in E; exact E|discriminate]). }
  assert (T : forall n, find_spec modules n = NotFound -> ~ In n modules).
  { intros n F I. apply str_mem_in in I. unfold find_spec in F. rewrite I in F. destruct (parent_module n) as [p|]; [destruct (str_mem p modules); discriminate|discriminate]. }
  destruct (find_spec modules (underscored name)) eqn:E; [injection H as <-; split; [exact (S _ E)|left; reflexivity]| |discriminate].
  destruct (find_spec modules _) eqn:E2 in H; try discriminate. injection H as <-. split; [exact (S _ E2)|]. right. split; [reflexivity|exact (T _ E)].
Qed.
Theorem C188_installed_partial : forall modules name, ~ In "."%char (underscored name) -> In (lit "pkm_tasks") modules -> In (lit "pkm_tasks." ++ underscored name) modules -> ~ In (underscored name) modules ->
  find_task modules name = Ok (lit "pkm_tasks." ++ underscored name).
Proof.
  intros modules name D P I N. unfold find_task. assert (M : forall x, In x modules -> str_mem x modules = true) by (intros x X; apply str_mem_in; exact X).
  assert (Q : parent_module (underscored name) = None). { unfold parent_module. rewrite (split_on_single "."%char _ D). reflexivity. }
  assert (R : parent_module (lit "pkm_tasks." ++ underscored name) = Some (lit "pkm_tasks")).
  { unfold parent_module. replace (lit "pkm_tasks." ++ underscored name) with (lit "pkm_tasks" ++ "."%char :: underscored name) by reflexivity. rewrite split_on_app; [|vm_compute; intuition discriminate]. rewrite (split_on_single "."%char _ D). reflexivity. }
  unfold find_spec. rewrite Q, R. destruct (str_mem (underscored name) modules) eqn:E; [apply str_mem_in in E; contradiction|]. rewrite (M _ P), (M _ I). reflexivity.
Qed.
Print Assumptions C188_own. Print Assumptions C188_found. Print Assumptions C188_installed_partial.
Definition task_modules : list str := [lit "pkm_tasks"; lit "pkm_tasks.my_docs"; lit "pkm_tasks.deploy"; lit "pkm_tasks.deploy.docs"; lit "tests"; lit "tests.all"].
Example C188_sample : find_task task_modules (lit "my-docs") = Ok (lit "pkm_tasks.my_docs") /\ find_task task_modules (lit "tests.all") = Ok (lit "tests.all") /\ find_task task_modules (lit "none") = Err IOErr /\
  parent_module (underscored (lit "tests.all")) = Some (lit "tests") /\ ~ In "."%char (underscored (lit "my-docs")).
Proof. repeat split; try (vm_compute; reflexivity). vm_compute. intuition discriminate. Qed.
(** an installed task with a dot in its name is not found unless the project has a package of that name itself *)
Theorem C188_dotted_refuted : In (lit "pkm_tasks.deploy.docs") task_modules /\ find_task task_modules (lit "deploy.docs") = Err IOErr /\
  find_task (lit "deploy" :: task_modules) (lit "deploy.docs") = Ok (lit "pkm_tasks.deploy.docs").
Proof. split; [vm_compute; auto 10|]. split; vm_compute; reflexivity. Qed.
Print Assumptions C188_dotted_refuted.
