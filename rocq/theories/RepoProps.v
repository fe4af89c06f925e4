(** C44, C46, C47, C48 and C62: repositories. *)
From Coq Require Import String Ascii List Bool NArith Arith Lia.
From Verif Require Import Base BaseFacts NamesModel RepoModel RepoProofs.
Import ListNotations.
Open Scope string_scope.
Open Scope nat_scope.
Open Scope list_scope.
Open Scope bool_scope.

(** ** C44 *)
(** repositories in the order of the configuration; bind-only ones and those for urls only are passed over *)
Theorem C44_first_match_answers : forall name search bind_only bindings d l, Forall lawful search -> d_url d = None -> dict_get (d_name d) bindings = None ->
  (r_match (composite name search bind_only bindings) d = Ok l <->
   first_match (searched bind_only) d search l \/ (l = [] /\ no_match (searched bind_only) d search)).
Proof. exact unbound_answer. Qed.
Print Assumptions C44_first_match_answers.
(** the repository a package is bound to answers for it, whatever the others have *)
Theorem C44_bound_repository_answers : forall name bind_only (bindings : list (str * str)) d (n : str) before r after, lawful r -> d_url d = None ->
  dict_get (d_name d) bindings = Some n -> n <> [] -> r_plain r = true -> r_name r = n -> (forall b, In b before -> r_plain b = true -> r_name b <> n) ->
  r_match (composite name (before ++ r :: after) bind_only bindings) d = r_match r d.
Proof. exact bound_answer. Qed.
Print Assumptions C44_bound_repository_answers.
Theorem C44_bound_to_unknown : forall name search bind_only (bindings : list (str * str)) d (n : str), d_url d = None ->
  dict_get (d_name d) bindings = Some n -> n <> [] -> (forall r, In r search -> r_plain r = true -> r_name r <> n) ->
  r_match (composite name search bind_only bindings) d = Err NoSuchElement.
Proof. exact bound_unknown. Qed.
Print Assumptions C44_bound_to_unknown.
Theorem C44_url_answer_partial : forall name search bind_only bindings d protocol l, Forall lawful search -> d_url d = Some protocol ->
  (r_match (composite name search bind_only bindings) d = Ok l <-> first_match (handles protocol) d search l).
Proof. exact url_answer. Qed.
Print Assumptions C44_url_answer_partial.
(** a composite repository can stand in the list of another one *)
Theorem C44_composite_is_lawful : forall name search bind_only bindings, lawful (composite name search bind_only bindings).
Proof. exact composite_lawful. Qed.
Print Assumptions C44_composite_is_lawful.

(** a repository with one package, which answers any request for it *)
Definition shelf (name pkg version : str) : repo :=
  Repo name true [] (abstract_match (fun d => match d_url d with Some _ => Ok [] | None => if str_eqb (d_name d) pkg then Ok [Pkg pkg version true false] else Ok [] end)).
Definition want (name : str) : dep := Dep name None (fun _ => true) false.
Definition want_url (name protocol : str) : dep := Dep name (Some protocol) (fun _ => true) false.
Example C44_sample :
  let search := [shelf (lit "empty") (lit "other") (lit "9"); shelf (lit "private") (lit "a") (lit "1"); shelf (lit "main") (lit "a") (lit "2")] in
  Forall lawful search /\
  r_match (composite (lit "top") search [lit "private"] []) (want (lit "a")) = Ok [Pkg (lit "a") (lit "2") true false] /\
  r_match (composite (lit "top") search [lit "private"] [(lit "a", lit "private")]) (want (lit "a")) = Ok [Pkg (lit "a") (lit "1") true false].
Proof.
  cbv zeta. split; [|split; vm_compute; reflexivity]. constructor; [apply abstract_lawful|]. constructor; [apply abstract_lawful|]. constructor; [apply abstract_lawful|constructor].
Qed.
(** a url that nobody answers ends in a TypeError instead of an empty result *)
Theorem C44_unmatched_url_refuted : forall name search bind_only bindings d protocol, d_url d = Some protocol -> no_match (handles protocol) d search ->
  r_match (composite name search bind_only bindings) d = Err TypeError.
Proof. exact url_unmatched. Qed.
Print Assumptions C44_unmatched_url_refuted.
Example C44_unmatched_url_witness : no_match (handles (lit "git")) (want_url (lit "a") (lit "git")) [shelf (lit "main") (lit "a") (lit "1")].
Proof. intros r [<-|[]] H. destruct H. Qed.
(** a binding does not hold for another spelling of the same package *)
Theorem C44_spelling_refuted : exists search bindings p q r l, package_name_key p = package_name_key q /\ Forall lawful search /\
  dict_get p bindings = Some (r_name r) /\ In r search /\ r_match r (want q) <> Ok l /\ l <> [] /\
  r_match (composite (lit "top") search [] bindings) (want q) = Ok l.
Proof.
  exists [shelf (lit "main") (lit "my_pkg") (lit "2"); shelf (lit "private") (lit "my-pkg") (lit "1")], [(lit "my-pkg", lit "private")], (lit "my-pkg"), (lit "my_pkg"),
    (shelf (lit "private") (lit "my-pkg") (lit "1")), [Pkg (lit "my_pkg") (lit "2") true false].
  split; [vm_compute; reflexivity|]. split; [constructor; [apply abstract_lawful|constructor; [apply abstract_lawful|constructor]]|].
  split; [reflexivity|]. split; [right; left; reflexivity|]. split; [vm_compute; discriminate|]. split; [discriminate|vm_compute; reflexivity].
Qed.
Print Assumptions C44_spelling_refuted.
(** a repository that fails (as the one of pypi does for packages it does not have) hides the ones behind it *)
Theorem C44_failing_repository_refuted : exists failing search d l, Forall lawful search /\ search = [failing; shelf (lit "main") (lit "a") (lit "1")] /\
  d_url d = None /\ l <> [] /\ r_match (shelf (lit "main") (lit "a") (lit "1")) d = Ok l /\ r_match (composite (lit "top") search [] []) d = Err OtherErr.
Proof.
  set (failing := Repo (lit "pypi") true [] (abstract_match (fun _ => Err OtherErr))).
  exists failing, [failing; shelf (lit "main") (lit "a") (lit "1")], (want (lit "a")), [Pkg (lit "a") (lit "1") true false].
  split; [constructor; [apply abstract_lawful|constructor; [apply abstract_lawful|constructor]]|]. split; [reflexivity|]. split; [reflexivity|]. split; [discriminate|].
  split; vm_compute; reflexivity.
Qed.
Print Assumptions C44_failing_repository_refuted.

(** ** C46 *)
Theorem C46_chain_terminates : forall X (g : contexts X) root nodes global, In root nodes ->
  (forall m f, In m nodes -> In f (x_parents g m) -> In (fst f) nodes) ->
  exists bound, forall fuel, bound <= fuel -> exists r, lookup_chain fuel g global root = Some r.
Proof. intros X g root. exact (chain_total g root). Qed.
Print Assumptions C46_chain_terminates.
(** each configuration at most once, the context first, only contexts it inherits from, and all of them when a context is
    reached in one way only and no two share a configuration *)
Theorem C46_chain_partial : forall X (g : contexts X) root fuel global r, x_mode g root = InheritContext -> lookup_chain fuel g global root = Some r ->
  NoDup (map (x_path g) r) /\ (forall m, In m r -> exists f, inherits g root m f) /\ (exists rest, r = root :: rest) /\
  (uniform g root -> distinct_paths g root -> forall m f, inherits g root m f -> In m r).
Proof. intros X g root. exact (chain_sound g root). Qed.
Print Assumptions C46_chain_partial.
(** the contexts of pkm: the project, its group, its environment, the zoo of that and the global configuration *)
Theorem C46_nearest_first_partial : forall pkm modes global c fuel, modes c = InheritContext -> NoDup (map (context_path pkm) (nearest_first c)) -> 7 <= fuel ->
  lookup_chain fuel (all_contexts pkm modes) global c = Some (nearest_first c).
Proof. exact chain_of. Qed.
Print Assumptions C46_nearest_first_partial.
Definition ring : contexts nat := Contexts _ (fun n => show_N (N.of_nat n)) (fun _ => InheritContext) (fun n => match n with 0 => [(1, true); (2, true)] | 1 => [(0, true)] | 2 => [(1, true); (0, true)] | _ => [] end).
Example C46_sample : lookup_chain 20 ring 0 0 = Some [0; 2; 1] /\
  NoDup (map (context_path (lit "/pkm")) (nearest_first (CProject (lit "/p") (lit "/z/env") (Some (lit "/z")) (Some (lit "/g"))))).
Proof. split; [vm_compute; reflexivity|]. cbn. constructor; [cbn; intuition discriminate|]. constructor; [cbn; intuition discriminate|]. constructor; [cbn; intuition discriminate|]. constructor; [cbn; intuition discriminate|]. constructor; [cbn; intuition discriminate|]. constructor. Qed.
(** a context that inherits the global configuration is not in its own chain *)
Theorem C46_global_refuted : exists pkm modes c fuel, NoDup (map (context_path pkm) (nearest_first c)) /\ modes c = InheritGlobal /\
  exists r, lookup_chain fuel (all_contexts pkm modes) CPkm c = Some r /\ ~ In c r.
Proof.
  exists (lit "/pkm"), (fun c => match c with CEnv _ _ => InheritGlobal | _ => InheritContext end), (CEnv (lit "/env") None), 7.
  split; [cbn; constructor; [cbn; intuition discriminate|]; constructor; [cbn; intuition discriminate|constructor]|]. split; [reflexivity|].
  exists [CPkm]. split; [reflexivity|]. intros [H|[]]. discriminate.
Qed.
Print Assumptions C46_global_refuted.
(** a zoo in the directory of the group of a project is not inherited from *)
Theorem C46_same_directory_refuted : exists pkm modes c zoo fuel r, (forall x, modes x = InheritContext) /\ inherits (all_contexts pkm modes) c (CZoo zoo) true /\
  lookup_chain fuel (all_contexts pkm modes) CPkm c = Some r /\ ~ In (CZoo zoo) r.
Proof.
  exists (lit "/pkm"), (fun _ => InheritContext), (CProject (lit "/w/p") (lit "/w/env") (Some (lit "/w")) (Some (lit "/w"))), (lit "/w"), 10,
    [CProject (lit "/w/p") (lit "/w/env") (Some (lit "/w")) (Some (lit "/w")); CGroup (lit "/w"); CEnv (lit "/w/env") (Some (lit "/w"))].
  split; [reflexivity|]. split.
  - eapply inherits_parent; [eapply inherits_parent; [apply inherits_self|left; reflexivity]|left; reflexivity].
  - split; [vm_compute; reflexivity|]. intros [H|[H|[H|[]]]]; discriminate.
Qed.
Print Assumptions C46_same_directory_refuted.

(** ** C47 *)
(** builders name what they build; no definition was built before and no two are the same *)
Theorem C47_own_names_partial : forall bs l c rs c', names_after bs -> fresh c l -> build_defined bs l c = (Ok rs, c') -> map r_name rs = map fst l.
Proof. exact own_names. Qed.
Print Assumptions C47_own_names_partial.
(** ... in particular in a first load, where any two differ in their type or in an argument *)
Theorem C47_distinct_partial : forall bs l rs c', names_after bs -> Forall (fun e => NoDup (map fst (i_args (snd e)))) l ->
  ForallOrdPairs (fun a b => i_type (snd a) <> i_type (snd b) \/ exists k, dict_get k (i_args (snd a)) <> dict_get k (i_args (snd b))) l ->
  build_defined bs l [] = (Ok rs, c') -> map r_name rs = map fst l.
Proof. intros bs l rs c' B N F. apply own_names; [exact B|]. apply differ_fresh; [exact N|exact F]. Qed.
Print Assumptions C47_distinct_partial.
Theorem C47_binding_by_name_partial : forall bs global name cfg next c R cfg' c' d n i r,
  load bs global name cfg next c = (Ok (Some R), cfg', c') -> names_after bs -> fresh c (c_repos cfg) -> n <> [] ->
  dict_get (d_name d) (c_bindings cfg) = Some (ToRepo n) -> dict_get n (c_repos cfg) = Some i -> built_from bs (n, i) r ->
  r_plain r = true -> lawful r -> d_url d = None -> r_match R d = r_match r d.
Proof. exact load_binding. Qed.
Print Assumptions C47_binding_by_name_partial.
(** repositories that serve version "url" of package "a" *)
Definition shelf_builder (name : str) (args : list (str * str)) : res repo :=
  match dict_get (lit "url") args with Some u => Ok (shelf name (lit "a") u) | None => Err TypeError end.
Definition shelves : builders := [(lit "shelf", shelf_builder)].
Lemma shelves_name : names_after shelves.
Proof.
  intros ty b n args r H B. unfold shelves in H. cbn [dict_get] in H. destruct (str_eqb ty (lit "shelf")); [|discriminate]. injection H as <-.
  unfold shelf_builder in B. destruct (dict_get _ args); [|discriminate]. injection B as <-. reflexivity.
Qed.
Definition defined (url : str) : instance := Instance (lit "shelf") false [(lit "url", url)].
Definition answer (x : res (option repo) * config * cache) (p : str) : res (list package) :=
  match x with (Ok (Some r), _, _) => r_match r (want p) | (Ok None, _, _) => Ok [] | (Err e, _, _) => Err e end.
Example C47_sample : let cfg := Config [(lit "one", defined (lit "1")); (lit "two", defined (lit "2"))] NoInheritance [(lit "a", ToRepo (lit "two"))] in
  fresh [] (c_repos cfg) /\ answer (load shelves None (lit "cfg") cfg None []) (lit "a") = Ok [Pkg (lit "a") (lit "2") true false].
Proof.
  cbv zeta. split; [|vm_compute; reflexivity]. split; [reflexivity|]. cbn [c_repos]. constructor; [constructor; [reflexivity|constructor]|]. constructor; [constructor|constructor].
Qed.
Example C47_distinct_sample :
  let l := [(lit "one", Instance (lit "shelf") false [(lit "url", lit "1")]); (lit "two", Instance (lit "shelf") false [(lit "url", lit "1"); (lit "user", lit "x")])] in
  Forall (fun e => NoDup (map fst (i_args (snd e)))) l /\
  ForallOrdPairs (fun a b => i_type (snd a) <> i_type (snd b) \/ exists k, dict_get k (i_args (snd a)) <> dict_get k (i_args (snd b))) l /\
  exists rs c', build_defined shelves l [] = (Ok rs, c') /\ map r_name rs = [lit "one"; lit "two"].
Proof.
  cbv zeta. split; [|split].
  - constructor; [|constructor; [|constructor]]; cbn; constructor; try (intros [X|[]]; discriminate X); try (intros []); constructor; [intros []|constructor].
  - constructor; [|constructor; [constructor|constructor]]. constructor; [|constructor]. right. exists (lit "user"). vm_compute. discriminate.
  - do 2 eexists. split; vm_compute; reflexivity.
Qed.
(** two names for the same definition: a binding to the second one does not find it *)
Theorem C47_same_definition_refuted : exists cfg n i, c_mode cfg = NoInheritance /\ dict_get n (c_repos cfg) = Some i /\ dict_get (lit "a") (c_bindings cfg) = Some (ToRepo n) /\
  answer (load shelves None (lit "cfg") cfg None []) (lit "a") = Err NoSuchElement.
Proof.
  exists (Config [(lit "one", defined (lit "1")); (lit "two", defined (lit "1"))] NoInheritance [(lit "a", ToRepo (lit "two"))]), (lit "two"), (defined (lit "1")).
  split; [reflexivity|]. split; [reflexivity|]. split; [reflexivity|]. vm_compute. reflexivity.
Qed.
Print Assumptions C47_same_definition_refuted.
(** a bind-only repository answers for unbound packages, because another name for it was defined before *)
Theorem C47_bind_only_refuted : exists cfg c i, dict_get (lit "private") (c_repos cfg) = Some i /\ i_bind_only i = true /\ length (c_repos cfg) = 1 /\ c_bindings cfg = [] /\
  c_mode cfg = NoInheritance /\ (exists r, build shelves (lit "public") (lit "shelf") [(lit "url", lit "1")] [] = (Ok r, c)) /\
  answer (load shelves None (lit "cfg") cfg None c) (lit "a") = Ok [Pkg (lit "a") (lit "1") true false].
Proof.
  exists (Config [(lit "private", Instance (lit "shelf") true [(lit "url", lit "1")])] NoInheritance []), (snd (build shelves (lit "public") (lit "shelf") [(lit "url", lit "1")] [])),
    (Instance (lit "shelf") true [(lit "url", lit "1")]).
  split; [reflexivity|]. split; [reflexivity|]. split; [reflexivity|]. split; [reflexivity|]. split; [reflexivity|]. split; [eexists; reflexivity|]. vm_compute. reflexivity.
Qed.
Print Assumptions C47_bind_only_refuted.
(** a package bound to a repository defined in place is taken from the one of another package *)
Definition shelf2 (name : str) (args : list (str * str)) : res repo :=
  match dict_get (lit "url") args with
  | Some u => Ok (Repo name true [] (abstract_match (fun d => Ok [Pkg (d_name d) u true false])))
  | None => Err TypeError
  end.
Theorem C47_inline_refuted : exists bs cfg, names_after bs /\
  c_bindings cfg = [(lit "a", Inline [(lit "type", lit "any"); (lit "url", lit "1")]); (lit "b", Inline [(lit "type", lit "any"); (lit "url", lit "2")])] /\
  answer (load bs None (lit "cfg") cfg None []) (lit "b") = Ok [Pkg (lit "b") (lit "1") true false].
Proof.
  exists [(lit "any", shelf2)], (Config [] NoInheritance [(lit "a", Inline [(lit "type", lit "any"); (lit "url", lit "1")]); (lit "b", Inline [(lit "type", lit "any"); (lit "url", lit "2")])]).
  split; [|split; [reflexivity|vm_compute; reflexivity]].
  intros ty b n args r H B. cbn [dict_get] in H. destruct (str_eqb ty (lit "any")); [|discriminate]. injection H as <-. unfold shelf2 in B. destruct (dict_get _ args); [|discriminate]. injection B as <-. reflexivity.
Qed.
Print Assumptions C47_inline_refuted.

(** ** C48 *)
(** one operation: every entry is what the operation says, the rest stays, and the file holds the same *)
Theorem C48_operation_exact : forall bs o m r m', tidy (m_config m) -> m_disk m = m_config m -> apply_op bs o m = (r, m') ->
  tidy (m_config m') /\ m_disk m' = m_config m' /\ c_mode (m_config m') = c_mode (m_config m) /\
  (forall p, dict_get p (c_bindings (m_config m')) = binding_after (is_ok r) o p (dict_get p (c_bindings (m_config m)))) /\
  (forall n, dict_get n (c_repos (m_config m')) = repo_after (is_ok r) o n (dict_get n (c_repos (m_config m)))).
Proof. exact op_exact. Qed.
Print Assumptions C48_operation_exact.
Theorem C48_removed_has_no_binding : forall n m p, tidy (m_config m) -> dict_get p (c_bindings (m_config (remove_repository n m))) <> Some (ToRepo n).
Proof. exact no_binding_left. Qed.
Print Assumptions C48_removed_has_no_binding.
(** sequences of operations change nothing they do not name *)
Theorem C48_operations_partial : forall bs os m, tidy (m_config m) -> m_disk m = m_config m ->
  tidy (m_config (apply_ops bs os m)) /\ m_disk (apply_ops bs os m) = m_config (apply_ops bs os m) /\
  (forall p, (forall o, In o os -> ~ names_binding o p (dict_get p (c_bindings (m_config m)))) ->
     dict_get p (c_bindings (m_config (apply_ops bs os m))) = dict_get p (c_bindings (m_config m))) /\
  (forall n, (forall o, In o os -> ~ names_repo o n) -> dict_get n (c_repos (m_config (apply_ops bs os m))) = dict_get n (c_repos (m_config m))).
Proof. exact ops_exact. Qed.
Print Assumptions C48_operations_partial.
Definition start : manager :=
  let c := Config [(lit "one", defined (lit "1")); (lit "two", defined (lit "2"))] InheritContext [(lit "a", ToRepo (lit "two")); (lit "b", Inline [(lit "type", lit "shelf"); (lit "url", lit "3")])] in
  Manager c c [].
Example C48_sample : tidy (m_config start) /\
  c_bindings (m_config (apply_ops shelves [Register [lit "c"; lit "d"] (lit "one"); Add (lit "three") (lit "shelf") [] false; Remove (lit "two"); Clear [lit "d"]] start)) =
    [(lit "b", Inline [(lit "type", lit "shelf"); (lit "url", lit "3")]); (lit "c", ToRepo (lit "one"))].
Proof.
  split; [|vm_compute; reflexivity]. split; cbn; (constructor; [cbn; intuition discriminate|]; constructor; [intros []|constructor]).
Qed.
(** using the repositories changes what is saved next: a binding that nobody names loses the type of its repository, and
    cannot be loaded again *)
Theorem C48_after_loading_refuted : exists p before after, m_disk start = m_config start /\
  let m := snd (load_attached shelves None (Some (shelf (lit "base") (lit "z") (lit "0"))) (lit "cfg") start) in
  let m2 := snd (register_bindings [lit "c"] (Name (lit "one")) m) in
  p <> lit "c" /\ dict_get p (c_bindings (m_disk start)) = Some before /\ dict_get p (c_bindings (m_disk m2)) = Some after /\ before <> after /\
  fst (load_attached shelves None (Some (shelf (lit "base") (lit "z") (lit "0"))) (lit "cfg") (Manager (m_disk m2) (m_disk m2) [])) = Err KeyError.
Proof.
  exists (lit "b"), (Inline [(lit "type", lit "shelf"); (lit "url", lit "3")]), (Inline [(lit "url", lit "3")]). split; [reflexivity|]. cbv zeta.
  split; [discriminate|]. split; [reflexivity|]. split; [vm_compute; reflexivity|]. split; [discriminate|vm_compute; reflexivity].
Qed.
Print Assumptions C48_after_loading_refuted.
(** a binding to a repository given in place cannot be registered *)
Theorem C48_instance_binding_refuted : forall packages i m, register_bindings packages (InstanceTarget i) m = (Err AttributeError, m).
Proof. reflexivity. Qed.
Print Assumptions C48_instance_binding_refuted.

(** ** C62 *)
Theorem C62_composite_answers_fit_partial : forall name search bind_only bindings, Forall answers_fit search -> answers_fit (composite name search bind_only bindings).
Proof. exact composite_fits. Qed.
Print Assumptions C62_composite_answers_fit_partial.
Definition honest_shelf (name pkg : str) (p : package) : repo :=
  Repo name true [] (abstract_match (fun d => if str_eqb (d_name d) pkg && d_allows d p then Ok [p] else Ok [])).
Example C62_sample : Forall answers_fit [honest_shelf (lit "main") (lit "a") (Pkg (lit "a") (lit "1") true false)].
Proof.
  constructor; [|constructor]. intros d l p H I. cbn [honest_shelf r_match] in H. unfold abstract_match in H. destruct (_ && _) eqn:E; cbn [bind] in H; injection H as <-.
  - apply pre_sub in I. destruct I as [<-|[]]. apply andb_true_iff in E. apply E.
  - apply pre_sub in I. destruct I.
Qed.
(** the repository of the projects answers with a project of any version *)
Theorem C62_projects_refuted : exists projects d p, projects_do_match projects None d = Ok [p] /\ d_url d = None /\ d_allows d p = false.
Proof.
  exists [Pkg (lit "app") (lit "0.1") true false], (Dep (lit "app") None (fun p => str_eqb (p_version p) (lit "2.0")) false), (Pkg (lit "app") (lit "0.1") true false).
  split; [vm_compute; reflexivity|]. split; reflexivity.
Qed.
Print Assumptions C62_projects_refuted.
