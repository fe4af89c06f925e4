(** C189, C190: the context of a command, and the command that installs packages. *)
From Coq Require Import String Ascii List Bool NArith Arith Lia.
From Verif Require Import Base BaseFacts FsModel FsFacts CliModel ContextModel.
Import ListNotations.
Open Scope string_scope.
Open Scope nat_scope.
Open Scope list_scope.
Open Scope bool_scope.

(** *** C189 *)
(** a directory is something that the command can be run on *)
Inductive suits (f : fs) (h : handlers) (q : path) : target -> nat -> Prop :=
| suits_project : h_project h = true -> exists_at f (lit "pyproject.toml" :: q) = true -> suits f h q (OnProject q) 0
| suits_group : h_group h = true -> exists_at f (lit "pyproject-group.toml" :: q) = true -> suits f h q (OnGroup q) 1
| suits_env : h_env h = true -> exists_at f (lit "pyvenv.cfg" :: q) = true -> suits f h q (OnEnv q) 2
| suits_attached : h_env h = true -> exists_at f (lit "pyproject.toml" :: q) = true -> suits f h q (OnAttachedEnv q) 3
| suits_zoo : h_zoo h = true -> exists_at f (lit "env-zoo.toml" :: q) = true -> suits f h q (OnZoo q) 4.
Lemma execute_at_spec : forall f h q,
  match execute_at f h q with
  | Some t => exists r, suits f h q t r /\ forall t' r', suits f h q t' r' -> r <= r'
  | None => forall t' r', ~ suits f h q t' r'
  end.
Proof.
  intros f h q. unfold execute_at, lookup_project, lookup_group, lookup_env, lookup_zoo, lookup_project.
  destruct (h_project h) eqn:P, (exists_at f (lit "pyproject.toml" :: q)) eqn:FP; cbn [andb];
  try (exists 0; split; [constructor; assumption|intros; lia]);
  (destruct (h_group h) eqn:G, (exists_at f (lit "pyproject-group.toml" :: q)) eqn:FG; cbn [andb];
   try (exists 1; split; [constructor; assumption|intros t' r' S; inversion S; subst; try congruence; lia]));
  (destruct (h_env h) eqn:E; [destruct (exists_at f (lit "pyvenv.cfg" :: q)) eqn:FE;
    [exists 2; split; [constructor; assumption|intros t' r' S; inversion S; subst; try congruence; lia]
    |try (exists 3; split; [constructor; assumption|intros t' r' S; inversion S; subst; try congruence; lia])]|]);
  (destruct (h_zoo h) eqn:Z, (exists_at f (lit "env-zoo.toml" :: q)) eqn:FZ; cbn [andb];
    [exists 4; split; [constructor; assumption|intros t' r' S; inversion S; subst; try congruence; lia]
    |intros t' r' S; inversion S; congruence|intros t' r' S; inversion S; congruence|intros t' r' S; inversion S; congruence]).
Qed.
Definition search (f : fs) (h : handlers) (p : path) : option target := match execute_at f h p with Some t => Some t | None => execute_parents f h p end.
Lemma search_step : forall f h c p, search f h (c :: p) = match execute_at f h (c :: p) with Some t => Some t | None => search f h p end.
Proof. reflexivity. Qed.
Lemma search_spec : forall f h p,
  match search f h p with
  | Some t => exists below q r, p = below ++ q /\ suits f h q t r /\
      forall below' q' t' r', p = below' ++ q' -> suits f h q' t' r' -> length q' < length q \/ q' = q /\ r <= r'
  | None => forall below q t r, p = below ++ q -> ~ suits f h q t r
  end.
Proof.
  intros f h p. induction p as [|c p IH].
  - unfold search. cbn [execute_parents]. pose proof (execute_at_spec f h []) as S. destruct (execute_at f h []) as [t|].
    + destruct S as (r & S & M). exists [], [], r. split; [reflexivity|]. split; [exact S|]. intros b q t' r' E S'. symmetry in E. apply app_eq_nil in E. destruct E as [-> ->]. right. split; [reflexivity|exact (M _ _ S')].
    + intros b q t r E. symmetry in E. apply app_eq_nil in E. destruct E as [-> ->]. apply S.
  - rewrite search_step. pose proof (execute_at_spec f h (c :: p)) as S. destruct (execute_at f h (c :: p)) as [t|].
    + destruct S as (r & S & M). exists [], (c :: p), r. split; [reflexivity|]. split; [exact S|]. intros b q t' r' E S'. destruct b as [|d b].
      * cbn in E. subst q. right. split; [reflexivity|exact (M _ _ S')].
      * injection E as -> ->. left. cbn [length]. rewrite app_length. lia.
    + destruct (search f h p) as [t|].
      * destruct IH as (b & q & r & -> & S' & M). exists (c :: b), q, r. split; [reflexivity|]. split; [exact S'|]. intros b' q' t' r' E S2. destruct b' as [|d b'].
        -- cbn in E. subst q'. exfalso. exact (S _ _ S2).
        -- injection E as -> E. exact (M _ _ _ _ E S2).
      * intros b q t r E. destruct b as [|d b]; [cbn in E; subst q; apply S|]. injection E as -> E. exact (IH _ _ _ _ E).
Qed.
(** a command runs on the nearest directory, going up, that is something it can be run on; a project comes before a group,
    that before an environment, and that before a zoo *)
Theorem C189_nearest : forall f h p s t, run f h (Context p true false s) = Ok t ->
  (exists below q r, p = below ++ q /\ suits f h q t r /\ forall below' q' t' r', p = below' ++ q' -> suits f h q' t' r' -> length q' < length q \/ q' = q /\ r <= r') \/
  ((t = OnNothing /\ h_free h = true \/ t = OnMissing /\ h_free h = false /\ h_missing h = true) /\ forall below q t' r, p = below ++ q -> ~ suits f h q t' r).
Proof.
  intros f h p s t H. unfold run in H. cbn [x_global x_path x_lookup] in H. fold (search f h p) in H. pose proof (search_spec f h p) as S. destruct (search f h p) as [u|].
  - injection H as ->. left. exact S.
  - right. split; [|exact S]. destruct (h_free h); [injection H as <-; auto|]. destruct (h_missing h); [injection H as <-; auto|discriminate].
Qed.
Theorem C189_refused : forall f h p s e, run f h (Context p true false s) = Err e ->
  e = UnsupportedOperation /\ h_free h = false /\ h_missing h = false /\ forall below q t r, p = below ++ q -> ~ suits f h q t r.
Proof.
  intros f h p s e H. unfold run in H. cbn [x_global x_path x_lookup] in H. fold (search f h p) in H. pose proof (search_spec f h p) as S. destruct (search f h p) as [u|]; [discriminate|].
  destruct (h_free h); [discriminate|]. destruct (h_missing h); [discriminate|]. injection H as <-. auto.
Qed.
(** a directory that is named is used, or none *)
Theorem C189_named : forall f h p s t, run f h (Context p false false s) = Ok t ->
  (exists r, suits f h p t r /\ forall t' r', suits f h p t' r' -> r <= r') \/
  ((t = OnNothing \/ t = OnMissing) /\ forall t' r, ~ suits f h p t' r).
Proof.
  intros f h p s t H. unfold run in H. cbn [x_global x_path x_lookup] in H. pose proof (execute_at_spec f h p) as S. destruct (execute_at f h p) as [u|].
  - injection H as ->. left. exact S.
  - right. split; [|exact S]. destruct (h_free h); [injection H as <-; auto|]. destruct (h_missing h); [injection H as <-; auto|discriminate].
Qed.
(** the global context is the environment of the interpreter, whatever the directory is *)
Theorem C189_global : forall f h p l s, h_env h = true -> exists site, run f h (Context p l true s) = Ok (OnGlobal site) /\ (site = lit "user" \/ s = Some site).
Proof.
  intros f h p l s E. unfold run. cbn [x_global x_site]. rewrite E. destruct s as [[|c s]|]; eexists; (split; [reflexivity|auto]).
Qed.
Print Assumptions C189_nearest. Print Assumptions C189_refused. Print Assumptions C189_named. Print Assumptions C189_global.
Definition tree : fs := [([lit "pyproject.toml"; lit "a"], File []); ([lit "pyvenv.cfg"; lit ".venv"; lit "a"], File []); ([lit "pyproject-group.toml"], File [])].
Example C189_sample : run tree (Handlers true true true false false false) (Context [lit "src"; lit "a"] true false None) = Ok (OnProject [lit "a"]) /\
  run tree (Handlers true true true false false false) (Context [lit "bin"; lit ".venv"; lit "a"] true false None) = Ok (OnEnv [lit ".venv"; lit "a"]) /\
  run tree (Handlers false false true false false false) (Context [lit "src"; lit "a"] true false None) = Ok (OnAttachedEnv [lit "a"]) /\
  run tree (Handlers false true false false false false) (Context [lit "src"; lit "a"] true false None) = Ok (OnGroup []) /\
  run tree (Handlers true true true false false false) (Context [lit "b"] false false None) = Err UnsupportedOperation /\
  run tree (Handlers false false false true false true) (Context [lit "b"] true false None) = Ok OnMissing.
Proof. repeat split; vm_compute; reflexivity. Qed.

(** the commands of main.py that are needed, as they are declared there (60-69, 126-141) *)
Definition text_reader : reader := RType (fun s => Ok (VS s)).
Definition pkm_args : list argdef :=
  [Arg [lit "-v"; lit "--verbose"] RFlag (Some (VB false)) None (KOption false None);
   Arg [lit "-c"; lit "--context"] (RType (fun s => Ok (VO s))) (Some VNone) None (KOption false (Some (lit "context")));
   Arg [lit "-g"; lit "--global-context"] RFlag (Some (VB false)) None (KOption false (Some (lit "context")));
   Arg [lit "-T"; lit "--without-tasks"] RFlag (Some (VB false)) None (KOption false None)].
Definition pkm_install_args : list argdef :=
  [Arg [lit "-f"; lit "--force"] RFlag (Some (VB false)) None (KOption false None);
   Arg [lit "-s"; lit "--site"] (RChoices [lit "user"; lit "system"]) (Some (VS (lit "user"))) None (KOption false None);
   Arg [lit "packages"] text_reader None None (KPositional None)].
Definition pkm_root : ast := create [([lit "pkm"], pkm_args); ([lit "pkm"; lit "install"], pkm_install_args)].
Definition to_path (s : str) : path := rev (filter (fun w => negb (str_eqb w [])) (split_on "/" s)).
Definition parsed (words : list str) : result := match parse 50 pkm_root words with Some (Ok r) => r | _ => [] end.
Example C189_parsed_sample :
  of to_path [lit "cwd"] (parsed [lit "pkm"; lit "install"; lit "x"]) = Ok (Context [lit "cwd"] true false None) /\
  of to_path [lit "cwd"] (parsed [lit "pkm"; lit "-c"; lit "/a/b"; lit "install"; lit "x"]) = Ok (Context [lit "b"; lit "a"] false false None) /\
  of to_path [lit "cwd"] (parsed [lit "pkm"; lit "-g"; lit "install"; lit "x"]) = Ok (Context [lit "cwd"] false true None).
Proof. repeat split; vm_compute; reflexivity. Qed.
(** [pkm] alone has no context: IndexError instead of a help text *)
Theorem C189_alone_refuted : forall words, words = [lit "pkm"] \/ words = [lit "pkm"; lit "-v"] ->
  (exists r, parse 50 pkm_root words = Some (Ok r)) /\ forall to_path cwd f, main_mode to_path cwd f (parsed words) = Err IndexError.
Proof. intros words [->| ->]; (split; [eexists; vm_compute; reflexivity|intros; reflexivity]). Qed.
Print Assumptions C189_alone_refuted.
(** the site that is asked for is not used: it is looked for at the command above *)
Theorem C189_site_refuted : let cmd := parsed [lit "pkm"; lit "-g"; lit "install"; lit "--site"; lit "system"; lit "x"] in
  getattr cmd (lit "site") = Some (VS (lit "system")) /\
  exists x, of to_path [] cmd = Ok x /\ forall f h, h_env h = true -> run f h x = Ok (OnGlobal (lit "user")).
Proof. split; [vm_compute; reflexivity|]. eexists. split; [vm_compute; reflexivity|]. intros f h E. unfold run. cbn. rewrite E. reflexivity. Qed.
Print Assumptions C189_site_refuted.
(** the option -T does not keep the tasks from running *)
Theorem C189_without_tasks_refuted : let cmd := parsed [lit "pkm"; lit "-T"; lit "install"; lit "x"] in
  getattr cmd (lit "without_tasks") = Some (VB true) /\ main_mode to_path [lit "a"] tree cmd = Ok (WithTasks [lit "a"]).
Proof. split; vm_compute; reflexivity. Qed.
Print Assumptions C189_without_tasks_refuted.

(** *** C190 *)
(** in a project the packages are installed, after their removal if it is forced *)
Theorem C190_project_partial : forall bound a, i_app a = false -> is_given (i_repo a) = false -> i_unnamed a = false ->
  install_on_project bound a = ((if i_force a then map ARemove (i_packages a) else []) ++
    (if i_packages a then [AInstallProject (i_optional a)] else [AInstallDependencies (i_packages a) (i_optional a) (i_update a)]), None).
Proof.
  intros bound a A R U. unfold install_on_project, register_repo_bindings. rewrite R, U, A, orb_false_r. unfold force_actions. destruct (i_packages a); reflexivity.
Qed.
(** with a repository they are bound to it first, and removed and installed again if they were not *)
Theorem C190_bound : forall bound a repo, i_app a = false -> i_repo a = Some repo -> repo <> [] -> i_packages a <> [] ->
  (forall n, In n (i_packages a) -> bound n = Some repo) /\ install_on_project bound a = (force_actions (i_force a) (i_packages a) ++ [AInstallDependencies (i_packages a) (i_optional a) (i_update a)], None) \/
  install_on_project bound a = (ABind (i_packages a) repo :: map ARemove (i_packages a) ++ [AInstallDependencies (i_packages a) (i_optional a) (i_update a)], None).
Proof.
  intros bound a repo A R N P. unfold install_on_project, register_repo_bindings. rewrite R, A. destruct repo as [|c repo]; [contradiction|]. cbn [is_given].
  destruct (existsb _ (i_packages a)) eqn:X.
  - right. rewrite orb_true_r. cbn. destruct (i_packages a); [contradiction|reflexivity].
  - left. split.
    + intros n I. destruct (opt_eqb str_eqb (bound n) (Some (c :: repo))) eqn:Q.
      * destruct (bound n) as [b|]; [|discriminate]. change (str_eqb b (c :: repo) = true) in Q. apply str_eqb_eq in Q. congruence.
      * exfalso. assert (Y : existsb (fun d => negb (opt_eqb str_eqb (bound d) (Some (c :: repo)))) (i_packages a) = true) by (apply existsb_exists; exists n; rewrite Q; auto). cbv zeta in X. setoid_rewrite X in Y. discriminate.
    + rewrite orb_false_r. cbn [app]. destruct (i_packages a); [contradiction|reflexivity].
Qed.
Print Assumptions C190_project_partial. Print Assumptions C190_bound.
Definition ask (names : list str) (force app : bool) : install_args := Install names None force app false None false.
Example C190_sample : install_on_project (fun _ => None) (ask [lit "x"] true false) = ([ARemove (lit "x"); AInstallDependencies [lit "x"] None false], None) /\
  install_on_project (fun _ => None) (Install [lit "x"] None false false true (Some (lit "main")) false) = ([ABind [lit "x"] (lit "main"); ARemove (lit "x"); AInstallDependencies [lit "x"] None true], None).
Proof. split; reflexivity. Qed.
(** in an environment nothing is ever installed outside of a container: the command fails, after the removal of the packages if
    that is forced *)
Theorem C190_environment_refuted : forall bound a, (forall names updates, ~ In (AInstall names updates) (fst (install_on_environment bound a))) /\
  (i_packages a <> [] -> i_app a = false -> snd (install_on_environment bound a) <> None) /\
  (i_force a = true -> i_app a = false -> is_given (i_optional a) = false -> i_unnamed a = false -> forall n, In n (i_packages a) -> In (ARemove n) (fst (install_on_environment bound a))).
Proof.
  intros bound a. unfold install_on_environment.
  assert (B : (forall l u, ~ In (AInstall l u) (fst (fst (register_repo_bindings bound a)))) /\ (i_unnamed a = false -> snd (register_repo_bindings bound a) = None)).
  { unfold register_repo_bindings. destruct (is_given (i_repo a)).
    - destruct (existsb _ _); cbn; split; [|auto| |auto]; intros l u I; [destruct I as [I|[]]; discriminate|exact I].
    - destruct (i_unnamed a); cbn; (split; [intros l u []|intro; try reflexivity; discriminate]). }
  destruct (register_repo_bindings bound a) as [[acts forced] [e|]]; cbn [fst snd] in B; destruct B as [B1 B2].
  - split; [exact B1|]. split; [intros _ _; discriminate|]. intros _ _ _ U. specialize (B2 U). discriminate.
  - destruct (is_given (i_optional a)); [split; [exact B1|split; [intros _ _; discriminate|intros; discriminate]]|].
    assert (F : forall b names l u, ~ In (AInstall l u) (force_actions b names)). { intros b names l u. unfold force_actions. destruct b; [|intros []]. intro I. apply in_map_iff in I. destruct I as (x & X & _). discriminate. }
    destruct (i_packages a) as [|d rest] eqn:P; [split; [exact B1|split; [intro N; contradiction|intros _ _ _ _ n []]]|].
    destruct (i_app a).
    + split; [|split; intros; discriminate]. destruct rest as [|r rest]; cbn [fst]; intros l u I.
      * apply in_app_or in I. destruct I as [I|[I|[]]]; [exact (B1 _ _ I)|discriminate].
      * rewrite !in_app_iff in I. destruct I as [[I|[I|[]]]|I]; [exact (B1 _ _ I)|discriminate|exact (F _ _ _ _ I)].
    + cbn [fst snd]. split; [|split; [intros; discriminate|]].
      * intros l u I. apply in_app_or in I. destruct I as [I|I]; [exact (B1 _ _ I)|exact (F _ _ _ _ I)].
      * intros FA _ _ _ n I. apply in_or_app. right. rewrite FA. cbn [orb]. unfold force_actions. apply in_map. exact I.
Qed.
Print Assumptions C190_environment_refuted.
(** a refused request leaves the binding behind *)
Theorem C190_app_refuted : install_on_project (fun _ => None) (Install [lit "x"] None false true false (Some (lit "main")) false) = ([ABind [lit "x"] (lit "main")], Some UnsupportedOperation).
Proof. reflexivity. Qed.
Print Assumptions C190_app_refuted.
