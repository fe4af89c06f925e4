(** Properties of the list of tasks: C292. *)
From Coq Require Import String Ascii List Bool NArith Arith Lia.
From Verif Require Import Base BaseFacts TaskModel TaskProofs.
Import ListNotations.
Open Scope string_scope.
Open Scope nat_scope.
Open Scope list_scope.
Open Scope bool_scope.

(** ** C292: a task that is listed can be run *)
(** every task of the project is listed under its path, and nothing else is *)
Theorem C292_listed : forall project out, find_in_directory project [] = Ok out ->
  forall name p, In (name, p) out <->
    exists dirs s, name = join (lit ".") (dirs ++ [s]) /\ p = dirs ++ [s ++ lit ".py"] /\ s <> [] /\
      Forall (fun d => py_stem d = None) dirs /\ at_path project p (Script true).
Proof.
  intros project out H name p. split.
  - intros Hin. destruct (listed_dir _ _ _ _ _ H Hin) as (dirs & file & s & Hp & Hn & Hs & Hd & Ha). apply py_stem_spec in Hs. destruct Hs as [-> Hs].
    cbn [app] in *. subst. exists dirs, s. repeat split; auto.
  - intros (dirs & s & -> & -> & Hs & Hd & Ha). apply (every_dir project [] out dirs (s ++ dot_py) s H Ha); [|exact Hd]. apply py_stem_spec. auto.
Qed.
(** in a tidy directory, one with words for names and no file beside a directory of its name, each of these names runs its file *)
Theorem C292_runs_partial : forall project installed out name p, tidy project -> find_in_directory project [] = Ok out -> In (name, p) out ->
  load_task project installed name = Ok p.
Proof.
  intros project installed out name p T H Hin. destruct project as [b|l]; [apply Ok_inj in H; subst; contradiction|].
  destruct (proj1 (C292_listed _ _ H name p) Hin) as (dirs & s & En & Ep & Hs & Hd & Ha). subst p.
  destruct (finds_file dirs l s [] T Ha) as (F & Hpd & Hps).
  assert (Hall : forall w, In w (dirs ++ [s]) -> plain_name w).
  { intros w Hw. apply in_app_or in Hw. destruct Hw as [Hw|[<-|[]]]; [|exact Hps]. rewrite Forall_forall in Hpd. auto. }
  assert (Hdash : ~ In "-"%char name).
  { rewrite En. intros X. apply in_join in X. destruct X as [X|(w & Hw & X)]; [discriminate|]. exact (proj2 (proj2 (Hall w Hw)) X). }
  assert (Hsplit : split_on "." name = dirs ++ [s]).
  { rewrite En. apply split_join; [destruct dirs; discriminate|]. intros w Hw. exact (proj1 (proj2 (Hall w Hw))). }
  unfold load_task. rewrite (underscored_same name Hdash), Hsplit. cbn [entries]. unfold str in *. rewrite F. cbn [as_task app].
  replace (starts_with (lit ".") name) with false; [reflexivity|]. symmetry. destruct (starts_with (lit ".") name) eqn:E; [|reflexivity].
  apply starts_with_iff in E. destruct E as [r ->]. cbn [split_on app lit list_ascii_of_string] in Hsplit.
  change (Ascii.eqb "." ".") with true in Hsplit. cbn iota in Hsplit. exfalso.
  assert (Hnil : In [] (dirs ++ [s])) by (rewrite <- Hsplit; left; reflexivity). exact (proj1 (Hall [] Hnil) eq_refl).
Qed.
(** a task with a dash in its name or in its directory is listed, but its name never runs it *)
Theorem C292_dash_refuted : forall project installed out name p, find_in_directory project [] = Ok out -> In (name, p) out -> In "-"%char name ->
  load_task project installed name <> Ok p.
Proof.
  intros project installed out name p H Hin Hdash X. pose proof (loaded_no_dash _ _ _ _ X) as Hno.
  destruct (proj1 (C292_listed _ _ H name p) Hin) as (dirs & s & -> & -> & _). apply in_join in Hdash. destruct Hdash as [E|(w & Hw & Hc)]; [discriminate|].
  apply in_app_or in Hw. destruct Hw as [Hw|[<-|[]]].
  - apply (Hno w); [apply in_or_app; left; exact Hw|exact Hc].
  - apply (Hno (s ++ lit ".py")); [apply in_or_app; right; left; reflexivity|]. apply in_or_app. left. exact Hc.
Qed.
(** a task beside a directory of its name hides what is in the directory, and is hidden by it if that is a package *)
Theorem C292_beside_refuted : exists a b out, find_in_directory a [] = Ok out /\
  In (lit "docs.all", [lit "docs"; lit "all.py"]) out /\ load_task a None (lit "docs.all") = Err IOErr /\
  exists out2, find_in_directory b [] = Ok out2 /\ In (lit "docs", [lit "docs.py"]) out2 /\ load_task b None (lit "docs") = Ok [lit "docs"; lit "__init__.py"].
Proof.
  exists (Folder [(lit "docs.py", Script true); (lit "docs", Folder [(lit "all.py", Script true)])]),
         (Folder [(lit "docs.py", Script true); (lit "docs", Folder [(lit "__init__.py", Script true)])]).
  eexists. split; [vm_compute; reflexivity|]. split; [vm_compute; tauto|]. split; [vm_compute; reflexivity|].
  eexists. split; [vm_compute; reflexivity|]. split; [vm_compute; tauto|vm_compute; reflexivity].
Qed.
(** none of the installed tasks can be run under the name it is listed with, in a project without tasks *)
Theorem C292_installed_refuted : forall installed out name p i, find_in_namespace installed [] = Ok out -> In (name, p) out ->
  exists e, load_task (Folder []) i name = Err e.
Proof.
  intros installed out name p i H Hin. destruct (listed_space _ _ _ _ _ H Hin (Forall_nil _)) as (dirs & s & -> & _). unfold listed_name. cbn [app].
  unfold load_task. rewrite !underscored_app. change (underscored (lit ".")) with (lit ".").
  destruct (starts_with (lit ".") _); [eauto|]. cbn [entries].
  destruct (two_parts (underscored (join (lit ".") dirs)) (underscored s)) as (x & y & r & E). rewrite E. eexists. reflexivity.
Qed.
(** and without a package of installed tasks nothing is listed at all *)
Theorem C292_none_installed_refuted : forall project, load_all_tasks project None = Err IOErr.
Proof. reflexivity. Qed.
Example C292_example :
  let project := Folder [(lit "build.py", Script true); (lit "notes.txt", Script false); (lit "docs", Folder [(lit "html.py", Script true); (lit "util.py", Script false)])] in
  let installed := Folder [(lit "lint.py", Script true); (lit "deploy", Folder [(lit "site.py", Script true)])] in
  tidy project /\
  load_all_tasks project (Some installed) =
    Ok [(lit ".lint", [lit "lint.py"]); (lit "deploy.site", [lit "deploy"; lit "site.py"]); (lit "build", [lit "build.py"]); (lit "docs.html", [lit "docs"; lit "html.py"])] /\
  load_task project (Some installed) (lit "docs.html") = Ok [lit "docs"; lit "html.py"] /\
  load_task project (Some installed) (lit "lint") = Ok [lit "pkm_tasks"; lit "lint.py"] /\
  load_task project (Some installed) (lit ".lint") = Err OtherErr /\
  load_task project (Some installed) (lit "deploy.site") = Err IOErr /\
  load_task (Folder [(lit "my-task.py", Script true)]) (Some installed) (lit "my-task") = Err IOErr.
Proof.
  cbn zeta. split; [|vm_compute; repeat split].
  assert (Hp : forall s, s <> [] -> existsb (fun c => Ascii.eqb c "." || Ascii.eqb c "-") s = false -> plain_name s).
  { intros s Hn H. split; [exact Hn|]. assert (G : forall c, In c s -> Ascii.eqb c "." || Ascii.eqb c "-" = false).
    { intros c Hc. destruct (Ascii.eqb c "." || Ascii.eqb c "-") eqn:E; [|reflexivity]. assert (existsb (fun c => Ascii.eqb c "." || Ascii.eqb c "-") s = true) by (apply existsb_exists; eauto). congruence. }
    split; intros X; apply G in X; discriminate. }
  intros q l H. inversion H as [|? ? ? ? ? Hin Hx]; subst; clear H.
  - split; [|split].
    + repeat constructor; cbn; intuition discriminate.
    + intros name k Hin. cbn [In] in Hin. destruct Hin as [Hin|[Hin|[Hin|[]]]]; try discriminate. injection Hin as Hin _. rewrite <- Hin. apply Hp; [discriminate|reflexivity].
    + intros s b Hin. cbn [In] in Hin. repeat (destruct Hin as [Hin|Hin]; [try discriminate|]); [| |contradiction].
      * pose proof (f_equal fst Hin) as Hs. cbn [fst] in Hs. assert (Es : s = lit "build") by (apply (app_inv_tail (lit ".py")); symmetry; exact Hs). subst s.
        split; [apply Hp; [discriminate|reflexivity]|]. intros k X. cbn in X. repeat (destruct X as [X|X]; [discriminate|]). exact X.
      * pose proof (f_equal fst Hin) as Hs. cbn [fst] in Hs. apply (f_equal (@rev ascii)) in Hs. rewrite rev_app_distr in Hs. discriminate.
  - cbn [In] in Hin. repeat (destruct Hin as [Hin|Hin]; [injection Hin as <- <-|]); [inversion Hx|inversion Hx| |contradiction].
    inversion Hx as [|? ? ? ? ? Hin Hy]; subst; clear Hx.
    2: { cbn [In] in Hin. repeat (destruct Hin as [Hin|Hin]; [injection Hin as <- <-; inversion Hy|]). contradiction. }
    split; [|split].
    + repeat constructor; cbn; intuition discriminate.
    + intros name k Hin. cbn in Hin. repeat (destruct Hin as [Hin|Hin]; [discriminate|]). contradiction.
    + intros s b Hin. cbn [In] in Hin. destruct Hin as [Hin|[Hin|[]]]; pose proof (f_equal fst Hin) as Hs; cbn [fst] in Hs.
      * assert (Es : s = lit "html") by (apply (app_inv_tail (lit ".py")); symmetry; exact Hs). subst s.
        split; [apply Hp; [discriminate|reflexivity]|]. intros k X. cbn in X. repeat (destruct X as [X|X]; [discriminate|]). exact X.
      * assert (Es : s = lit "util") by (apply (app_inv_tail (lit ".py")); symmetry; exact Hs). subst s.
        split; [apply Hp; [discriminate|reflexivity]|]. intros k X. cbn in X. repeat (destruct X as [X|X]; [discriminate|]). exact X.
Qed.
