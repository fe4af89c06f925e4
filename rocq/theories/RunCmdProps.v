(** C314: what is written behind [pkm run] reaches the program or the task. *)
From Coq Require Import String Ascii List Bool NArith Arith Lia.
From Verif Require Import Base FsModel CliModel ContextModel RunCmdModel.
Import ListNotations.
Open Scope string_scope.
Open Scope nat_scope.
Open Scope list_scope.
Open Scope bool_scope.

(** *** C314 *)
(** a word that is not taken for an option or for a field *)
Definition starts_plain (w : str) : Prop := exists c r, w = c :: r /\ c <> "-"%char /\ c <> "+"%char.
(** all the words behind it are read, whatever they look like *)
Lemma all_values : forall name d words fuel, length words <= fuel ->
  values_loop fuel (Arg name plain_text d None (KPositional None)) None words = Ok (map VS words, []).
Proof.
  intros name d words. induction words as [|w words IH]; intros fuel L; [destruct fuel; reflexivity|].
  destruct fuel as [|fuel]; [exfalso; cbn in L; lia|]. cbn in L. cbn [values_loop]. cbn [read a_reader plain_text bind read_subfields a_fields fst snd option_map].
  rewrite IH by lia. reflexivity.
Qed.
Lemma texts_all : forall words, texts (VL (map VS words)) = words.
Proof. induction words as [|w words IH]; [reflexivity|]. cbn in *. rewrite IH. reflexivity. Qed.
Lemma not_option : forall c r k, c <> k -> starts_with [k] (c :: r) = false.
Proof. intros c r k N. cbn. destruct (Ascii.eqb k c) eqn:E; [|reflexivity]. apply Ascii.eqb_eq in E. subst. contradiction. Qed.

(** A program gets all the words behind it, options and empty words too, and is run in the environment of the context,
    if its name begins with no dash, plus or at sign. *)
Theorem C314_program_partial : forall f x above w words t fuel, starts_plain w -> hd_error w <> Some "@"%char ->
  run f (Handlers true false true false false false) x = Ok t ->
  run_command (S fuel) f x above (w :: words) = Some (Ok (Exec t w words)).
Proof.
  intros f x above w words t fuel (c & r & -> & D & P) A R. unfold run_command, pkm_run.
  change (lit "@") with ["@"%char]. rewrite (not_option c r "@") by (intros ->; apply A; reflexivity). cbn [negb].
  cbn [parse_loop]. unfold round. change (lit "-") with ["-"%char]. change (lit "+") with ["+"%char].
  rewrite (not_option c r "-") by exact D. rewrite (not_option c r "+") by exact P.
  cbn [t_node children_of dict_get positionals args_of def_of exec_args filter is_positional is_option a_kind negb t_index nth_error].
  unfold read_positional. rewrite all_values by (cbn; lia). cbn [bind fst snd].
  match goal with |- context [parse_loop fuel ?s []] => replace (parse_loop fuel s []) with (parse_loop 0 s []) by (destruct fuel; reflexivity) end.
  cbv [parse_loop t_node def_of].
  cbn [bind option_map]. unfold os_exec.
  match goal with |- context [finalize ?s] => change (finalize s) with (Ok [(lit "cmd_and_args", VL (map VS ((c :: r) :: words))); (lit "help", VB false)] : res (list (str * val))) end.
  cbn [bind option_map].
  match goal with |- context [getattr ?l (lit "help")] => change (getattr l (lit "help")) with (Some (VB false)); change (getattr l (lit "cmd_and_args")) with (Some (VL (map VS ((c :: r) :: words)))) end.
  cbv iota beta. rewrite texts_all. rewrite R. reflexivity.
Qed.
(** the project of a context, by the files that are there *)
Lemma no_project_above : forall f h q, h = Handlers true false false false false true ->
  (forall up p, q = up ++ p -> exists_at f (lit "pyproject.toml" :: p) = false) -> execute_at f h q = None /\ execute_parents f h q = None.
Proof.
  intros f h q ->. induction q as [|d q IH]; intro N.
  - split; [|reflexivity]. unfold execute_at, lookup_project. cbn [h_project h_group h_env h_zoo andb]. rewrite (N [] [] eq_refl). reflexivity.
  - destruct IH as (A & B); [intros up p ->; apply (N (d :: up) p eq_refl)|]. split.
    + unfold execute_at, lookup_project. cbn [h_project h_group h_env h_zoo andb]. rewrite (N [] (d :: q) eq_refl). reflexivity.
    + cbn [execute_parents]. rewrite A. exact B.
Qed.
Lemma project_above : forall f h up p, h = Handlers true false false false false true -> exists_at f (lit "pyproject.toml" :: p) = true ->
  (forall a b, up = a ++ b -> b <> [] -> exists_at f (lit "pyproject.toml" :: b ++ p) = false) ->
  match execute_at f h (up ++ p) with Some t => Some t | None => execute_parents f h (up ++ p) end = Some (OnProject p).
Proof.
  intros f h up p E Y. assert (H : execute_at f h p = Some (OnProject p)).
  { subst h. unfold execute_at, lookup_project. cbn [h_project andb]. rewrite Y. reflexivity. }
  induction up as [|d up IH]; intro N.
  - cbn [app]. rewrite H. reflexivity.
  - cbn [app execute_parents]. replace (execute_at f h (d :: up ++ p)) with (@None target).
    + apply IH. intros a b -> NB. apply (N (d :: a) b eq_refl NB).
    + subst h. unfold execute_at, lookup_project. cbn [h_project h_group h_env h_zoo andb].
      replace (exists_at f (lit "pyproject.toml" :: d :: up ++ p)) with false; [reflexivity|].
      symmetry. exact (N [] (d :: up) eq_refl ltac:(discriminate)).
Qed.
(** A task of the nearest project gets all the words behind it if the first of them begins with no dash or plus and is not
    empty. *)
Theorem C314_task_partial : forall f x above name words up p fuel, x_global x = false -> x_lookup x = true -> x_path x = up ++ p ->
  exists_at f (lit "pyproject.toml" :: p) = true -> (forall a b, up = a ++ b -> b <> [] -> exists_at f (lit "pyproject.toml" :: b ++ p) = false) ->
  (forall w rest, words = w :: rest -> starts_plain w) ->
  run_command (S (S fuel)) f x above ((lit "@" ++ name) :: words) = Some (Ok (RunTask p (lit "@" ++ name) words)).
Proof.
  intros f x above name words up p fuel G L XP Y NP W.
  assert (PR : project_of f x = Ok (Some p)).
  { unfold project_of, run. rewrite G, L, XP. rewrite (project_above f _ up p eq_refl Y NP). reflexivity. }
  unfold run_command, pkm_run. rewrite PR.
  change (lit "@" ++ name) with ("@"%char :: name).
  change (starts_with (lit "@") ("@"%char :: name)) with true. cbn [negb bind]. cbv iota.
  destruct words as [|w words].
  - destruct fuel; reflexivity.
  - destruct (W w words eq_refl) as (c & r & -> & D & P). clear W.
    cbn [parse_loop]. unfold round at 1.
    change (starts_with (lit "-") ("@"%char :: name)) with false. change (starts_with (lit "+") ("@"%char :: name)) with false.
    cbn [t_node children_of dict_get positionals args_of def_of task_args filter is_positional is_option a_kind negb t_index nth_error].
    match goal with |- context [read_positional ?a ?n ?s ?b] => change (read_positional a n s b) with
      (Ok (St (Node (Some task_args) []) [lit "pkm"; lit "run"] [(lit "task", VS ("@"%char :: name))] 1 above, (c :: r) :: words) : res (state * buffer)) end.
    cbv iota beta.
    unfold round. change (lit "-") with ["-"%char]. change (lit "+") with ["+"%char].
    rewrite (not_option c r "-") by exact D. rewrite (not_option c r "+") by exact P.
    cbn [t_node children_of dict_get positionals args_of def_of task_args filter is_positional is_option a_kind negb t_index nth_error].
    unfold read_positional. rewrite all_values by (cbn; lia). cbn [bind fst snd].
    match goal with |- context [parse_loop fuel ?s []] => replace (parse_loop fuel s []) with (parse_loop 0 s []) by (destruct fuel; reflexivity) end.
    cbv [parse_loop t_node def_of].
    match goal with |- context [finalize ?s] => change (finalize s) with (Ok [(lit "task", VS ("@"%char :: name)); (lit "args", VL (map VS ((c :: r) :: words))); (lit "help", VB false)] : res (list (str * val))) end.
    cbn [bind option_map]. unfold task_exec.
    match goal with |- context [getattr ?l (lit "help")] => change (getattr l (lit "help")) with (Some (VB false)); change (getattr l (lit "task")) with (Some (VS ("@"%char :: name))); change (getattr l (lit "args")) with (Some (VL (map VS ((c :: r) :: words)))) end.
    cbv iota beta. rewrite texts_all. reflexivity.
Qed.
(** Outside of projects a task is refused, whatever follows it; so is a command without words. *)
Theorem C314_outside : forall f x above name words fuel,
  x_global x = true \/ (forall up p, x_path x = up ++ p -> exists_at f (lit "pyproject.toml" :: p) = false) ->
  run_command fuel f x above ((lit "@" ++ name) :: words) = Some (Err UnsupportedOperation).
Proof.
  intros f x above name words fuel H. assert (P : project_of f x = Ok None).
  { unfold project_of, run. destruct H as [G|N]; [rewrite G; reflexivity|]. destruct (x_global x); [reflexivity|].
    destruct (no_project_above f _ (x_path x) eq_refl N) as (A & B). rewrite A, B. destruct (x_lookup x); reflexivity. }
  unfold run_command, pkm_run. rewrite P. reflexivity.
Qed.
Theorem C314_nothing : forall f x above fuel, run_command fuel f x above [] = Some (Err IOErr).
Proof. intros f x above fuel. destruct fuel; reflexivity. Qed.
(** Otherwise it is false: an option that directly follows the task is refused, and an empty word there silently takes all
    the words behind it away; the same words behind another one reach the task. *)
Definition prj : fs := [([lit "pyproject.toml"; lit "p"], File [])].
Definition here : context := Context [lit "p"] true false None.
Theorem C314_first_refuted : exists f x above p, x = Context p true false None /\ exists_at f (lit "pyproject.toml" :: p) = true /\
  run_command 9 f x above [lit "@build"; lit "--fast"] = Some (Err IOErr) /\
  run_command 9 f x above [lit "@build"; lit "-h"] = Some (Ok Help) /\
  run_command 9 f x above [lit "@build"; []; lit "release"] = Some (Ok (RunTask p (lit "@build") [])) /\
  run_command 9 f x above [lit "@build"; lit "all"; lit "--fast"; []; lit "release"] = Some (Ok (RunTask p (lit "@build") [lit "all"; lit "--fast"; []; lit "release"])).
Proof. exists prj, here, [], [lit "p"]. repeat split; vm_compute; reflexivity. Qed.
Print Assumptions C314_program_partial. Print Assumptions C314_task_partial. Print Assumptions C314_outside. Print Assumptions C314_nothing. Print Assumptions C314_first_refuted.
(** the hypotheses can be met *)
Example C314_sample : run prj (Handlers true false true false false false) here = Ok (OnProject [lit "p"]) /\ starts_plain (lit "python") /\
  run_command 2 prj here [] [lit "python"; lit "-c"; lit "@x"; []] = Some (Ok (Exec (OnProject [lit "p"]) (lit "python") [lit "-c"; lit "@x"; []])) /\
  exists_at prj [lit "pyproject.toml"; lit "p"] = true /\ (forall a b, [lit "src"] = a ++ b -> b <> [] -> exists_at prj (lit "pyproject.toml" :: b ++ [lit "p"]) = false) /\
  run_command 2 prj (Context [lit "src"; lit "p"] true false None) [] [lit "@build"; lit "all"; lit "-x"] = Some (Ok (RunTask [lit "p"] (lit "@build") [lit "all"; lit "-x"])) /\
  (forall up q, [lit "other"] = up ++ q -> exists_at prj (lit "pyproject.toml" :: q) = false).
Proof.
  split; [vm_compute; reflexivity|]. split; [exists "p"%char, (lit "ython"); repeat split; discriminate|]. split; [vm_compute; reflexivity|].
  split; [reflexivity|]. split.
  - intros a b E N. destruct a as [|d a]; cbn [app] in E; [subst b; reflexivity|]. exfalso. apply N. destruct a as [|d' a]; [|discriminate E]. cbn [app] in E. apply (f_equal (@tl str)) in E. symmetry. exact E.
  - split; [vm_compute; reflexivity|]. intros up q E. destruct up as [|d up]; cbn [app] in E; [subst q; reflexivity|].
    apply (f_equal (@tl str)) in E. cbn [tl] in E. destruct up as [|d' up]; [|discriminate E]. cbn [app] in E. subst q. reflexivity.
Qed.
