(** Properties of the templates that can be used: C308, C313. *)
From Coq Require Import String Ascii List Bool NArith Arith Lia.
From Verif Require Import Base BaseFacts TaskModel TaskProofs CatalogModel CatalogProofs.
Import ListNotations.
Open Scope string_scope.
Open Scope nat_scope.
Open Scope list_scope.
Open Scope bool_scope.

(** ** C308: "pkm new" makes what the template of the name says *)
(** the listed names are those of the outermost directories with a render.py, whatever the order of the entries *)
Theorem C308_listed : forall installed out, templates_in_namespace installed = Ok out ->
  forall name, In name out <-> exists dirs, name = join (lit ".") dirs /\ template_at installed dirs.
Proof. intros installed out H name. exact (find_spec installed [] out H name). Qed.
(** in a tidy directory of templates the name of a template yields the one command made of its file, if the working directory has
    nothing of that name *)
Theorem C308_runs_partial : forall cwd installed dirs, tidy installed -> dirs <> [] ->
  at_path installed (dirs ++ [lit "render.py"]) (Script true) -> (forall x, ~ at_path cwd (dirs ++ [lit "render.py"]) x) ->
  pkm_new cwd installed (Some (join (lit ".") dirs)) = Ok [(join (lit ".") dirs, dirs ++ [lit "render.py"])].
Proof.
  intros cwd installed dirs T Hne Ha Hno.
  assert (Hl : exists_below cwd (dirs ++ [lit "render.py"]) = false).
  { destruct (exists_below cwd (dirs ++ [lit "render.py"])) eqn:E; [|reflexivity]. destruct (exists_at_path _ _ E) as [x Hx]. exfalso. exact (Hno x Hx). }
  destruct installed as [b|l]; [inversion Ha; destruct dirs; discriminate|].
  destruct (finds_file dirs l (lit "render") [] T Ha) as (F & Hpd & _). rewrite Forall_forall in Hpd.
  assert (Hdash : ~ In "-"%char (join (lit ".") dirs)).
  { intros X. apply in_join in X. destruct X as [X|(w & Hw & X)]; [discriminate|]. exact (proj2 (proj2 (Hpd w Hw)) X). }
  assert (Hsplit : split_on "." (join (lit ".") dirs) = dirs).
  { apply split_join; [exact Hne|]. intros w Hw. exact (proj1 (proj2 (Hpd w Hw))). }
  assert (C : as_command cwd (Folder l) (join (lit ".") dirs) = Ok (join (lit ".") dirs, dirs ++ [lit "render.py"])).
  { unfold as_command, load_template. rewrite (underscored_same _ Hdash), Hsplit, nonempty_all by (intros w Hw; exact (proj1 (Hpd w Hw))).
    change render_py with (lit "render.py"). rewrite Hl. cbn [entries]. unfold str in *. rewrite F. reflexivity. }
  unfold pkm_new. destruct (join (lit ".") dirs) as [|c n] eqn:E; [|rewrite C; reflexivity].
  exfalso. destruct dirs as [|d dirs]; [congruence|]. pose proof (proj1 (Hpd d (or_introl eq_refl))) as Hd. destruct d; [congruence|]. destruct dirs; discriminate.
Qed.
(** what is offered instead are the templates whose names begin with the word, or all of them *)
Theorem C308_offered_partial : forall cwd installed word out, pkm_new cwd installed (Some word) = Ok out ->
  (exists p, out = [(word, p)]) \/
  exists names, templates_in_namespace installed = Ok names /\
    ((forall c, In c out -> exists r, fst c = word ++ r) /\ (forall r, In (word ++ r) names -> In (word ++ r) (map fst out)) \/
     (forall n, In n names -> ~ exists r, n = word ++ r) /\ map fst out = names).
Proof.
  intros cwd installed word out H. 
  assert (G : offered cwd installed (Some word) = Ok out \/ exists p, out = [(word, p)]).
  { unfold pkm_new in H. destruct word as [|c n]; [left; exact H|]. destruct (as_command cwd installed (c :: n)) as [x|e] eqn:E; [|left; exact H].
    right. apply Ok_inj in H. subst. unfold as_command in E. apply bind_ok in E. destruct E as (t & _ & E). destruct (snd t); [|discriminate]. apply Ok_inj in E. subst. eauto. }
  destruct G as [G|G]; [right|left; exact G]. unfold offered in G. apply bind_ok in G. destruct G as (names & Hn & G). exists names. split; [exact Hn|].
  destruct (as_commands_in _ _ _ _ G) as [E _]. destruct word as [|c n].
  - left. split; [intros x _; exists (fst x); reflexivity|]. intros r Hr. rewrite E. exact Hr.
  - destruct (filter (starts_with (c :: n)) names) as [|f1 fs] eqn:Ef.
    + right. split; [|exact E]. intros m Hm [r ->]. assert (X : In ((c :: n) ++ r) (filter (starts_with (c :: n)) names)).
      { apply filter_In. split; [exact Hm|]. apply starts_with_iff. eauto. } rewrite Ef in X. exact X.
    + left. rewrite <- Ef in E. split.
      * intros x Hx. assert (X : In (fst x) (filter (starts_with (c :: n)) names)) by (rewrite <- E; apply in_map; exact Hx).
        apply filter_In in X. destruct X as [_ X]. apply starts_with_iff in X. exact X.
      * intros r Hr. rewrite E. apply filter_In. split; [exact Hr|]. apply starts_with_iff. eauto.
Qed.
(** a template in the working directory cannot be used, and it takes its name from an installed one: neither the name nor the list
    of all templates works any more *)
Theorem C308_local_refuted : forall cwd installed name k, plain_name name ->
  dict_get name (entries cwd) = Some (Folder k) -> dict_has (lit "render.py") k = true ->
  load_template cwd installed name = Err AttributeError /\
  (forall names, templates_in_namespace installed = Ok names -> In name names ->
     (exists e, pkm_new cwd installed (Some name) = Err e) /\ exists e, pkm_new cwd installed None = Err e).
Proof.
  intros cwd installed name k (Hn & Hd & Hm) Hk Hr.
  assert (L : load_template cwd installed name = Err AttributeError).
  { unfold load_template. rewrite (underscored_same _ Hm), (split_on_single "." name Hd), nonempty_all by (intros w [<-|[]]; exact Hn).
    cbn [app exists_below]. destruct cwd as [b|l]; [discriminate|]. cbn [entries] in Hk. rewrite Hk. cbn [exists_below].
    unfold dict_has in Hr. change render_py with (lit "render.py"). destruct (dict_get (lit "render.py") k); [reflexivity|discriminate]. }
  split; [exact L|]. intros names Hnames Hin.
  assert (C : as_command cwd installed name = Err AttributeError) by (unfold as_command; rewrite L; reflexivity).
  assert (A : forall ns, In name ns -> exists e, as_commands cwd installed ns = Err e).
  { intros ns Hns. destruct (as_commands cwd installed ns) as [out|e] eqn:E; [|eauto]. destruct (proj2 (as_commands_in _ _ _ _ E) name Hns) as (p & X & _). congruence. }
  split.
  - unfold pkm_new, offered. rewrite Hnames. cbn [bind]. destruct name as [|c n]; [congruence|]. rewrite C. apply A.
    assert (X : In (c :: n) (filter (starts_with (c :: n)) names)).
    { apply filter_In. split; [exact Hin|]. apply starts_with_iff. exists []. rewrite app_nil_r. reflexivity. }
    destruct (filter (starts_with (c :: n)) names); [contradiction|exact X].
  - unfold pkm_new, offered. rewrite Hnames. cbn [bind]. apply A. exact Hin.
Qed.
(** a template with a dash in its name is listed, but its name never loads it *)
Theorem C308_dash_refuted : forall cwd installed dirs b, In "-"%char (join (lit ".") dirs) ->
  load_template cwd installed (join (lit ".") dirs) <> Ok (dirs ++ [lit "render.py"], b).
Proof.
  intros cwd installed dirs b Hdash H. unfold load_template in H. match type of H with (if ?b then _ else _) = _ => destruct b end; [discriminate|].
  destruct (find_module _ _ _) as [p c| | |] eqn:E; try discriminate. apply Ok_inj in H. injection H as -> _.
  destruct (found_no_dash _ _ _ _ _ E) as (r & Er & Hr).
  { intros w Hw X. apply in_app_or in Hw. destruct Hw as [Hw|[<-|[]]]; [exact (underscored_no_dash _ (split_chars _ _ _ _ Hw X))|].
    cbn in X. repeat (destruct X as [X|X]; [discriminate|]). exact X. }
  cbn [app] in Er. subst r. apply in_join in Hdash. destruct Hdash as [X|(w & Hw & X)]; [discriminate|].
  apply (Hr w); [apply in_or_app; left; exact Hw|exact X].
Qed.
Example C308_example :
  let installed := Folder [(lit "project", Folder [(lit "{{name}}", Folder [(lit "src", Folder [])]); (lit "render.py", Script true)]);
                           (lit "project_from_env", Folder [(lit "render.py", Script true)]);
                           (lit "web", Folder [(lit "flask", Folder [(lit "render.py", Script true)]); (lit "notes.txt", Script false)])] in
  let here := Folder [(lit "src", Folder [])] in
  templates_in_namespace installed = Ok [lit "project"; lit "project_from_env"; lit "web.flask"] /\
  pkm_new here installed (Some (lit "web.flask")) = Ok [(lit "web.flask", [lit "web"; lit "flask"; lit "render.py"])] /\
  pkm_new here installed (Some (lit "project-from-env")) = Ok [(lit "project-from-env", [lit "project_from_env"; lit "render.py"])] /\
  pkm_new here installed (Some (lit "pro")) = Ok [(lit "project", [lit "project"; lit "render.py"]); (lit "project_from_env", [lit "project_from_env"; lit "render.py"])] /\
  pkm_new here installed (Some (lit "--help")) = pkm_new here installed None /\
  pkm_new (Folder [(lit "project", Folder [(lit "render.py", Script true)])]) installed (Some (lit "project")) = Err AttributeError /\
  pkm_new here (Folder [(lit "my-web", Folder [(lit "render.py", Script true)]); (lit "env", Folder [(lit "render.py", Script true)])]) None = Err IOErr.
Proof. vm_compute. repeat split. Qed.
Example C308_tidy_example : exists installed, tidy installed /\ at_path installed [lit "env"; lit "render.py"] (Script true) /\
  forall x, ~ at_path (Folder [(lit "env", Folder [(lit "bin", Folder [])])]) [lit "env"; lit "render.py"] x.
Proof.
  exists (Folder [(lit "env", Folder [(lit "render.py", Script true)])]).
  assert (Hp : plain_name (lit "env") /\ plain_name (lit "render")).
  { split; (split; [discriminate|]); split; cbn; intros X; repeat (destruct X as [X|X]; [discriminate|]); exact X. }
  split; [|split].
  3: { intros x H. inversion H as [|? ? y ? ? Hin Hy]; subst. destruct Hin as [E|[]]. injection E as <-. inversion Hy as [|? ? ? ? ? Hin _]; subst. destruct Hin as [E|[]]. discriminate. }
  - intros q l H. inversion H as [|? ? ? ? ? Hin Hx]; subst; clear H.
    + split; [repeat constructor; cbn; intuition discriminate|]. split.
      * intros name k [X|[]]. injection X as <- _. apply Hp.
      * intros s b [X|[]]. discriminate.
    + destruct Hin as [X|[]]. injection X as <- <-. inversion Hx as [|? ? ? ? ? Hin Hy]; subst; clear Hx.
      * split; [repeat constructor; cbn; intuition discriminate|]. split.
        -- intros name k [X|[]]. discriminate.
        -- intros s b [X|[]]. pose proof (f_equal fst X) as Hs. cbn [fst] in Hs. assert (Es : s = lit "render") by (apply (app_inv_tail (lit ".py")); symmetry; exact Hs). subst s.
           split; [apply Hp|]. intros k [Y|[]]. discriminate.
      * destruct Hin as [X|[]]. injection X as <- <-. inversion Hy.
  - apply (at_below _ (lit "env") (Folder [(lit "render.py", Script true)])); [left; reflexivity|]. apply (at_below _ (lit "render.py") (Script true)); [left; reflexivity|]. constructor.
Qed.

(** ** C313: a template can use another one *)
(** it never can, not even one that works as a command *)
Theorem C313_refuted : forall cwd installed name, render_template cwd installed name = Err AttributeError.
Proof. reflexivity. Qed.
Theorem C313_loadable_refuted : forall cwd installed name p, as_command cwd installed name = Ok (name, p) ->
  exists e, render_template cwd installed name = Err e.
Proof. intros. exists AttributeError. apply C313_refuted. Qed.
(** so the template for a project that is made from an environment never makes one *)
Theorem C313_from_env_refuted : forall is_venv_path cwd installed, exists e, project_from_env_starts is_venv_path cwd installed = Err e.
Proof. intros [|] cwd installed; eexists; reflexivity. Qed.
Example C313_example : let installed := Folder [(lit "env", Folder [(lit "render.py", Script true)])] in
  as_command (Folder []) installed (lit "env") = Ok (lit "env", [lit "env"; lit "render.py"]) /\
  render_template (Folder []) installed (lit "env") = Err AttributeError.
Proof. vm_compute. split; reflexivity. Qed.
