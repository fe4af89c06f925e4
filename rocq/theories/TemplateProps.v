(** C59, C74: executing a template. *)
From Coq Require Import String Ascii List Bool NArith Arith.
From Verif Require Import Base BaseFacts FsModel FsFacts TemplateModel TemplateProofs TemplateOutProofs.
Import ListNotations.
Open Scope string_scope.
Open Scope nat_scope.
Open Scope list_scope.
Open Scope bool_scope.

(** Without the overwrite flag and when the template's names are plain file names, nothing that is in the file
    system is lost, whatever happens: directories stay, and a file keeps its content unless its name is that of
    the directory of the target it lies in (see [C59_doubled_refuted]). *)
Theorem C59_nothing_lost_partial : forall names texts ignored template tdir target f,
  plain_names names -> (forall p, under tdir p = true -> lookup f p = None) ->
  under tdir target = false -> under target tdir = false ->
  let f' := fst (execute names texts ignored template false tdir target f) in
  (forall p, lookup f p = Some Dir -> lookup f' p = Some Dir) /\
  (forall p c, lookup f p = Some (File c) ->
     lookup f' p = Some (File c) \/ exists n d, p = n :: n :: d /\ under target d = true).
Proof. intros. apply execute_kept; assumption. Qed.
(** When the template would give an entry that is a file of the target already, the execution fails and no path of
    the file system is changed. *)
Theorem C59_refused_partial : forall names texts ignored template tdir target f f2 r c,
  plain_names names -> (forall p, under tdir p = true -> lookup f p = None) ->
  under tdir target = false -> under target tdir = false ->
  render names texts ignored (write f tdir Dir) [] tdir template = (f2, Ok tt) ->
  r <> [] -> lookup f2 (r ++ tdir) <> None -> lookup f (r ++ target) = Some (File c) ->
  snd (execute names texts ignored template false tdir target f) = Err IOErr /\
  forall p, lookup (fst (execute names texts ignored template false tdir target f)) p = lookup f p.
Proof. intros. eapply execute_refuses; eauto 10. Qed.
(** When rendering fails, the error gets out and no path of the file system is changed. *)
Theorem C59_failure_partial : forall names texts ignored template tdir target f f2 e,
  plain_names names -> (forall p, under tdir p = true -> lookup f p = None) ->
  render names texts ignored (write f tdir Dir) [] tdir template = (f2, Err e) ->
  snd (execute names texts ignored template false tdir target f) = Err e /\
  forall p, lookup (fst (execute names texts ignored template false tdir target f)) p = lookup f p.
Proof. intros. eapply execute_fails; eauto. Qed.

(** a project directory with a package, and a temporary directory beside it *)
Definition a_tdir : path := [lit "tmp1"; lit "tmp"].
Definition a_target : path := [lit "app"; lit "home"].
Definition a_home : fs :=
  [([], Dir); ([lit "home"], Dir); ([lit "tmp"], Dir); (a_target, Dir); (lit "app" :: a_target, Dir);
   (lit "app" :: lit "app" :: a_target, File "launcher"); (lit "main.py" :: lit "app" :: a_target, File "import sys");
   (lit "notes" :: a_target, File "mine")].
Definition a_names (s : str) : res str := if str_eqb s (lit "{{name}}") then Ok (lit "app") else Ok s.
Definition a_texts (s : str) : res str := if str_eqb s (lit "bad") then Err OtherErr else Ok (lit "text of " ++ s).
Definition a_ignored (t : list tree) (p : path) : bool := path_mem p (load_ignored None (fun _ _ => []) t).
Definition a_template : list tree :=
  [TFile "render.py" "code"; TFile "pyproject.toml.tmpl" "toml"; TDir "{{name}}" [TFile "__init__.py" "init"; TFile "README.tmpl" "readme"]].
Definition run (t : list tree) (overwrite : bool) : fs * res unit :=
  execute a_names a_texts (a_ignored t) t overwrite a_tdir a_target a_home.

Lemma a_names_plain : forall s, In "/"%char s \/ s = lit "." \/ s = lit ".." \/ (forall m, a_names s = Ok m -> m = [] \/ plain_name m).
Proof.
  intro s. destruct (in_dec ascii_dec "/"%char s) as [I|I]; [left; exact I|].
  destruct (str_eqb s (lit ".")) eqn:E1; [right; left; apply str_eqb_eq, E1|].
  destruct (str_eqb s (lit "..")) eqn:E2; [right; right; left; apply str_eqb_eq, E2|]. right. right. right.
  intros m H. unfold a_names in H. destruct (str_eqb s (lit "{{name}}")).
  - injection H as <-. right. repeat split; try discriminate. intro X. repeat (destruct X as [X|X]; [discriminate X|]). destruct X.
  - injection H as <-. destruct s as [|c s]; [left; reflexivity|]. right. split; [discriminate|]. split; [exact I|].
    split; apply str_eqb_neq; assumption.
Qed.
(** a template directory has no names with a slash, nor the two special ones *)
Definition safe_names (s : str) : res str :=
  if existsb (Ascii.eqb "/"%char) s || str_eqb s (lit ".") || str_eqb s (lit "..") then Err OtherErr else a_names s.
Lemma safe_names_plain : plain_names safe_names.
Proof.
  intros s m H. unfold safe_names in H. destruct (existsb _ s) eqn:E; [discriminate|].
  destruct (str_eqb s (lit ".")) eqn:E1; [discriminate|]. destruct (str_eqb s (lit "..")) eqn:E2; [discriminate|]. cbn [orb] in H.
  destruct (a_names_plain s) as [X|[X|[X|X]]]; [|subst; discriminate|subst; discriminate|auto].
  exfalso. rewrite <- not_true_iff_false, existsb_exists in E. apply E. exists "/"%char. auto.
Qed.
Definition safe_run (t : list tree) : fs * res unit := execute safe_names a_texts (a_ignored t) t false a_tdir a_target a_home.
Lemma a_fresh : forall p, under a_tdir p = true -> lookup a_home p = None.
Proof.
  intros p U. destruct (lookup a_home p) as [n|] eqn:L; auto. apply lookup_in in L. exfalso. revert U.
  repeat (destruct L as [L|L]; [injection L as <- <-; vm_compute; discriminate|]). destruct L.
Qed.
Example C59_nothing_lost_example :
  plain_names safe_names /\ (forall p, under a_tdir p = true -> lookup a_home p = None) /\
  under a_tdir a_target = false /\ under a_target a_tdir = false /\
  lookup (fst (safe_run a_template)) (lit "pyproject.toml" :: a_target) = Some (File "text of toml") /\
  lookup (fst (safe_run a_template)) (lit "notes" :: a_target) = Some (File "mine") /\
  snd (safe_run a_template) = Ok tt.
Proof. split; [exact safe_names_plain|]. split; [exact a_fresh|]. vm_compute. repeat split. Qed.
Example C59_refused_example :
  let t := [TFile "other" "x"; TFile "notes" "theirs"] in
  exists f2, render safe_names a_texts (a_ignored t) (write a_home a_tdir Dir) [] a_tdir t = (f2, Ok tt) /\
    lookup f2 ([lit "notes"] ++ a_tdir) = Some (File "theirs") /\ lookup a_home ([lit "notes"] ++ a_target) = Some (File "mine") /\
    lookup (fst (safe_run t)) (lit "other" :: a_target) = None.
Proof. cbv zeta. eexists. split; [vm_compute; reflexivity|]. vm_compute. repeat split. Qed.
Example C59_failure_example :
  let t := [TFile "other" "x"; TFile "a.tmpl" "bad"] in
  exists f2, render safe_names a_texts (a_ignored t) (write a_home a_tdir Dir) [] a_tdir t = (f2, Err OtherErr) /\
    lookup f2 (lit "other" :: a_tdir) = Some (File "x").
Proof. cbv zeta. eexists. split; vm_compute; reflexivity. Qed.

(** The check only looks at the places of the rendered entries and lets directories pass, but copying a file to a
    directory puts it into the directory: a file there is replaced. *)
Theorem C59_doubled_refuted : exists template,
  snd (run template false) = Ok tt /\
  lookup a_home (lit "app" :: lit "app" :: a_target) = Some (File "launcher") /\
  lookup (fst (run template false)) (lit "app" :: lit "app" :: a_target) = Some (File "script").
Proof. exists [TFile "{{name}}" "script"]. vm_compute. repeat split. Qed.
(** The rendered names are joined to the temporary directory: a name with ".." or an absolute one leaves it, and
    files of the target, or of anything else, are replaced without a check. *)
Theorem C59_escape_refuted : exists names template,
  let out := execute names a_texts (a_ignored template) template false a_tdir a_target a_home in
  snd out = Ok tt /\ lookup a_home (lit "notes" :: a_target) = Some (File "mine") /\
  lookup (fst out) (lit "notes" :: a_target) = Some (File "theirs").
Proof.
  exists (fun s => if str_eqb s (lit "{{where}}") then Ok (lit "/home/app/notes") else Ok s), [TFile "{{where}}" "theirs"].
  vm_compute. repeat split.
Qed.

(** ** C74 *)
(** When no directory of the template is preserved and the files and directories it stands for ([output], which does
    not mention the functions of the code) are different and find room in the target, executing the template
    succeeds and the target has exactly these in addition; everything else is as before. *)
Theorem C74_exact_partial : forall names texts ignored template tdir target f l,
  outputs names texts ignored [] [] template l -> NoDup (map fst l) ->
  (forall p, under tdir p = true -> lookup f p = None) -> under tdir target = false -> under target tdir = false ->
  lookup f target = Some Dir ->
  (forall r n, lookup l r = Some n -> lookup f (r ++ target) = None \/ n = Dir /\ lookup f (r ++ target) = Some Dir) ->
  exists f', execute names texts ignored template false tdir target f = (f', Ok tt) /\
    (forall r, lookup f' (r ++ target) = match lookup l r with Some n => Some n | None => lookup f (r ++ target) end) /\
    (forall p, under target p = false -> lookup f' p = lookup f p).
Proof. exact execute_outputs. Qed.
(** The same with the overwrite flag, when nothing is in the way: the template is rendered in place. *)
Theorem C74_in_place_partial : forall names texts ignored template tdir target f l,
  outputs names texts ignored [] target template l -> NoDup (map fst l) -> lookup f target = Some Dir ->
  (forall p, In p (map fst l) -> lookup f p = None) ->
  exists f', execute names texts ignored template true tdir target f = (f', Ok tt) /\
    forall p, lookup f' p = match lookup l p with Some n => Some n | None => lookup f p end.
Proof.
  intros names texts ignored template tdir target f l O N T R.
  destruct (render_outputs _ _ _ _ _ _ _ O f T N R) as (f' & E & A & _). exists f'. split; [exact E | exact A].
Qed.
Definition a_outputs : fs :=
  [([lit "pyproject.toml"], File "text of toml"); ([lit "app"], Dir); ([lit "__init__.py"; lit "app"], File "init");
   ([lit "README"; lit "app"], File "text of readme")].
Lemma plain_check : forall n, (negb (existsb (Ascii.eqb "/"%char) n) && negb (str_eqb n []) && negb (str_eqb n (lit ".")) && negb (str_eqb n (lit ".."))) = true -> plain_name n.
Proof.
  intros n H. apply andb_true_iff in H. destruct H as [H H4]. apply andb_true_iff in H. destruct H as [H H3]. apply andb_true_iff in H. destruct H as [H1 H2].
  apply negb_true_iff in H1, H2, H3, H4. split; [apply str_eqb_neq, H2|]. split; [|split; apply str_eqb_neq; assumption].
  intro X. rewrite <- not_true_iff_false, existsb_exists in H1. apply H1. exists "/"%char. auto.
Qed.
Lemma no_tmpl : forall m, tmpl_stem [m] = None -> forall stem, stem <> [] -> m <> stem ++ lit ".tmpl".
Proof. intros m H stem N ->. rewrite tmpl_stem_yes in H by exact N. discriminate. Qed.
Lemma a_template_outputs : forall b, outputs a_names a_texts (a_ignored a_template) [] b a_template (moved b a_outputs).
Proof.
  intro b. change b with ([] ++ b) at 1. apply outputs_moved. clear b. unfold a_outputs, a_template.
  change [([lit "pyproject.toml"], File "text of toml"); ([lit "app"], Dir); ([lit "__init__.py"; lit "app"], File "init");
          ([lit "README"; lit "app"], File "text of readme")]
    with ([] ++ ([([lit "pyproject.toml"], File "text of toml")] ++
          ((([lit "app"], Dir) :: ([([lit "__init__.py"; lit "app"], File "init")] ++ ([([lit "README"; lit "app"], File "text of readme")] ++ []))) ++ []))).
  apply outs_cons; [apply out_ignored; vm_compute; reflexivity|].
  apply outs_cons; [apply (out_template _ _ _ [] [] (lit "pyproject.toml.tmpl") (lit "toml") (lit "pyproject.toml") (lit "text of toml")); try (vm_compute; reflexivity); apply plain_check; vm_compute; reflexivity|].
  apply outs_cons; [|apply outs_nil].
  apply (out_dir _ _ _ [] [] (lit "{{name}}") _ (lit "app")); try (vm_compute; reflexivity); [apply plain_check; vm_compute; reflexivity | intros [X|[X|[]]]; discriminate X |].
  apply outs_cons; [apply out_copy; try (vm_compute; reflexivity); [apply plain_check; vm_compute; reflexivity | apply no_tmpl; vm_compute; reflexivity]|].
  apply outs_cons; [|apply outs_nil].
  apply (out_template _ _ _ _ _ (lit "README.tmpl") (lit "readme") (lit "README") (lit "text of readme")); try (vm_compute; reflexivity). apply plain_check. vm_compute. reflexivity.
Qed.
Lemma a_outputs_nodup : NoDup (map fst a_outputs).
Proof. repeat (constructor; [intro X; repeat (destruct X as [X|X]; [discriminate X|]); destruct X|]). constructor. Qed.
Example C74_exact_example :
  outputs a_names a_texts (a_ignored a_template) [] [] a_template a_outputs /\ NoDup (map fst a_outputs) /\
  (forall p, under a_tdir p = true -> lookup a_home p = None) /\ under a_tdir a_target = false /\ under a_target a_tdir = false /\
  lookup a_home a_target = Some Dir /\
  (forall r n, lookup a_outputs r = Some n -> lookup a_home (r ++ a_target) = None \/ n = Dir /\ lookup a_home (r ++ a_target) = Some Dir).
Proof.
  split; [|split; [exact a_outputs_nodup|split; [exact a_fresh|split; [reflexivity|split; [reflexivity|split; [reflexivity|]]]]]].
  - pose proof (a_template_outputs []) as H. replace (moved [] a_outputs) with a_outputs in H by reflexivity. exact H.
  - intros r n L. apply lookup_in in L.
    repeat (destruct L as [L|L]; [injection L as <- <-; vm_compute; auto|]). destruct L.
Qed.
Example C74_in_place_example :
  let target := [lit "new"; lit "home"] in let f := write a_home target Dir in
  outputs a_names a_texts (a_ignored a_template) [] target a_template (moved target a_outputs) /\ NoDup (map fst (moved target a_outputs)) /\
  lookup f target = Some Dir /\ (forall p, In p (map fst (moved target a_outputs)) -> lookup f p = None).
Proof.
  cbv zeta. split; [apply a_template_outputs|]. split; [apply moved_nodup, a_outputs_nodup|]. split; [reflexivity|].
  intros p I. cbn in I. repeat (destruct I as [<-|I]; [reflexivity|]). destruct I.
Qed.
(** After a directory with .templatepreserve the function returns: the entries that come later are not rendered,
    and the execution succeeds. *)
Theorem C74_preserved_refuted : exists template,
  snd (run template false) = Ok tt /\ In (TFile "setup.cfg" "cfg") template /\
  lookup (fst (run template false)) (lit "setup.cfg" :: a_target) = None /\
  lookup (fst (run (rev template) false)) (lit "setup.cfg" :: a_target) = Some (File "cfg").
Proof.
  exists [TDir "assets" [TFile ".templatepreserve" []; TFile "a.tmpl" "x"]; TFile "setup.cfg" "cfg"].
  split; [vm_compute; reflexivity|]. split; [right; left; reflexivity|]. split; vm_compute; reflexivity.
Qed.
(** A .templateignore replaces the built-in list: the code of the template and the ignore file itself are put in the
    target unless its lines name them. *)
Theorem C74_control_files_refuted : exists lines glob template,
  let ignored p := path_mem p (load_ignored (Some lines) glob template) in
  let out := execute a_names a_texts ignored template false a_tdir a_target a_home in
  snd out = Ok tt /\ lookup (fst out) (lit "drafts" :: a_target) = None /\
  lookup (fst out) (lit "render.py" :: a_target) = Some (File "code") /\
  lookup (fst out) (lit ".templateignore" :: a_target) = Some (File "drafts").
Proof.
  exists [lit "drafts"], (fun root line => [line :: root]), [TFile "render.py" "code"; TFile ".templateignore" "drafts"; TFile "drafts" "x"].
  vm_compute. repeat split.
Qed.
