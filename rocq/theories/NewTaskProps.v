(** Properties of new tasks (C304). *)
From Coq Require Import String Ascii List Bool NArith Arith Lia.
From Verif Require Import Base BaseFacts TemplateModel TaskModel TaskProofs TaskProps NewTaskModel NewTaskProofs.
Import ListNotations.
Open Scope string_scope. Open Scope nat_scope. Open Scope list_scope. Open Scope bool_scope.

(** the file is where the name says *)
Theorem C304_made : forall name tasks tasks', new_task name tasks = Ok tasks' ->
  at_path (Folder tasks') (task_path name ++ [task_name name ++ lit ".py"]) (Script true) /\ join (lit ".") (task_path name ++ [task_name name]) = underscored name.
Proof.
  intros name tasks tasks' H. split; [exact (put_at _ _ _ _ H)|]. rewrite <- parts_split. unfold task_parts. apply join_split.
Qed.
Print Assumptions C304_made.
(** in a tidy directory in which its place is free the new task is listed and runs, under the name with which it was made and with
    underscores; and the directory stays tidy *)
Theorem C304_runs_partial : forall name tasks tasks' installed, new_task name tasks = Ok tasks' ->
  tidy (Folder tasks) -> ~ In [] (split_on "."%char (underscored name)) -> free (task_path name) (task_name name) tasks -> tidy (Folder tasks') /\
  load_task (Folder tasks') installed name = Ok (task_path name ++ [task_name name ++ lit ".py"]) /\
  load_task (Folder tasks') installed (underscored name) = Ok (task_path name ++ [task_name name ++ lit ".py"]) /\
  (forall out, find_in_directory (Folder tasks') [] = Ok out -> In (underscored name, task_path name ++ [task_name name ++ lit ".py"]) out).
Proof.
  intros name tasks tasks' installed H T0 W0 F0. destruct (parts_plain name W0) as [P1 P2]. pose proof (put_tidy _ _ _ _ P1 P2 F0 T0 H) as T. split; [exact T|]. destruct (C304_made _ _ _ H) as [A J]. destruct (finds_file _ _ _ [] T A) as (F & D & P).
  assert (L : load_task (Folder tasks') installed (underscored name) = Ok (task_path name ++ [task_name name ++ lit ".py"])).
  { unfold load_task. rewrite dash_free. change (split_on "." (underscored name)) with (task_parts name). rewrite parts_split. cbn [entries]. unfold str in *. rewrite F. cbn [as_task app].
    replace (starts_with (lit ".") (underscored name)) with false; [reflexivity|]. symmetry. destruct (starts_with (lit ".") (underscored name)) eqn:E; [|reflexivity]. exfalso.
    apply starts_with_iff in E. destruct E as [r E]. pose proof (parts_split name) as Q. unfold task_parts in Q. rewrite E in Q. cbn [split_on app lit list_ascii_of_string] in Q. change (Ascii.eqb "." ".") with true in Q. cbn iota in Q.
    assert (X : In [] (task_path name ++ [task_name name])) by (rewrite <- Q; left; reflexivity). apply in_app_or in X. destruct X as [X|[X|[]]].
    - rewrite Forall_forall in D. exact (proj1 (D _ X) eq_refl).
    - exact (proj1 P X). }
  split; [|split].
  - rewrite <- L. unfold load_task. rewrite dash_free. reflexivity.
  - exact L.
  - intros out O. apply (C292_listed _ _ O). exists (task_path name), (task_name name). split; [symmetry; exact J|]. split; [reflexivity|]. split; [apply P|]. split; [|exact A].
    rewrite Forall_forall in *. intros d I. destruct (D d I) as (_ & N & _). destruct (py_stem d) as [s|] eqn:E; [|reflexivity]. exfalso. apply N. apply py_stem_spec in E. destruct E as [E _]. rewrite E. apply in_or_app. right. left. reflexivity.
Qed.
Print Assumptions C304_runs_partial.
(** nothing that was there is changed *)
(** what is at a path *)
Fixpoint look (l : list (str * node)) (p : list str) : option node :=
  match p with
  | [] => Some (Folder l)
  | c :: r => match dict_get c l with Some (Folder k) => look k r | Some n => match r with [] => Some n | _ => None end | None => None end
  end.
Theorem C304_others : forall name tasks tasks' p b, new_task name tasks = Ok tasks' -> look tasks p = Some (Script b) -> look tasks' p = Some (Script b).
Proof.
  intros name tasks tasks' p b H. unfold new_task in H. revert tasks tasks' p H. generalize (task_name name ++ dot_py). intros file. generalize (task_path name). intro dirs.
  induction dirs as [|d dirs IH]; intros l l' p H L; cbn [put] in H.
  - destruct (dict_get file l) eqn:E; [discriminate H|]. apply Ok_inj in H. subst l'. destruct p as [|c r]; [discriminate L|]. cbn [look] in *.
    rewrite dict_get_set_other; [exact L|]. intro X. subst c. rewrite E in L. discriminate L.
  - destruct p as [|c r]; [discriminate L|]. destruct (str_eqb c d) eqn:C.
    + apply str_eqb_eq in C. subst c. cbn [look] in L. destruct (dict_get d l) as [[x|k]|] eqn:E; try discriminate.
      destruct (put dirs file k) as [k'|] eqn:P; [|discriminate H]. cbn [bind] in H. apply Ok_inj in H. subst l'. cbn [look]. rewrite dict_get_set_same. exact (IH _ _ _ P L).
    + assert (N : c <> d) by (intro X; subst c; rewrite str_eqb_refl in C; discriminate C).
      destruct (dict_get d l) as [[x|k]|] eqn:E; try discriminate H.
      * destruct (put dirs file k) as [k'|] eqn:P; [|discriminate H]. cbn [bind] in H. apply Ok_inj in H. subst l'. cbn [look] in *. rewrite dict_get_set_other by exact N. exact L.
      * destruct (put dirs file []) as [k'|] eqn:P; [|discriminate H]. cbn [bind] in H. apply Ok_inj in H. subst l'. cbn [look] in *. rewrite dict_get_set_other by exact N. exact L.
Qed.
Print Assumptions C304_others.
(** a task that is there already is not made again *)
Theorem C304_again : forall name tasks tasks', new_task name tasks = Ok tasks' -> new_task name tasks' = Err IOErr.
Proof.
  intros name tasks tasks' H. unfold new_task in *. revert tasks tasks' H. generalize (task_name name ++ dot_py). intros file. generalize (task_path name). intro dirs.
  induction dirs as [|d dirs IH]; intros l l' H; cbn [put] in *.
  - destruct (dict_get file l); [discriminate H|]. apply Ok_inj in H. subst l'. rewrite dict_get_set_same. reflexivity.
  - destruct (dict_get d l) as [[x|k]|]; try discriminate H.
    + destruct (put dirs file k) as [k'|] eqn:P; [|discriminate H]. cbn [bind] in H. apply Ok_inj in H. subst l'. rewrite dict_get_set_same. rewrite (IH _ _ P). reflexivity.
    + destruct (put dirs file []) as [k'|] eqn:P; [|discriminate H]. cbn [bind] in H. apply Ok_inj in H. subst l'. rewrite dict_get_set_same. rewrite (IH _ _ P). reflexivity.
Qed.
Print Assumptions C304_again.
(** a task that has the name of a module that is already imported is made but never runs *)
Theorem C304_imported_refuted : exists imported tasks', new_task (lit "json") [] = Ok tasks' /\ load_task (Folder tasks') None (lit "json") = Ok [lit "json.py"] /\
  In (lit "json") imported /\ forall installed, load_among imported (Folder tasks') installed (lit "json") = Err ValueError.
Proof. exists [lit "json"]. eexists. split; [reflexivity|]. split; [vm_compute; reflexivity|]. split; [left; reflexivity|]. intro i. reflexivity. Qed.
Print Assumptions C304_imported_refuted.
(** nor one that has the name of a package of tasks, nor one below a task *)
Theorem C304_beside_refuted : exists tasks a b, new_task (lit "docs") tasks = Ok a /\ load_task (Folder a) None (lit "docs") = Ok [lit "docs"; lit "__init__.py"] /\
  new_task (lit "clean.all") tasks = Ok b /\ load_task (Folder b) None (lit "clean.all") = Err IOErr.
Proof.
  exists [(lit "docs", Folder [(lit "__init__.py", Script true)]); (lit "clean.py", Script true)]. do 2 eexists. split; [reflexivity|]. split; [vm_compute; reflexivity|]. split; [reflexivity|]. vm_compute. reflexivity.
Qed.
Print Assumptions C304_beside_refuted.
(** outside of a project the variables are undefined and their names empty: nothing is made, and nothing fails *)
Theorem C304_outside : forall names texts ignored f target script,
  names (lit "{{task_path}}") = Ok [] -> ignored [lit "render.py"] = true ->
  render names texts ignored f [] target [TFile (lit "render.py") []; TDir (lit "{{task_path}}") [TFile (lit "{{task_name}}.py") script]] = (f, Ok tt).
Proof.
  intros names texts ignored f target script N I. unfold render. cbn [loop render_entry tname]. rewrite I. cbn iota. destruct (ignored [lit "{{task_path}}"]); [reflexivity|]. rewrite N. reflexivity.
Qed.
Print Assumptions C304_outside.
Example C304_example : exists t, new_task (lit "docs.make-html") [(lit "docs", Folder [(lit "pdf.py", Script true)]); (lit "clean.py", Script true)] = Ok t /\
  t = [(lit "docs", Folder [(lit "pdf.py", Script true); (lit "make_html.py", Script true)]); (lit "clean.py", Script true)] /\
  load_task (Folder t) None (lit "docs.make-html") = Ok [lit "docs"; lit "make_html.py"] /\
  tidy (Folder [(lit "docs", Folder []); (lit "clean.py", Script true)]) /\ free (task_path (lit "docs.make-html")) (task_name (lit "docs.make-html")) [(lit "docs", Folder []); (lit "clean.py", Script true)] /\
  load_among [lit "json"; lit "typing"] (Folder [(lit "json.py", Script true)]) None (lit "json") = Err ValueError /\ load_task (Folder [(lit "json.py", Script true)]) None (lit "json") = Ok [lit "json.py"].
Proof.
  eexists. split; [vm_compute; reflexivity|]. split; [reflexivity|]. split; [vm_compute; reflexivity|]. split; [|split; [|vm_compute; repeat split]].
  - assert (P : forall s, s <> [] -> forallb (fun c => negb (Ascii.eqb c "." || Ascii.eqb c "-")) s = true -> plain_name s).
    { intros s N A. rewrite forallb_forall in A. split; [exact N|]. split; intro X; apply A in X; discriminate X. }
    assert (F : free [] (lit "clean") [(lit "docs", Folder [])]) by (intros k [X|[]]; discriminate X).
    refine (put_tidy [] (lit "clean") [(lit "docs", Folder [])] _ (Forall_nil _) _ F _ eq_refl); [apply P; [discriminate|reflexivity]|].
    apply (folder_tidy [] (lit "docs") []); [exact tidy_none|apply P; [discriminate|reflexivity]|intros b []|exact tidy_none].
  - change (task_path (lit "docs.make-html")) with [lit "docs"]. cbn [free]. split.
    + intros b [X|[X|[]]]; discriminate X.
    + intros k [X|[X|[]]]; [|discriminate X]. assert (E : k = []) by congruence. subst k. intros k [].
Qed.
