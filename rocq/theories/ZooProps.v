(** Properties of zoos (C307). *)
From Coq Require Import String Ascii List Bool NArith Arith Lia.
From Verif Require Import Base BaseFacts FsModel FsFacts TemplateModel TemplateProofs ProjectModel ZooModel.
Import ListNotations.
Open Scope string_scope. Open Scope nat_scope. Open Scope list_scope. Open Scope bool_scope.

Lemma mkdirs_made : forall p f f', mkdirs f p = Ok f' -> lookup f' p = Some Dir.
Proof.
  intros [|n p] f f' H; cbn [mkdirs] in H.
  - destruct (lookup f []) as [[c|]|] eqn:E; [discriminate H|injection H as <-; exact E|]. injection H as <-. rewrite lookup_write, path_eqb_refl. reflexivity.
  - destruct (lookup f (n :: p)) as [[c|]|] eqn:E; [discriminate H|injection H as <-; exact E|]. destruct (mkdirs f p) as [g|]; [|discriminate H]. cbn [bind] in H. injection H as <-. rewrite lookup_write, path_eqb_refl. reflexivity.
Qed.
(** what copying does *)
Lemma copied : forall f source dst f' c, copy_file f source dst = Ok f' -> lookup f source = Some (File c) -> is_dir f dst = false ->
  lookup f' dst = Some (File c) /\ forall q, q <> dst -> lookup f' q = lookup f q.
Proof.
  intros f [|n s] dst f' c H L D; [discriminate H|]. unfold copy_file in H. rewrite L in H. unfold copy_to, TemplateModel.put in H. rewrite D in H. destruct dst as [|d par]; [discriminate H|].
  destruct (is_dir f (d :: par) || negb (is_dir f par)); [discriminate H|]. injection H as <-. split; [rewrite lookup_write, path_eqb_refl; reflexivity|]. intros q N. rewrite lookup_write. apply path_eqb_neq in N. rewrite N. reflexivity.
Qed.
(** an exported script is a copy of the environment's, and nothing else is changed *)
Theorem C307_exported : forall f zoo env name f' c, export_script f zoo env name = Ok f' -> lookup f (name :: lit "bin" :: resolve zoo env) = Some (File c) ->
  lookup f (name :: lit "bin" :: lit ".zoo" :: zoo) <> Some Dir ->
  lookup f' (name :: lit "bin" :: lit ".zoo" :: zoo) = Some (File c) /\ forall q, q <> name :: lit "bin" :: lit ".zoo" :: zoo -> lookup f' q = lookup f q.
Proof.
  intros f zoo env name f' c H L N. unfold export_script, load_environment in H. destruct (negb (exists_at f (resolve zoo env))); [discriminate H|]. destruct (negb (is_venv_path f (resolve zoo env))); [discriminate H|].
  cbn [bind] in H. cbn zeta in H. assert (E : exists_at f (name :: lit "bin" :: resolve zoo env) = true) by (unfold exists_at; rewrite L; reflexivity). rewrite E in H.
  apply (copied _ _ _ _ _ H L). unfold is_dir, bin_path. destruct (lookup f (name :: lit "bin" :: lit ".zoo" :: zoo)) as [[x|]|]; [reflexivity|contradiction|reflexivity].
Qed.
Print Assumptions C307_exported.
(** a zoo that is loaded for the first time can take scripts *)
Theorem C307_loaded : forall f zoo text f', load_zoo f zoo text = Ok f' -> exists_at f (lit "env-zoo.toml" :: zoo) = false ->
  lookup f' (lit "env-zoo.toml" :: zoo) = Some (File text) /\ is_dir f' (lit "bin" :: lit ".zoo" :: zoo) = true /\ is_dir f' (lit "shared" :: lit ".zoo" :: zoo) = true.
Proof.
  intros f zoo text f' H N. unfold load_zoo in H. change (zoo_file zoo) with (lit "env-zoo.toml" :: zoo) in H. rewrite N in H. destruct (mkdirs f zoo) as [f1|] eqn:E1; [|discriminate H]. cbn [bind] in H.
  destruct (TemplateModel.put f1 (lit "env-zoo.toml" :: zoo) text) as [f2|] eqn:E2; [|discriminate H]. cbn [bind] in H. destruct (mkdirs f2 (bin_path zoo)) as [f3|] eqn:E3; [|discriminate H]. cbn [bind] in H.
  assert (A : lookup f2 (lit "env-zoo.toml" :: zoo) = Some (File text)).
  { unfold TemplateModel.put in E2. destruct (is_dir f1 (lit "env-zoo.toml" :: zoo) || negb (is_dir f1 zoo)); [discriminate E2|]. injection E2 as <-. rewrite lookup_write, path_eqb_refl. reflexivity. }
  assert (B : lookup f3 (lit "env-zoo.toml" :: zoo) = Some (File text)) by (rewrite (mkdirs_keeps _ _ _ E3) by (rewrite A; discriminate); exact A).
  pose proof (mkdirs_made _ _ _ E3) as C. split; [rewrite (mkdirs_keeps _ _ _ H) by (rewrite B; discriminate); exact B|]. split.
  - unfold is_dir. change (lit "bin" :: lit ".zoo" :: zoo) with (bin_path zoo). rewrite (mkdirs_keeps _ _ _ H) by (rewrite C; discriminate). rewrite C. reflexivity.
  - unfold is_dir. rewrite (mkdirs_made _ _ _ H). reflexivity.
Qed.
Print Assumptions C307_loaded.
(** one that is made with the template cannot: the directory for scripts is never made *)
Lemma mkdirs_beside : forall p g g', mkdirs g p = Ok g' -> forall q, under q p = false -> lookup g' q = lookup g q.
Proof.
  induction p as [|n p IH]; intros g g' M q U; cbn [mkdirs] in M.
  - destruct (lookup g []) as [[c|]|]; [discriminate M|injection M as <-; reflexivity|]. injection M as <-. rewrite lookup_write. destruct (path_eqb q []) eqn:Q; [|reflexivity]. apply path_eqb_eq in Q. subst q. rewrite under_refl in U. discriminate U.
  - destruct (lookup g (n :: p)) as [[c|]|]; [discriminate M|injection M as <-; reflexivity|]. destruct (mkdirs g p) as [h|] eqn:X; [|discriminate M]. cbn [bind] in M. injection M as <-. rewrite lookup_write. destruct (path_eqb q (n :: p)) eqn:Q.
    + apply path_eqb_eq in Q. subst q. rewrite under_refl in U. discriminate U.
    + apply (IH _ _ X). destruct (under q p) eqn:V; [|reflexivity]. rewrite (under_trans _ _ _ V (under_cons n p)) in U. discriminate U.
Qed.
Theorem C307_template_refuted : forall f zoo sharing text f1 f2 env name,
  new_zoo f zoo sharing = Ok f1 -> (forall q, under (lit "bin" :: lit ".zoo" :: zoo) q = true -> lookup f q = None) -> load_zoo f1 zoo text = Ok f2 -> exists e, export_script f2 zoo env name = Err e.
Proof.
  intros f zoo sharing text f1 f2 env name H N L. unfold new_zoo in H. destruct (mkdirs f zoo) as [f0|] eqn:E; [|discriminate H]. cbn [bind] in H. unfold TemplateModel.put, zoo_file in H.
  destruct (is_dir f0 (lit "env-zoo.toml" :: zoo) || negb (is_dir f0 zoo)) eqn:G; [discriminate H|]. apply (f_equal (fun r => match r with Ok x => x | Err _ => f1 end)) in H. cbv beta iota in H.
  assert (X : exists_at f1 (zoo_file zoo) = true) by (rewrite <- H; unfold exists_at, zoo_file; rewrite lookup_write, path_eqb_refl; reflexivity).
  assert (F : f2 = f1) by (unfold load_zoo in L; rewrite X in L; congruence). subst f2.
  assert (B : forall q, under (bin_path zoo) q = true -> lookup f1 q = None).
  { intros q U. rewrite <- H, lookup_write. pose proof (under_len _ _ U) as K. unfold bin_path in K. cbn [length] in K. destruct (path_eqb q (lit "env-zoo.toml" :: zoo)) eqn:Q; [apply path_eqb_eq in Q; subst q; cbn [length] in K; lia|]. rewrite (mkdirs_beside _ _ _ E); [exact (N q U)|].
    destruct (under q zoo) eqn:V; [|reflexivity]. apply under_len in V. lia. }
  assert (W : forall s d, exists e, copy_file f1 s (d :: bin_path zoo) = Err e).
  { intros [|n s] d; [exists IOErr; reflexivity|]. unfold copy_file. destruct (lookup f1 (n :: s)) as [[c|]|]; [|exists IOErr; reflexivity..]. unfold copy_to. exists IOErr.
    unfold is_dir at 1. rewrite (B (d :: bin_path zoo)) by apply under_cons. unfold TemplateModel.put. unfold is_dir at 2. rewrite (B (bin_path zoo)) by apply under_refl. rewrite orb_true_r. reflexivity. }
  unfold export_script. destruct (load_environment f1 zoo env) as [p|e]; [|exists e; reflexivity]. cbn [bind]. cbn zeta.
  destruct (exists_at f1 (name :: lit "bin" :: p)); [apply W|]. destruct (exists_at f1 ((name ++ lit ".exe") :: lit "bin" :: p)); [apply W|]. exists NoSuchElement. reflexivity.
Qed.
Print Assumptions C307_template_refuted.
(** a new environment is never put over something, and an environment is found under its name *)
Theorem C307_created : forall create f zoo name f', create_environment create f zoo name = Ok f' ->
  lookup f (resolve zoo name) = None /\ create f (resolve zoo name) = Ok f' /\
  (exists_at f' (resolve zoo name) = true -> is_venv_path f' (resolve zoo name) = true -> load_environment f' zoo name = Ok (resolve zoo name)).
Proof.
  intros create f zoo name f' H. unfold create_environment in H. unfold exists_at at 1 in H. destruct (lookup f (resolve zoo name)) eqn:E; cbn [is_some] in H; [discriminate H|]. split; [reflexivity|]. split; [exact H|].
  intros A B. unfold load_environment. rewrite A, B. reflexivity.
Qed.
Print Assumptions C307_created.
(** the names of environments: words, neither empty nor of points *)
Lemma resolve_word : forall zoo name, name <> [] -> ~ In "/"%char name -> name <> lit "." -> name <> lit ".." -> resolve zoo name = name :: zoo.
Proof.
  intros zoo name N S A B. unfold resolve. rewrite (split_on_single _ _ S). replace (starts_with (lit "/") name) with false.
  - cbn [fold_left]. unfold descend. destruct (str_eqb name []) eqn:E1; [apply str_eqb_eq in E1; contradiction|]. destruct (str_eqb name (lit ".")) eqn:E2; [apply str_eqb_eq in E2; contradiction|]. destruct (str_eqb name (lit "..")) eqn:E3; [apply str_eqb_eq in E3; contradiction|]. reflexivity.
  - symmetry. destruct (starts_with (lit "/") name) eqn:E; [|reflexivity]. apply starts_with_iff in E. destruct E as [r E]. exfalso. apply S. rewrite E. left. reflexivity.
Qed.
(** deleting under a word removes what is below this directory of the zoo, and nothing else *)
Theorem C307_deleted_partial : forall f zoo name f', delete_environment f zoo name = Ok f' -> name <> [] -> ~ In "/"%char name -> name <> lit "." -> name <> lit ".." ->
  forall q, lookup f' q = if under (name :: zoo) q then None else lookup f q.
Proof.
  intros f zoo name f' H N S A B q. unfold delete_environment in H. rewrite (resolve_word zoo name N S A B) in H. match type of H with (if ?b then _ else _) = _ => destruct b end; [|discriminate H]. injection H as <-. apply lookup_remove_tree.
Qed.
Print Assumptions C307_deleted_partial.
(** but no name is checked: the zoo's own data, the zoo, the directory above it and every other one are deleted like environments *)
Theorem C307_delete_refuted : forall f zoo, (is_dir f zoo = true -> exists f', delete_environment f zoo [] = Ok f' /\ forall q, under zoo q = true -> lookup f' q = None) /\
  (is_dir f (tl zoo) = true -> exists f', delete_environment f zoo (lit "..") = Ok f' /\ forall q, under (tl zoo) q = true -> lookup f' q = None) /\
  (is_dir f (lit ".zoo" :: zoo) = true -> exists f', delete_environment f zoo (lit ".zoo") = Ok f' /\ forall q, under (lit ".zoo" :: zoo) q = true -> lookup f' q = None) /\
  (is_dir f [lit "home"] = true -> exists f', delete_environment f zoo (lit "/home") = Ok f' /\ forall q, under [lit "home"] q = true -> lookup f' q = None).
Proof.
  intros f zoo. assert (G : forall name p, resolve zoo name = p -> is_dir f p = true -> exists f', delete_environment f zoo name = Ok f' /\ forall q, under p q = true -> lookup f' q = None).
  { intros name p R D. unfold delete_environment. rewrite R, D. eexists. split; [reflexivity|]. intros q U. rewrite lookup_remove_tree, U. reflexivity. }
  split; [|split; [|split]]; apply G; reflexivity.
Qed.
Print Assumptions C307_delete_refuted.
(** all scripts of a package: each file of it that is among the scripts has its copy, if no two have the same name *)
Lemma export_files_spec : forall zoo scripts files f f', export_files f zoo scripts files = Ok f' -> under scripts (bin_path zoo) = false ->
  (forall p, In p files -> under scripts p = true -> under (bin_path zoo) p = false /\ lookup f (hd [] p :: bin_path zoo) <> Some Dir) ->
  (forall q, ~ (exists p, In p files /\ under scripts p = true /\ q = hd [] p :: bin_path zoo) -> lookup f' q = lookup f q) /\
  (forall p, In p files -> under scripts p = true -> (forall p', In p' files -> under scripts p' = true -> hd [] p' = hd [] p -> p' = p) -> exists c, lookup f p = Some (File c) /\ lookup f' (hd [] p :: bin_path zoo) = Some (File c)).
Proof.
  intros zoo scripts. induction files as [|p files IH]; intros f f' H S W; cbn [export_files] in H.
  - injection H as <-. split; [reflexivity|intros p []].
  - destruct (under scripts p) eqn:U.
    + destruct (copy_file f p (hd [] p :: bin_path zoo)) as [g|] eqn:C; [|discriminate H]. cbn [bind] in H. destruct (W p (or_introl eq_refl) U) as [W1 W2].
      assert (K : exists c, lookup f p = Some (File c)).
      { unfold copy_file in C. destruct p as [|n s]; [discriminate C|]. destruct (lookup f (n :: s)) as [[c|]|]; [exists c; reflexivity|discriminate C..]. }
      destruct K as [c K]. assert (D : is_dir f (hd [] p :: bin_path zoo) = false) by (unfold is_dir; destruct (lookup f (hd [] p :: bin_path zoo)) as [[x|]|]; [reflexivity|contradiction|reflexivity]).
      destruct (copied _ _ _ _ _ C K D) as [Y1 Y2].
      destruct (IH g f' H S) as [I1 I2].
      { intros p' J U'. destruct (W p' (or_intror J) U') as [W3 W4]. split; [exact W3|]. destruct (path_eqb (hd [] p' :: bin_path zoo) (hd [] p :: bin_path zoo)) eqn:Q; [apply path_eqb_eq in Q; rewrite Q, Y1; discriminate|]. apply path_eqb_neq in Q. rewrite (Y2 _ Q). exact W4. }
      split.
      * intros q X. rewrite I1 by (intros (p' & J & U' & E); apply X; exists p'; split; [right; exact J|auto]). apply Y2. intro E. apply X. exists p. split; [left; reflexivity|auto].
      * intros p' J U' V. destruct (in_dec (list_eq_dec (list_eq_dec ascii_dec)) p' files) as [J'|J'].
        -- destruct (I2 p' J' U') as (c' & Z1 & Z2); [intros p2 Q1 Q2 Q3; apply V; [right; exact Q1|exact Q2|exact Q3]|]. exists c'. split; [|exact Z2]. rewrite <- Z1. symmetry. apply Y2. intro E. destruct (W p' (or_intror J') U') as [W3 _]. rewrite E in W3. rewrite under_cons in W3. discriminate W3.
        -- destruct J as [J|J]; [|contradiction]. subst p'. exists c. split; [exact K|]. rewrite I1; [exact Y1|]. intros (p' & J2 & U2 & E). injection E as E. assert (Q : p' = p) by (apply V; [right; exact J2|exact U2|symmetry; exact E]). subst p'. contradiction.
    + destruct (IH f f' H S) as [I1 I2]; [intros p' J U'; exact (W p' (or_intror J) U')|]. split.
      * intros q X. apply I1. intros (p' & J & U' & E). apply X. exists p'. split; [right; exact J|auto].
      * intros p' [J|J] U' V; [subst p'; congruence|]. apply I2; [exact J|exact U'|]. intros p2 Q1 Q2 Q3. apply V; [right; exact Q1|exact Q2|exact Q3].
Qed.
Theorem C307_all_exported : forall f zoo env files f', export_all_scripts f zoo env (Some files) = Ok f' -> under (lit "bin" :: resolve zoo env) (lit "bin" :: lit ".zoo" :: zoo) = false ->
  (forall p, In p files -> under (lit "bin" :: resolve zoo env) p = true -> under (lit "bin" :: lit ".zoo" :: zoo) p = false /\ lookup f (hd [] p :: lit "bin" :: lit ".zoo" :: zoo) <> Some Dir) ->
  (forall q, ~ (exists p, In p files /\ under (lit "bin" :: resolve zoo env) p = true /\ q = hd [] p :: lit "bin" :: lit ".zoo" :: zoo) -> lookup f' q = lookup f q) /\
  (forall p, In p files -> under (lit "bin" :: resolve zoo env) p = true -> (forall p', In p' files -> under (lit "bin" :: resolve zoo env) p' = true -> hd [] p' = hd [] p -> p' = p) ->
     exists c, lookup f p = Some (File c) /\ lookup f' (hd [] p :: lit "bin" :: lit ".zoo" :: zoo) = Some (File c)).
Proof.
  intros f zoo env files f' H. unfold export_all_scripts, load_environment in H. destruct (negb (exists_at f (resolve zoo env))); [discriminate H|]. destruct (negb (is_venv_path f (resolve zoo env))); [discriminate H|]. cbn [bind] in H.
  exact (export_files_spec zoo (lit "bin" :: resolve zoo env) files f f' H).
Qed.
Print Assumptions C307_all_exported.
Definition sample_zoo : fs :=
  [([], Dir); ([lit "z"], Dir); ([lit "env-zoo.toml"; lit "z"], File []); ([lit ".zoo"; lit "z"], Dir); ([lit "bin"; lit ".zoo"; lit "z"], Dir);
   ([lit "e"; lit "z"], Dir); ([lit "pyvenv.cfg"; lit "e"; lit "z"], File []); ([lit "bin"; lit "e"; lit "z"], Dir); ([lit "python"; lit "bin"; lit "e"; lit "z"], File []); ([lit "tool"; lit "bin"; lit "e"; lit "z"], File (lit "#!"))].
Example C307_example :
  (exists f', export_script sample_zoo [lit "z"] (lit "e") (lit "tool") = Ok f' /\ lookup f' [lit "tool"; lit "bin"; lit ".zoo"; lit "z"] = Some (File (lit "#!"))) /\
  (exists f', export_all_scripts sample_zoo [lit "z"] (lit "e") (Some [[lit "tool"; lit "bin"; lit "e"; lit "z"]; [lit "pyvenv.cfg"; lit "e"; lit "z"]]) = Ok f' /\ lookup f' [lit "tool"; lit "bin"; lit ".zoo"; lit "z"] = Some (File (lit "#!"))) /\
  (exists f', delete_environment sample_zoo [lit "z"] (lit "e") = Ok f' /\ lookup f' [lit "tool"; lit "bin"; lit "e"; lit "z"] = None /\ lookup f' [lit "env-zoo.toml"; lit "z"] = Some (File [])) /\
  (exists f1 f2, new_zoo [([], Dir)] [lit "z"] true = Ok f1 /\ load_zoo f1 [lit "z"] [] = Ok f2) /\ (exists f', load_zoo [([], Dir)] [lit "z"] (lit "x") = Ok f') /\
  load_environment sample_zoo [lit "z"] (lit "e") = Ok [lit "e"; lit "z"] /\ load_environment sample_zoo [lit "z"] (lit ".zoo") = Err ValueError.
Proof. repeat split; try (do 2 eexists; vm_compute; repeat split; reflexivity); try (eexists; vm_compute; repeat split; reflexivity); vm_compute; reflexivity. Qed.
