(** Properties of the modes of installation. *)
From Coq Require Import String Ascii List Bool NArith Arith Lia.
From Verif Require Import Base BaseFacts NamesModel VersionModel SpecifierModel DependencyModel ResolveModel PlanModel InstallModel StoreModel StoreProofs.
Import ListNotations.
Open Scope string_scope.
Open Scope nat_scope.
Open Scope list_scope.
Open Scope bool_scope.

(** ** C282: the mode that is given decides how a package is stored *)
(** packages with a dash in their names are stored as if no mode had been given *)
Theorem C282_dash_refuted : forall deps m requests pre k r, (forall d, In d deps -> In "-"%char (d_name d)) -> (exists d, In d deps /\ r_key r = key (d_name d)) ->
  store_one requests (modes_of deps m) pre k r = store_one requests [] pre k r.
Proof. intros deps m requests pre k r H (d & _ & Ed). apply absent. intros e Ie Ee. apply (key_no_dash (d_name d)). rewrite <- Ed, <- Ee. apply H, Ie. Qed.
Definition any (n : string) : dep := Dep (lit n) AllowAll None None.
(** a project that is to be copied is linked, one with a capital as well *)
Theorem C282_linked_refuted : exists d1 d2 r1 r2, r_key r1 = key (d_name d1) /\ r_key r2 = key (d_name d2) /\
  (exists t, store_one [] (modes_of [d1] Copy) None KProject r1 = Some t /\ t_files t = Editable) /\ (exists t, store_one [] (modes_of [d2] Copy) None KProject r2 = Some t /\ t_files t = Editable).
Proof. exists (any "my-lib"), (any "Lib"), (RP "my_lib" 1 false false), (RP "lib" 1 false false). repeat split; eexists; split; vm_compute; reflexivity. Qed.
(** with a name that is its own key, a project that is not yet installed or of another version is stored as told, and so it is recorded; without a mode it is linked *)
Theorem C282_project_partial : forall deps m requests pre r d, In d deps -> d_name d = key (d_name d) -> r_key r = key (d_name d) -> r_installed r = false -> (pre = None \/ exists t, pre = Some t /\ i_version (t_info t) <> r_version r) ->
  exists t, store_one requests (modes_of deps m) pre KProject r = Some t /\ i_version (t_info t) = r_version r /\ i_mode (t_info t) = t_files t /\
  (m <> Auto -> t_files t = m) /\ (m = Auto -> t_files t = Editable).
Proof.
  intros deps m requests pre r d Id Kd Kr Ri P.
  assert (G : dict_get (r_key r) (modes_of deps m) = Some m).
  { rewrite modes_get. assert (X : existsb (fun e => str_eqb (d_name e) (r_key r)) deps = true) by (apply existsb_exists; exists d; split; [exact Id|]; rewrite Kr, <- Kd; apply str_eqb_refl). rewrite X. reflexivity. }
  unfold store_one, plan_one. rewrite G, Ri. cbn [opt_or]. destruct P as [->|(t & -> & V)]; cbn [option_map].
  - eexists. split; [reflexivity|]. cbn [t_info i_version i_mode t_files recorded files]. destruct m; repeat split; congruence.
  - apply N.eqb_neq in V. rewrite V. eexists. split; [reflexivity|]. cbn [t_info i_version i_mode t_files recorded files]. destruct m; repeat split; congruence.
Qed.
(** one of the same version is stored anew exactly if it is recorded with another mode *)
Theorem C282_again_partial : forall deps m requests t r d, In d deps -> d_name d = key (d_name d) -> r_key r = key (d_name d) -> i_key (t_info t) = r_key r -> r_installed r = false -> i_version (t_info t) = r_version r -> m <> Auto -> t_files t = i_mode (t_info t) -> i_mode (t_info t) <> Auto ->
  exists t', store_one requests (modes_of deps m) (Some t) KProject r = Some t' /\ t_files t' = m /\ i_mode (t_info t') = m /\ (i_mode (t_info t) = m -> dict_get (r_key r) requests = None -> t' = t).
Proof.
  intros deps m requests t r d Id Kd Kr Kt Ri V M F A.
  assert (G : dict_get (r_key r) (modes_of deps m) = Some m).
  { rewrite modes_get. assert (X : existsb (fun e => str_eqb (d_name e) (r_key r)) deps = true) by (apply existsb_exists; exists d; split; [exact Id|]; rewrite Kr, <- Kd; apply str_eqb_refl). rewrite X. reflexivity. }
  unfold store_one, plan_one. rewrite G, Ri. cbn [opt_or option_map]. rewrite V, N.eqb_refl, Kt. assert (E0 : mode_eqb m Auto = false) by (destruct m; try reflexivity; contradiction). rewrite E0. cbn [orb].
  destruct (mode_eqb m (i_mode (t_info t))) eqn:E.
  - assert (X : i_mode (t_info t) = m) by (destruct m, (i_mode (t_info t)); try discriminate; reflexivity). destruct (is_none _ || _) eqn:Q; cbn [andb].
    + exists t. repeat split; congruence.
    + eexists. split; [reflexivity|]. cbn [t_files t_info i_mode]. split; [congruence|]. split; [exact X|]. intros _ N. rewrite N in Q. discriminate.
  - cbn [andb]. eexists. split; [reflexivity|]. cbn [t_files t_info i_mode recorded files]. destruct m; try contradiction; repeat split; intros X; exfalso; rewrite X in E; discriminate.
Qed.
(** a published package is always copied; if it is to be linked, it is recorded as linked though it is not *)
Theorem C282_published_refuted : forall requests r, exists t, store_one requests [(r_key r, Editable)] None KPublished r = Some t /\ t_files t = Copy /\ i_mode (t_info t) = Editable.
Proof. intros requests r. unfold store_one, plan_one. cbn [option_map dict_get]. rewrite str_eqb_refl. eexists. split; [reflexivity|]. split; reflexivity. Qed.
(** this is the only way in which what is recorded is not what was done *)
Theorem C282_recorded : forall k m, recorded k m <> files k m <-> k = KPublished /\ m = Editable.
Proof. intros k m. destruct k, m; cbn; split; intro H; first [split; reflexivity|exfalso; apply H; reflexivity|discriminate|destruct H; discriminate]. Qed.
Theorem C282_choices : forall s m, read_mode s = Ok m <-> (s = Some (lit "editable") /\ m = Editable) \/ (s = Some (lit "copy") /\ m = Copy) \/ ((s = Some (lit "auto") \/ s = None) /\ m = Auto).
Proof.
  intros s m. split.
  - intro H. unfold read_mode in H. destruct s as [s|]; cbn [opt_or] in H; [|right; right; split; [right; reflexivity|vm_compute in H; congruence]].
    destruct (str_mem s mode_choices) eqn:E; [|discriminate]. apply existsb_exists in E. destruct E as (c & I & X). apply str_eqb_eq in X. subst c. destruct I as [<-|[<-|[<-|[]]]]; vm_compute in H; injection H as <-; tauto.
  - intros [[-> ->]|[[-> ->]|[[->| ->] ->]]]; vm_compute; reflexivity.
Qed.
Example C282_example : exists d, In d [any "lib"] /\ d_name d = key (d_name d) /\ (exists t, store_one [] (modes_of [any "lib"] Copy) None KProject (RP "lib" 1 false false) = Some t /\ t_files t = Copy) /\
  (exists t, store_one [] (modes_of [any "lib"] Copy) (Some (Stored (IP "lib" 1 Editable None) Editable)) KProject (RP "lib" 1 false false) = Some t /\ t_files t = Copy).
Proof. exists (any "lib"). split; [left; reflexivity|]. split; [vm_compute; reflexivity|]. split; eexists; split; vm_compute; reflexivity. Qed.
Example C282_dash_example : In "-"%char (d_name (any "my-lib")) /\ r_key (RP "my_lib" 1 false false) = key (d_name (any "my-lib")).
Proof. split; [right; right; left; reflexivity|vm_compute; reflexivity]. Qed.
