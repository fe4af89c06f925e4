(** Properties C35, C36, C37: package names, choice of artifacts, verification of wheels. *)
From Coq Require Import String Ascii List Bool NArith Arith Lia.
From Verif Require Import Base BaseFacts NamesModel NamesProofs ArtifactModel ArtifactProofs.
Import ListNotations.
Open Scope string_scope.
Open Scope nat_scope.
Open Scope list_scope.
Open Scope bool_scope.

(** *** C35: package names *)
Theorem C35_normalize_idempotent : forall s n, normalize_name s = Ok n -> normalize_name n = Ok n.
Proof. exact normalize_idem. Qed.
Theorem C35_key_idempotent : forall s k, package_name_key s = Ok k -> package_name_key k = Ok k.
Proof. exact key_idem. Qed.
(** two names with the same key are the same name for PyPI *)
Theorem C35_same_key_same_package : forall a b k, valid_name a -> valid_name b ->
  package_name_key a = Ok k -> package_name_key b = Ok k -> pep503 a = pep503 b.
Proof. exact key_sound. Qed.
(** the other direction holds when neither name has two separators in a row *)
Theorem C35_same_package_same_key_partial : forall a b, valid_name a -> valid_name b -> single_seps a = true -> single_seps b = true ->
  pep503 a = pep503 b -> package_name_key a = package_name_key b.
Proof. exact key_complete. Qed.
(** runs of '_' and '.' are not collapsed *)
Theorem C35_runs_refuted : exists a b, valid_name a /\ valid_name b /\ pep503 a = pep503 b /\ package_name_key a <> package_name_key b.
Proof.
  exists (lit "zope.__interface"), (lit "zope-interface").
  assert (V : forall s c r d t, s = c :: r -> s = t ++ [d] -> is_alnum c = true -> is_alnum d = true -> forallb (fun c => is_alnum c || is_sep c) s = true -> valid_name s).
  { intros s c r d t E1 E2 A1 A2 F. constructor; [exact F|exists c, r; auto|exists d, t; auto]. }
  split; [apply (V _ "z"%char (lit "ope.__interface") "e"%char (lit "zope.__interfac")); reflexivity|].
  split; [apply (V _ "z"%char (lit "ope-interface") "e"%char (lit "zope-interfac")); reflexivity|]. split; [reflexivity|]. vm_compute. discriminate.
Qed.
Example C35_witness : package_name_key "Zope.Interface" = Ok (lit "zope_interface") /\ package_name_key "zope-interface" = Ok (lit "zope_interface") /\
  pep503 "Zope.Interface" = lit "zope-interface" /\ single_seps "Zope.Interface" = true /\ package_name_key "--" = Err ValueError.
Proof. repeat split; reflexivity. Qed.

(** *** C36: the best artifact *)
(** the chosen wheel is usable and no usable wheel scores higher *)
Theorem C36_best_wheel : forall score artifacts a, best_artifact_for score artifacts = Some a -> is_binary a = true ->
  In a artifacts /\ exists s, wheel_score score a = Some s /\ forall b t, In b artifacts -> wheel_score score b = Some t -> (t <= s)%N.
Proof.
  intros score l a H HB. pose proof (cinv_final score l) as [B NB SR NS]. unfold best_artifact_for in H. destruct (c_binary _) as [[b s]|] eqn:E.
  - injection H as ->. destruct (B a s eq_refl) as (I & W & M). split; [exact I|]. exists s. auto.
  - destruct (SR a H) as [_ U]. unfold usable_source in U. rewrite HB, andb_false_r in U. discriminate.
Qed.
(** a source artifact is chosen only when no wheel is usable *)
Theorem C36_source_last : forall score artifacts a, best_artifact_for score artifacts = Some a -> is_binary a = false ->
  In a artifacts /\ allowed a = true /\ forall b, In b artifacts -> wheel_score score b = None.
Proof.
  intros score l a H HB. pose proof (cinv_final score l) as [B NB SR NS]. unfold best_artifact_for in H. destruct (c_binary _) as [[b s]|] eqn:E.
  - injection H as ->. destruct (B a s eq_refl) as (_ & W & _). unfold wheel_score in W. rewrite HB, andb_false_r in W. discriminate.
  - destruct (SR a H) as [I U]. split; [exact I|]. split; [unfold usable_source in U; apply andb_true_iff in U; apply U|]. exact (NB eq_refl).
Qed.
(** nothing is chosen only when nothing is usable *)
Theorem C36_nothing_usable : forall score artifacts, best_artifact_for score artifacts = None ->
  forall b, In b artifacts -> wheel_score score b = None /\ usable_source b = false.
Proof.
  intros score l H b I. pose proof (cinv_final score l) as [B NB SR NS]. unfold best_artifact_for in H. destruct (c_binary _) as [[c s]|] eqn:E; [discriminate|].
  split; [exact (NB eq_refl b I)|exact (NS H b I)].
Qed.
Example C36_witness :
  let score := fun t => if str_eqb t "cp310-cp310-linux" then Some 7%N else if str_eqb t "py3-none-any" then Some 2%N else None in
  best_artifact_for score [Art "p-1.tar.gz" NoReq; Art "p-1-py3-none-any.whl" Allows; Art "p-1-cp310-cp310-linux.whl" Allows; Art "p-1-cp310-cp310-win.whl" NoReq]
    = Some (Art "p-1-cp310-cp310-linux.whl" Allows) /\
  best_artifact_for score [Art "p-1.tar.gz" NoReq; Art "p-1-cp310-cp310-linux.whl" Forbids] = Some (Art "p-1.tar.gz" NoReq).
Proof. split; reflexivity. Qed.

(** *** C37: records of wheels *)
(** a wheel with a file outside of dist-info directories whose recorded hash is wrong is rejected *)
Theorem C37_tampered_rejected_partial : forall h w rs extra old f s, w_records w = Some rs -> In f (w_files w) ->
  dict_get (fst f) (dict_of rs) = Some (Some s) -> in_dist_info (fst f) = false -> validate_against h s (snd f) <> Ok true ->
  exists e, install_wheel h w extra old = Err e.
Proof.
  intros h w rs extra old f s HR I HG HD HV. unfold install_wheel. destruct (verify_records h w) as [[]|e] eqn:EV; [|exists e; reflexivity]. exfalso.
  unfold verify_records in EV. rewrite HR in EV. pose proof (verify_files_ok _ _ _ _ EV f I) as VF. unfold verify_file in VF. rewrite HG, HD in VF.
  destruct (validate_against h s (snd f)) as [[|]|e] eqn:EA; try discriminate. apply HV. reflexivity.
Qed.
(** so is a wheel with a file that is not in the record, or a wheel without a record *)
Theorem C37_unrecorded_rejected : forall h w extra old,
  (w_records w = None \/ exists rs f, w_records w = Some rs /\ In f (w_files w) /\ fst f <> record_path w /\ ~ In (fst f) (map fst rs)) ->
  exists e, install_wheel h w extra old = Err e.
Proof.
  intros h w extra old H. unfold install_wheel. destruct (verify_records h w) as [[]|e] eqn:EV; [|exists e; reflexivity]. exfalso. unfold verify_records in EV.
  destruct H as [H|(rs & f & H & I & NR & NI)]; rewrite H in EV; [discriminate|]. pose proof (verify_files_ok _ _ _ _ EV f I) as VF. unfold verify_file in VF.
  assert (E : dict_get (fst f) (dict_of rs) = None).
  { unfold dict_of. rewrite dict_of_last. destruct (find _ (rev rs)) as [e|] eqn:EF; [|reflexivity]. exfalso. apply NI. apply find_some in EF. destruct EF as [IE EE]. apply str_eqb_eq in EE. rewrite EE. apply in_map. apply in_rev. exact IE. }
  rewrite E in VF. apply str_eqb_neq in NR. rewrite NR in VF. discriminate.
Qed.
(** the new record has an entry with the right hash for every file of the wheel, provided that the files inside the
    dist-info directory have the recorded hashes *)
Theorem C37_installed_record_partial : forall h w extra old st, install_wheel h w extra old = Ok st ->
  (forall f s, In f (w_files w) -> in_dist_info (fst f) = true -> dict_get (fst f) (dict_of (opt_or (w_records w) [])) = Some (Some s) -> validate_against h s (snd f) = Ok true) ->
  forall f, In f (w_files w) -> fst f <> record_path w -> exists s, In (fst f, Some s) (st_record st) /\ validate_against h s (snd f) = Ok true.
Proof. exact installed_entries. Qed.
(** a changed METADATA file is installed, and the new record keeps the hash that does not match it *)
Theorem C37_metadata_tampered_refuted : exists h w extra old st s, install_wheel h w extra old = Ok st /\
  In (lit "p.dist-info/METADATA", lit "evil") (st_files st) /\ In (lit "p.dist-info/METADATA", Some s) (st_record st) /\ validate_against h s "evil" = Ok false.
Proof.
  exists (fun t => if str_eqb t "sha256" then Some (fun x => x) else None),
         (Wheel [(lit "p.dist-info/METADATA", lit "evil"); (lit "p.dist-info/RECORD", lit "")] (lit "p.dist-info") (Some [(lit "p.dist-info/METADATA", Some (Sig (lit "sha256") (lit "good"))); (lit "p.dist-info/RECORD", None)])),
         [], (Site [] []).
  eexists. exists (Sig (lit "sha256") (lit "good")). split; [vm_compute; reflexivity|]. split; [left; reflexivity|]. split; [left; reflexivity|]. reflexivity.
Qed.
(** a recorded file that is missing from the wheel goes unnoticed *)
Theorem C37_missing_file_refuted : exists h w rs extra old st, w_records w = Some rs /\ install_wheel h w extra old = Ok st /\
  In (lit "p.py") (map fst rs) /\ ~ In (lit "p.py") (map fst (st_files st)).
Proof.
  exists (fun _ => None), (Wheel [(lit "p.dist-info/RECORD", lit "")] (lit "p.dist-info") (Some [(lit "p.py", Some (Sig (lit "sha256") (lit "x"))); (lit "p.dist-info/RECORD", None)])),
         [(lit "p.py", Some (Sig (lit "sha256") (lit "x"))); (lit "p.dist-info/RECORD", None)], [], (Site [] []).
  eexists. split; [reflexivity|]. split; [vm_compute; reflexivity|]. split; [left; reflexivity|]. intros [].
Qed.
(** files like INSTALLER are installed but not recorded *)
Theorem C37_unlisted_file_refuted : exists h w extra old st f, install_wheel h w extra old = Ok st /\ In f (st_files st) /\ ~ In (fst f) (map fst (st_record st)) /\ fst f <> record_path w.
Proof.
  exists (fun _ => None), (Wheel [(lit "p.dist-info/RECORD", lit "")] (lit "p.dist-info") (Some [(lit "p.dist-info/RECORD", None)])), [(lit "p.dist-info/INSTALLER", lit "pkm")], (Site [] []).
  eexists. exists (lit "p.dist-info/INSTALLER", lit "pkm"). split; [vm_compute; reflexivity|]. split; [left; reflexivity|]. split; [intros []|]. vm_compute. discriminate.
Qed.
Example C37_witness : 
  let h := fun t => if str_eqb t "sha256" then Some (fun x => x) else None in
  let w c := Wheel [(lit "p.py", lit c); (lit "p.dist-info/RECORD", lit "")] (lit "p.dist-info") (Some [(lit "p.py", Some (Sig (lit "sha256") (lit "good"))); (lit "p.dist-info/RECORD", None)]) in
  install_wheel h (w "evil") [] (Site [] []) = Err IOErr /\
  install_wheel h (w "good") [] (Site [] []) = Ok (Site [(lit "p.py", lit "good")] [(lit "p.py", Some (Sig (lit "sha256") (lit "good")))]).
Proof. split; reflexivity. Qed.

Print Assumptions C35_normalize_idempotent.
Print Assumptions C35_key_idempotent.
Print Assumptions C35_same_key_same_package.
Print Assumptions C35_same_package_same_key_partial.
Print Assumptions C35_runs_refuted.
Print Assumptions C36_best_wheel.
Print Assumptions C36_source_last.
Print Assumptions C36_nothing_usable.
Print Assumptions C37_tampered_rejected_partial.
Print Assumptions C37_unrecorded_rejected.
Print Assumptions C37_installed_record_partial.
Print Assumptions C37_metadata_tampered_refuted.
Print Assumptions C37_missing_file_refuted.
Print Assumptions C37_unlisted_file_refuted.
