(** Properties of the extraction of archives (pkm/src/pkm/utils/archives.py) *)
From Coq Require Import String Ascii List Bool NArith Arith.
From Verif Require Import Base BaseFacts ArchiveModel ArchiveProofs.
Import ListNotations.
Open Scope string_scope.
Open Scope nat_scope.
Open Scope list_scope.
Open Scope bool_scope.

(** C264: whatever the names of the members are and whether the extraction succeeds or not: a zip file or a wheel that is
    extracted into a directory changes nothing outside of it *)
Theorem C264_zip_inside : forall name z d t d' e,
  Forall plain t -> (forall a b, t = a ++ b -> b <> [] -> at_ d b = Some Dir) ->
  (forall q x y, at_ d (q ++ t) <> Some (Link x y)) ->
  is_zip_name name -> extract_archive name (ZipArchive z) d t = (d', e) ->
  forall p, (forall q, p <> q ++ t) -> at_ d' p = at_ d p.
Proof.
  intros name z d t d' e P S U Z E. unfold extract_archive in E. rewrite mkdir_parents_there in E by assumption. cbn [and_then] in E.
  apply endswith_any_zip in Z. destruct (endswith_any name [lit ".zip"; lit ".whl"]); [|congruence].
  apply zip_all_good in E; [apply E|exact P|split; assumption].
Qed.
(** a file system with a directory [/t] for the extraction and a file [/o/a] outside *)
Definition sample_disk : disk := [([lit "o"], Dir); ([lit "a"; lit "o"], File (lit "old")); ([lit "t"], Dir)].
Definition sample_target : place := [lit "t"].
Lemma sample_plain : Forall plain sample_target.
Proof. repeat constructor. Qed.
Lemma sample_solid : forall a b, sample_target = a ++ b -> b <> [] -> at_ sample_disk b = Some Dir.
Proof.
  intros a b E N. destruct a as [|x a]; cbn in E; [subst b; reflexivity|]. injection E as _ E.
  symmetry in E. apply app_eq_nil in E. destruct E as [_ ->]. congruence.
Qed.
Lemma sample_unlinked : forall q x y, at_ sample_disk (q ++ sample_target) <> Some (Link x y).
Proof.
  intros q x y. unfold sample_disk. cbn [at_].
  repeat match goal with |- context[if ?b then _ else _] => destruct b end; discriminate.
Qed.
Lemma sample_empty : forall q, q <> [] -> at_ sample_disk (q ++ sample_target) = None.
Proof.
  intros q N. unfold sample_disk. cbn [at_].
  repeat match goal with |- context[if place_eqb ?a ?b then _ else _] =>
    let E := fresh in destruct (place_eqb a b) eqn:E;
      [exfalso; apply place_eqb_spec in E; destruct q as [|c [|c' [|c'' q]]]; [congruence|discriminate E..]|] end.
  reflexivity.
Qed.
Definition sample_zip : zip := [(lit "../o/a", lit "new"); (lit "/o/a", lit "abs"); (lit "x/../../y", lit "up"); (lit "d/", [])].
Example C264_example : exists d', extract_archive (lit "p.whl") (ZipArchive sample_zip) sample_disk sample_target = (d', None)
  /\ at_ d' [lit "a"; lit "o"; lit "t"] = Some (File (lit "abs")) /\ at_ d' [lit "a"; lit "o"] = Some (File (lit "old")).
Proof. eexists. split; [vm_compute; reflexivity|]. split; vm_compute; reflexivity. Qed.

(** C265: for tar files this holds when no member is a link, has ".." in its name or an absolute name *)
Theorem C265_tar_inside_partial : forall name c ms d t d' e,
  Forall plain t -> (forall a b, t = a ++ b -> b <> [] -> at_ d b = Some Dir) ->
  (forall q x y, at_ d (q ++ t) <> Some (Link x y)) ->
  Forall (fun m : str * kind => absolute (fst m) = false /\ Forall (fun c => up c = false) (split_on "/" (fst m))
                                /\ match snd m with Symlink _ => False | _ => True end) ms ->
  extract_archive name (TarArchive c ms) d t = (d', e) ->
  forall p, (forall q, p <> q ++ t) -> at_ d' p = at_ d p.
Proof.
  intros name c ms d t d' e P S U F E. unfold extract_archive in E. rewrite mkdir_parents_there in E by assumption. cbn [and_then] in E.
  assert (G : good d t) by (split; assumption).
  assert (Id : unchanged t d d) by apply unchanged_refl.
  destruct (endswith_any name [lit ".zip"; lit ".whl"]); [injection E as <- <-; exact Id|].
  destruct (ends_with name (lit ".tar.gz")); [apply tar_extract_good in E; [apply E|assumption..]|].
  destruct (ends_with name (lit ".tar.bz2")); [|injection E as <- <-; exact Id].
  destruct c; try (injection E as <- <-; exact Id). apply tar_extract_good in E; [apply E|assumption..].
Qed.
Example C265_example : let ms := [(lit "p-1/a", Regular (lit "x")); (lit "p-1/./b/c", Regular (lit "y")); (lit "p-1/d", Directory)] in
  Forall (fun m : str * kind => absolute (fst m) = false /\ Forall (fun c => up c = false) (split_on "/" (fst m))
                                /\ match snd m with Symlink _ => False | _ => True end) ms
  /\ exists d', extract_archive (lit "p-1.tar.gz") (TarArchive Gzip ms) sample_disk sample_target = (d', None)
     /\ at_ d' [lit "c"; lit "b"; lit "p-1"; lit "t"] = Some (File (lit "y")).
Proof.
  split; [repeat constructor|]. eexists. split; vm_compute; reflexivity.
Qed.
(** without these: a member named "../o/a" writes outside of the target *)
Theorem C265_up_refuted : ~ forall ms d t d' e,
  Forall plain t -> (forall a b, t = a ++ b -> b <> [] -> at_ d b = Some Dir) -> (forall q, q <> [] -> at_ d (q ++ t) = None) ->
  Forall (fun m : str * kind => absolute (fst m) = false /\ match snd m with Symlink _ => False | _ => True end) ms ->
  extract_archive (lit "p-1.tar.gz") (TarArchive Gzip ms) d t = (d', e) ->
  forall p, (forall q, p <> q ++ t) -> at_ d' p = at_ d p.
Proof.
  intros H. specialize (H [(lit "../o/a", Regular (lit "new"))] sample_disk sample_target _ _ sample_plain sample_solid sample_empty ltac:(repeat constructor) eq_refl
    [lit "a"; lit "o"] ltac:(intros [|x [|y [|z q]]] E; discriminate E)).
  vm_compute in H. discriminate H.
Qed.
(** so does one with an absolute name *)
Theorem C265_absolute_refuted : ~ forall ms d t d' e,
  Forall plain t -> (forall a b, t = a ++ b -> b <> [] -> at_ d b = Some Dir) -> (forall q, q <> [] -> at_ d (q ++ t) = None) ->
  Forall (fun m : str * kind => Forall (fun c => up c = false) (split_on "/" (fst m)) /\ match snd m with Symlink _ => False | _ => True end) ms ->
  extract_archive (lit "p-1.tar.gz") (TarArchive Gzip ms) d t = (d', e) ->
  forall p, (forall q, p <> q ++ t) -> at_ d' p = at_ d p.
Proof.
  intros H. specialize (H [(lit "/o/a", Regular (lit "new"))] sample_disk sample_target _ _ sample_plain sample_solid sample_empty ltac:(repeat constructor) eq_refl
    [lit "a"; lit "o"] ltac:(intros [|x [|y [|z q]]] E; discriminate E)).
  vm_compute in H. discriminate H.
Qed.
(** and one whose name goes through a link that is a member itself *)
Theorem C265_link_refuted : ~ forall ms d t d' e,
  Forall plain t -> (forall a b, t = a ++ b -> b <> [] -> at_ d b = Some Dir) -> (forall q, q <> [] -> at_ d (q ++ t) = None) ->
  Forall (fun m : str * kind => absolute (fst m) = false /\ Forall (fun c => up c = false) (split_on "/" (fst m))) ms ->
  extract_archive (lit "p-1.tar.gz") (TarArchive Gzip ms) d t = (d', e) ->
  forall p, (forall q, p <> q ++ t) -> at_ d' p = at_ d p.
Proof.
  intros H. specialize (H [(lit "l", Symlink (lit "../o")); (lit "l/a", Regular (lit "new"))] sample_disk sample_target _ _ sample_plain sample_solid sample_empty ltac:(repeat constructor) eq_refl
    [lit "a"; lit "o"] ltac:(intros [|x [|y [|z q]]] E; discriminate E)).
  vm_compute in H. discriminate H.
Qed.

(** C266: an archive of files, none of which is at the place of another or above it, leaves exactly these files in a directory
    that was empty: a member with the parts [a; b; c] is the file [c] in [b] in [a] *)
Theorem C266_zip_partial : forall name (ms : list (list str * str)) d t,
  Forall plain t -> (forall a b, t = a ++ b -> b <> [] -> at_ d b = Some Dir) ->
  (forall q x y, at_ d (q ++ t) <> Some (Link x y)) -> (forall q, q <> [] -> at_ d (q ++ t) = None) ->
  Forall regular ms -> separate ms -> is_zip_name name ->
  exists d', extract_archive name (ZipArchive (map (fun m => (join (lit "/") (fst m), snd m)) ms)) d t = (d', None)
    /\ forall q c, q <> [] -> (at_ d' (q ++ t) = Some (File c) <-> In (rev q, c) ms).
Proof.
  intros name ms d t P S U Em R Sp Z.
  destruct (zip_contents t ms d P R Sp (conj S U) Em) as [d' [E C]]. exists d'. split.
  - unfold extract_archive. rewrite mkdir_parents_there by assumption. cbn [and_then].
    apply endswith_any_zip in Z. destruct (endswith_any name [lit ".zip"; lit ".whl"]); [exact E|congruence].
  - intros q c N. rewrite (proj1 (C q N) c). unfold extracted. rewrite in_map_iff. split.
    + intros [[l x] [H I]]. unfold place_of in H. cbn in H. injection H as <- <-. rewrite rev_involutive. exact I.
    + intros I. exists (rev q, c). split; [unfold place_of; cbn; rewrite rev_involutive; reflexivity|exact I].
Qed.
Theorem C266_tar_partial : forall name (ms : list (list str * str)) c0 d t,
  Forall plain t -> (forall a b, t = a ++ b -> b <> [] -> at_ d b = Some Dir) ->
  (forall q x y, at_ d (q ++ t) <> Some (Link x y)) -> (forall q, q <> [] -> at_ d (q ++ t) = None) ->
  Forall regular ms -> separate ms ->
  (ends_with name (lit ".tar.gz") = true \/ (ends_with name (lit ".tar.bz2") = true /\ c0 = Bzip2)) ->
  exists d', extract_archive name (TarArchive c0 (map (fun m => (join (lit "/") (fst m), Regular (snd m))) ms)) d t = (d', None)
    /\ forall q c, q <> [] -> (at_ d' (q ++ t) = Some (File c) <-> In (rev q, c) ms).
Proof.
  intros name ms c0 d t P S U Em R Sp Z.
  destruct (tar_contents t ms d P R Sp (conj S U) Em) as [d' [E C]]. exists d'. split.
  - unfold extract_archive. rewrite mkdir_parents_there by assumption. cbn [and_then].
    rewrite not_zip by (destruct Z as [Z|[Z _]]; [left|right]; exact Z).
    destruct (ends_with name (lit ".tar.gz")); [exact E|]. destruct Z as [Z|[Z ->]]; [discriminate Z|]. rewrite Z. exact E.
  - intros q c N. rewrite (proj1 (C q N) c). unfold extracted. rewrite in_map_iff. split.
    + intros [[l x] [H I]]. unfold place_of in H. cbn in H. injection H as <- <-. rewrite rev_involutive. exact I.
    + intros I. exists (rev q, c). split; [unfold place_of; cbn; rewrite rev_involutive; reflexivity|exact I].
Qed.
Definition sample_members : list (list str * str) :=
  [([lit "p"; lit "__init__.py"], lit "x"); ([lit "p"; lit "q"; lit "m.py"], lit "y"); ([lit "p-1.dist-info"; lit "METADATA"], lit "z")].
Example C266_example : Forall regular sample_members /\ separate sample_members /\
  (exists d', extract_archive (lit "p-1-py3-none-any.whl") (ZipArchive (map (fun m => (join (lit "/") (fst m), snd m)) sample_members)) sample_disk sample_target = (d', None)
     /\ at_ d' [lit "m.py"; lit "q"; lit "p"; lit "t"] = Some (File (lit "y"))).
Proof.
  split; [|split].
  - repeat (constructor; [split; [discriminate|repeat (constructor; [split; [split; reflexivity|cbn; intuition discriminate]|])]; constructor|]). constructor.
  - repeat (constructor; [repeat (constructor; [split; [discriminate|split; intros [|? [|? [|? [|? ?]]]] N E; try congruence; discriminate E]|]); constructor|]). constructor.
  - eexists. split; [vm_compute; reflexivity|vm_compute; reflexivity].
Qed.
(** in general a zip file may lose a member: "b" and "../b" are extracted to the same file *)
Theorem C266_collision_refuted : ~ forall (z : zip) d t d',
  Forall plain t -> (forall a b, t = a ++ b -> b <> [] -> at_ d b = Some Dir) -> (forall q, q <> [] -> at_ d (q ++ t) = None) ->
  NoDup (map fst z) -> extract_archive (lit "p.zip") (ZipArchive z) d t = (d', None) ->
  forall n c, In (n, c) z -> names_dir n = false -> exists q, at_ d' (q ++ t) = Some (File c).
Proof.
  intros H. specialize (H [(lit "b", lit "one"); (lit "../b", lit "two")] sample_disk sample_target
    [([lit "b"; lit "t"], File (lit "two")); ([lit "o"], Dir); ([lit "a"; lit "o"], File (lit "old")); ([lit "t"], Dir)] sample_plain sample_solid sample_empty).
  destruct (H ltac:(constructor; [intros [E|[]]; discriminate E|repeat constructor; intros []]) ltac:(vm_compute; reflexivity)
    (lit "b") (lit "one") (or_introl eq_refl) eq_refl) as [q A].
  cbn [at_] in A. repeat match type of A with context[if ?b then _ else _] => destruct b end; discriminate A.
Qed.

(** C267: what is extracted depends on the end of the name; with any other name nothing is extracted *)
Theorem C267_unsupported : forall name a d t,
  Forall plain t -> (forall a b, t = a ++ b -> b <> [] -> at_ d b = Some Dir) ->
  (forall s, In s [lit ".zip"; lit ".whl"; lit ".tar.gz"; lit ".tar.bz2"] -> forall p, name <> p ++ s) ->
  extract_archive name a d t = (d, Some UnsupportedArchive).
Proof.
  intros name a d t P S N. unfold extract_archive. rewrite mkdir_parents_there by assumption. cbn [and_then].
  unfold endswith_any. cbn [find].
  rewrite !ends_with_none; [reflexivity|..]; intros p; apply N; cbn; auto.
Qed.
Example C267_example : (forall s, In s [lit ".zip"; lit ".whl"; lit ".tar.gz"; lit ".tar.bz2"] -> forall p, lit "p-1.tgz" <> p ++ s)
  /\ extract_archive (lit "p-1.tgz") (TarArchive Gzip []) sample_disk sample_target = (sample_disk, Some UnsupportedArchive).
Proof.
  split; [|vm_compute; reflexivity]. intros s I p E. apply (f_equal (@rev ascii)) in E. rewrite rev_app_distr in E.
  destruct I as [<-|[<-|[<-|[<-|[]]]]]; vm_compute in E; discriminate E.
Qed.
(** a file that is not what its name says is refused, and nothing is written *)
Theorem C267_mismatch : forall name a d t,
  Forall plain t -> (forall a b, t = a ++ b -> b <> [] -> at_ d b = Some Dir) ->
  match a with
  | ZipArchive _ => exists p, name = p ++ lit ".tar.gz" \/ name = p ++ lit ".tar.bz2"
  | TarArchive Bzip2 _ => exists p, name = p ++ lit ".zip" \/ name = p ++ lit ".whl"
  | TarArchive _ _ => exists p, name = p ++ lit ".zip" \/ name = p ++ lit ".whl" \/ name = p ++ lit ".tar.bz2"
  | Garbage => exists p s, In s [lit ".zip"; lit ".whl"; lit ".tar.gz"; lit ".tar.bz2"] /\ name = p ++ s
  end ->
  extract_archive name a d t = (d, Some BadArchive).
Proof.
  intros name a d t P S M. unfold extract_archive. rewrite mkdir_parents_there by assumption. cbn [and_then].
  assert (K : forall p s, ends_with (p ++ s) s = true) by apply ends_with_app.
  destruct (endswith_any name [lit ".zip"; lit ".whl"]) as [s|] eqn:Z.
  - destruct a as [z|c ms|]; [|reflexivity|reflexivity]. exfalso.
    assert (H : endswith_any name [lit ".zip"; lit ".whl"] = None) by (destruct M as [p [-> | ->]]; apply not_zip; [left|right]; apply K).
    congruence.
  - assert (Nz : ~ is_zip_name name) by (intros H; apply endswith_any_zip in H; congruence).
    assert (N1 : forall p, name <> p ++ lit ".zip") by (intros p ->; apply Nz; left; apply K).
    assert (N2 : forall p, name <> p ++ lit ".whl") by (intros p ->; apply Nz; right; apply K).
    destruct (ends_with name (lit ".tar.gz")) eqn:Gz.
    + destruct a as [z|c ms|]; [reflexivity| |reflexivity]. exfalso.
      assert (M' : exists p, name = p ++ lit ".tar.bz2").
      { destruct c; destruct M as [p M]; try (destruct M as [M|[M|M]]; [destruct (N1 p M)|destruct (N2 p M)|exists p; exact M]).
        destruct M as [M|M]; [destruct (N1 p M)|destruct (N2 p M)]. }
      destruct M' as [p ->]. unfold ends_with in Gz. rewrite rev_app_distr in Gz. discriminate Gz.
    + destruct (ends_with name (lit ".tar.bz2")) eqn:Bz.
      * destruct a as [z|c ms|]; [reflexivity| |reflexivity]. destruct c; try reflexivity. exfalso.
        destruct M as [p [M|M]]; [destruct (N1 p M)|destruct (N2 p M)].
      * exfalso. assert (NB : forall p, name <> p ++ lit ".tar.bz2") by (intros p ->; rewrite K in Bz; discriminate Bz).
        assert (NG : forall p, name <> p ++ lit ".tar.gz") by (intros p ->; rewrite K in Gz; discriminate Gz).
        destruct a as [z|c ms|].
        { destruct M as [p [M|M]]; [destruct (NG p M)|destruct (NB p M)]. }
        { destruct c; destruct M as [p M]; firstorder. }
        { destruct M as [p [s [[<-|[<-|[<-|[<-|[]]]]] M]]]; firstorder. }
Qed.
Example C267_mismatch_example : extract_archive (lit "p-1.tar.bz2") (TarArchive Gzip [(lit "a", Regular (lit "x"))]) sample_disk sample_target = (sample_disk, Some BadArchive)
  /\ exists p, lit "p-1.tar.bz2" = p ++ lit ".zip" \/ lit "p-1.tar.bz2" = p ++ lit ".whl" \/ lit "p-1.tar.bz2" = p ++ lit ".tar.bz2".
Proof. split; [vm_compute; reflexivity|]. exists (lit "p-1"). right. right. reflexivity. Qed.

Print Assumptions C264_zip_inside.
Print Assumptions C265_tar_inside_partial.
Print Assumptions C265_up_refuted.
Print Assumptions C265_absolute_refuted.
Print Assumptions C265_link_refuted.
Print Assumptions C266_zip_partial.
Print Assumptions C266_tar_partial.
Print Assumptions C266_collision_refuted.
Print Assumptions C267_unsupported.
Print Assumptions C267_mismatch.
