(** C162: every file of a wheel is installed.  C163: every file is recorded.  C164: recorded hashes are right.  C165: an
    installation touches nothing else.  C166: removing undoes installing.  C167: an installation that fails leaves nothing.
    C168: installing twice.  C169: scripts.  C170: launchers.  C171: data directories.  C172: versions of wheels. *)
From Coq Require Import String Ascii List Bool NArith Arith Lia.
From Verif Require Import Base BaseFacts ParserModel PthModel FsModel FsFacts FilesModel FilesProofs CopyTxModel CopyTxSpec CopyTxProofs FilesProps VersionModel VersionParse ArtifactModel ArtifactProofs
  RecordFileModel RecordFileProofs InstallModel RemovalProofs WheelModel WheelSpec WheelProofs WheelInstallProofs.
Import ListNotations.
Open Scope string_scope.
Open Scope nat_scope.
Open Scope list_scope.
Open Scope bool_scope.

Notation info_name stem := (stem ++ lit ".dist-info").
Notation data_of stem := (stem ++ lit ".data").
(** an installation of a wheel that ends well; the order in which Python iterates over a set is any order *)
Record done (h : hashlib) ini compile (tag : str) order (tg : target) (c : content) (request mode : option str) (skip : bool) (b : nat) (f : fs)
  (stem : str) (purelib : bool) (entries : list entry) (f' : fs) : Prop := Done {
  d_opened : exists c' records, open_wheel h ini c skip = Ok (info_name stem, purelib, entries, c', records);
  d_order : forall l p, In p (order l) <-> In p l;
  d_wf : wf_fs f;
  d_installed : install_extracted h ini compile tag order tg c request mode skip b f = Installed f' }.
(** hashes as [hashlib] has them, in an alphabet without the sign that separates them from their kind *)
Definition printable (h : hashlib) : Prop := forall g s, h (lit "sha256") = Some g -> ~ In "="%char (g s) /\ lstrip_ws (g s) = g s.
(** names that a file system can hold *)
Definition good_names (brings : path -> Prop) (f : fs) : Prop := forall q, brings q \/ lookup f q <> None -> Forall proper q.

Section Wheel.
Variables (h : hashlib) (ini : str -> res (list (str * list (str * str)))) (compile : path -> str -> option str) (tag : str) (order : list path -> list path).
Variables (tg : target) (c : content) (request mode : option str) (skip : bool) (b : nat) (f : fs) (stem : str) (purelib : bool) (entries : list entry) (f' : fs).
Hypothesis D : done h ini compile tag order tg c request mode skip b f stem purelib entries f'.
(** the directory that a wheel is installed into *)
Notation site := (site_of tg purelib).
Notation info := (info_name stem :: site).
Notation brings := (brought tg site stem tag entries c).

(** ** C162 *)
(** nothing else is written at this place or above it: no other file, no launcher, no compiled file, no file of pkm *)
Definition alone (r : list str) (p : path) : Prop :=
  (forall r' s' p', wheel_file c (info_name stem) r' s' -> belongs tg site (data_of stem) r' p' -> under p' p = true -> r' = r) /\
  (forall q, launcher_of tg entries q \/ (exists p', brings p' /\ cached tag p' q) \/ own info q -> under q p = false).
Lemma done_placed : names_differ (TDir c) -> forall r s, wheel_file c (info_name stem) r s ->
  exists p, belongs tg site (data_of stem) r p /\ brings p /\ (alone r p -> lookup f' p = Some (File (shown tg (data_of stem) r s))).
Proof.
  intros ND r s W. destruct D as [(c' & records & O) OS OK IN]. pose proof (opened_content _ _ _ _ _ _ _ _ _ O) as CE.
  destruct (done_spec h ini compile tag order tg c request mode skip b f stem purelib entries c' records f' O OS OK IN) as (f1 & f2 & f3 & old & new & text & F1 & F2 & F3 & F4 & P & _).
  pose proof (fun p => placed_iff h ini compile tag order tg c request mode skip b f stem purelib entries c' records f' O IN p) as PI.
  pose proof (fun p => brings_iff h ini compile tag order tg c request mode skip b f stem purelib entries c' records f' O IN p) as BI.
  destruct (copied_all h ini compile tag order tg c request mode skip b f stem purelib entries c' records f' O IN) as (b1 & t1 & R).
  assert (FC : has_file (TDir c') r s) by (rewrite CE; apply prune_content_files; apply W).
  destruct (copy_complete tg (site_of tg purelib) (info_name stem) c' r s FC (proj2 W)) as [(e & E)|(a & p & A & B & WR)]; [exfalso; exact (run_no_stop _ _ _ _ _ e R E)|].
  rewrite data_name_stem in *. exists p. split; [exact B|]. split; [apply BI; left; exists a; eauto|]. intros [A1 A2].
  assert (L1 : lookup f1 p = Some (File (shown tg (data_of stem) r s))).
  { apply P; [eauto|]. intros a' q x I' W' U. destruct (copy_sound tg (site_of tg purelib) (info_name stem) c' a' I') as (_ & CS & _). destruct (CS q x W') as (r' & s' & F' & B' & -> & N'). rewrite data_name_stem in *.
    assert (WF : wheel_file c (info_name stem) r' s') by (split; [rewrite CE in F'; apply (proj1 (prune_content_files _ _ _)) in F'; exact F'|apply N', info_not_data]).
    pose proof (A1 r' s' q WF B' U) as ->. split; [exact (belongs_fun _ _ _ _ _ _ B' B)|]. rewrite (has_file_fun (TDir c) r s s' ND (proj1 W) (proj1 WF)). reflexivity. }
  apply (fr_keep _ _ _ F4); [apply (fr_keep _ _ _ F3); [apply (fr_keep _ _ _ F2); [exact L1|]|]|].
  - intros q Q. apply A2. left. apply launched_iff. exact Q.
  - intros q (y & [Y S] & E). apply A2. right. left. exists y. split; [apply BI; tauto|]. apply cached_iff. auto.
  - intros q Q. apply A2. right. right. exact Q.
Qed.
Theorem C162_placed_partial : names_differ (TDir c) -> forall r s, wheel_file c (info_name stem) r s -> (forall x, r <> [data_of stem; lit "scripts"; x]) ->
  exists p, belongs tg site (data_of stem) r p /\ (alone r p -> lookup f' p = Some (File s)).
Proof.
  intros ND r s W N. destruct (done_placed ND r s W) as (p & B & _ & L). exists p. split; [exact B|]. intro A. rewrite (L A). f_equal. f_equal.
  destruct r as [|r1 [|r2 [|r3 [|r4 r5]]]]; cbn [shown]; try reflexivity. destruct (str_eqb r1 (data_of stem)) eqn:E1; [|reflexivity]. destruct (str_eqb r2 "scripts") eqn:E2; [|reflexivity].
  apply str_eqb_eq in E1, E2. subst. exfalso. exact (N r3 eq_refl).
Qed.

(** ** C163 *)
Theorem C163_recorded_partial : printable h -> forall q s, brings q -> Forall proper q -> q <> [] -> ~ own info q -> lookup f' q = Some (File s) -> listed f' info q.
Proof.
  intros PH q s B P N O L. destruct D as [(c' & records & OP) OS OK IN].
  exact (done_listed h ini compile tag order tg c request mode skip b f stem purelib entries c' records f' OP OS OK IN PH q s P N B O L).
Qed.
(** ** C165 *)
(** what is there stays there unless a path of the installation is at or above it *)
Theorem C165_untouched : forall q n, lookup f q = Some n -> (forall p, brings p \/ own info p -> under p q = false) -> lookup f' q = Some n.
Proof.
  intros q n L U. destruct D as [(c' & records & OP) OS OK IN].
  destruct (done_frame h ini compile tag order tg c request mode skip b f stem purelib entries c' records f' OP OS OK IN) as (f3 & A & B).
  apply (fr_keep _ _ _ B); [apply (fr_keep _ _ _ A); [exact L|]|]; intros p P; apply U; auto.
Qed.
(** every file that is new or changed is one of the installation *)
Theorem C165_new_files : forall q s, lookup f' q = Some (File s) -> lookup f q = Some (File s) \/ brings q \/ own info q.
Proof.
  intros q s L. destruct D as [(c' & records & OP) OS OK IN].
  destruct (done_frame h ini compile tag order tg c request mode skip b f stem purelib entries c' records f' OP OS OK IN) as (f3 & A & B).
  destruct (fr_files _ _ _ B q s L) as [X|X]; [|auto]. destruct (fr_files _ _ _ A q s X); auto.
Qed.
(** what a record lists after all, for every file that was not there *)
Theorem C163_complete_partial : printable h -> good_names brings f -> forall q s, lookup f' q = Some (File s) -> lookup f q <> Some (File s) -> q <> [] -> ~ own info q -> listed f' info q.
Proof.
  intros PH G q s L NL NE O. destruct (C165_new_files q s L) as [X|[X|X]]; [contradiction| |contradiction]. apply (C163_recorded_partial PH q s); auto.
Qed.

(** ** C164 *)
(** the record of the wheel was not there before, and the wheel brings no such file in another way *)
Definition new_record : Prop := lookup f (lit "RECORD" :: info) = None /\ ~ brings (lit "RECORD" :: info).
Lemma done_records : printable h -> new_record -> good_names brings f ->
  exists text l c' records, lookup f' (lit "RECORD" :: info) = Some (File text) /\ load_records text = Ok l /\
    open_wheel h ini c skip = Ok (info_name stem, purelib, entries, c', records) /\
    forall x n s, In x l -> rec_file x = Some n -> ~ own info (resolve_record site n) -> lookup f' (resolve_record site n) = Some (File s) ->
      exists sig, rec_hash x = Some sig /\ rec_length x = Some (N.of_nat (length s)) /\ sign_of h (if skip then [] else precomputed_hashes (named_records records)) n s sig.
Proof.
  intros PH [NR1 NR2] G. destruct D as [(c' & records & OP) OS OK IN].
  destruct (done_spec h ini compile tag order tg c request mode skip b f stem purelib entries c' records f' OP OS OK IN) as (f1 & f2 & f3 & old & new & text & F1 & F2 & F3 & F4 & _ & _ & LO & S & R & _ & G2).
  destruct (done_frame h ini compile tag order tg c request mode skip b f stem purelib entries c' records f' OP OS OK IN) as (f3' & A & _).
  assert (FA : frame brings f f3).
  { pose proof (fun p => brings_iff h ini compile tag order tg c request mode skip b f stem purelib entries c' records f' OP IN p) as BI.
    eapply frame_trans; [eapply frame_weaken; [|exact F1]; intros p X; apply BI; auto|]. eapply frame_trans; [eapply frame_weaken; [|exact F2]; intros p X; apply BI; auto|].
    eapply frame_weaken; [|exact F3]; intros p X; apply BI; auto. }
  assert (EO : old = []).
  { unfold load_record_file in LO. destruct (lookup f3 _) as [[t|]|] eqn:L3; [|discriminate|congruence]. destruct (fr_files _ _ _ FA _ _ L3) as [X|X]; [congruence|contradiction]. }
  subst old. cbn [app] in S.
  assert (TD : forall x, In x new -> tidy x).
  { intros x X. destruct (G2 x X) as (q & s & r & sig & _ & _ & SG & ->). intros z Z. injection Z as <-. unfold sign_of in SG. destruct (dict_get (join "/" r) _) as [y|] eqn:DG.
    - subst sig. eapply pre_tidy; eassumption.
    - destruct SG as (g & H1 & ->). destruct (PH g s H1) as [A1 A2]. split; [cbn; intuition discriminate|]. split; [exact A1|]. split; [reflexivity|exact A2]. }
  exists text, new, c', records. split; [exact R|]. split; [exact (saved_loads new text S TD)|]. split; [exact OP|].
  intros x n s X E NO L. destruct (G2 x X) as (q & s' & r & sig & L3 & PT & SG & ->). cbn [rec_file rec_hash rec_length] in *. injection E as <-.
  assert (PQ : Forall proper q). { apply G. destruct (fr_files _ _ _ FA q s' L3) as [Y|Y]; [right; congruence|left; exact Y]. }
  assert (NQ : q <> []) by (intros ->; destruct (done_frame h ini compile tag order tg c request mode skip b f stem purelib entries c' records f' OP OS OK IN) as (f4 & A4 & _); pose proof (fr_wf _ _ _ FA OK) as [Z _]; congruence).
  change ["/"%char] with (lit "/") in NO, L. rewrite (recorded_name _ _ _ NQ PQ PT) in NO, L. exists sig. split; [reflexivity|].
  destruct (fr_files _ _ _ F4 q s L) as [Y|Y]; [|contradiction]. rewrite L3 in Y. injection Y as <-. split; [reflexivity|exact SG].
Qed.
(** files that the record of the wheel does not mention get a new hash: scripts, launchers, compiled files *)
Theorem C164_computed_partial : printable h -> new_record -> good_names brings f ->
  exists text l, lookup f' (lit "RECORD" :: info) = Some (File text) /\ load_records text = Ok l /\
    forall x n s, In x l -> rec_file x = Some n -> ~ own info (resolve_record site n) -> lookup f' (resolve_record site n) = Some (File s) ->
      rec_length x = Some (N.of_nat (length s)) /\
      ((skip = true \/ forall t rs y, has_file (TDir c) [info_name stem; lit "RECORD"] t -> load_records t = Ok rs -> In y rs -> rec_file y <> Some n) ->
       exists g, h (lit "sha256") = Some g /\ rec_hash x = Some (Sig (lit "sha256") (g s))).
Proof.
  intros PH NR G. destruct (done_records PH NR G) as (text & l & c' & records & T & L & O & H). exists text, l. split; [exact T|]. split; [exact L|].
  intros x n s X E NO F. destruct (H x n s X E NO F) as (sig & HS & HL & SG). split; [exact HL|]. intro K.
  assert (DG : dict_get n (if skip then [] else precomputed_hashes (named_records records)) = None).
  { destruct skip eqn:SK; [reflexivity|]. destruct K as [K|K]; [discriminate|]. destruct (dict_get n (precomputed_hashes (named_records records))) as [y|] eqn:DG; [exfalso|reflexivity].
    apply dict_from in DG. apply in_flat_map in DG. destruct DG as ([m o] & I & J). cbn [fst snd] in J. destruct o as [z|]; [|destruct J]. destruct J as [J|[]]. injection J as -> ->.
    unfold named_records in I. apply in_flat_map in I. destruct I as (r & I & J). destruct (rec_file r) as [fl|] eqn:RF; [|destruct J]. destruct J as [J|[]]. injection J as -> _.
    destruct (opened_parts _ _ _ _ _ _ _ _ _ O) as (cs & w & ep & sc & rc & I1 & _ & _ & _ & _ & _ & _ & _ & _ & _ & TR & LR & _). destruct rc as [t|]; [|injection LR as <-; destruct I].
    unfold text_of in TR. destruct (dict_get (lit "RECORD") cs) as [[t'|]|] eqn:DR; try discriminate. injection TR as ->. apply dict_get_in in DR.
    refine (K t records r _ LR I RF). econstructor; [exact I1|]. econstructor; [exact DR|constructor]. }
  unfold sign_of in SG. rewrite DG in SG. destruct SG as (g & H1 & ->). exists g. auto.
Qed.
(** files of the wheel that are installed as they are keep the hashes of the wheel, which have been checked *)
Theorem C164_verified_partial : skip = false -> ~ In "/"%char stem -> printable h -> new_record -> good_names brings f ->
  exists text l, lookup f' (lit "RECORD" :: info) = Some (File text) /\ load_records text = Ok l /\
    forall r s x, wheel_file c (info_name stem) r s -> (forall d, In d (removelast r) -> ends_with ".dist-info" d = false) -> Forall proper r ->
      ~ own info (rev r ++ site) -> lookup f' (rev r ++ site) = Some (File s) -> Forall proper (rev r ++ site) -> In x l -> rec_file x = Some (join "/" r) ->
      exists kind v g, rec_hash x = Some (Sig kind v) /\ h kind = Some g /\ g s = v.
Proof.
  intros SK SS PH NR G. destruct (done_records PH NR G) as (text & l & c' & records & T & L & O & H). exists text, l. split; [exact T|]. split; [exact L|].
  intros r s x W ND PR NO F PP X E. assert (NE : r <> []) by (destruct W as [W _]; inversion W; discriminate).
  assert (NP : rev r ++ site <> []) by (intro Z; apply app_eq_nil in Z; destruct Z as [Z _]; apply (f_equal (@rev str)) in Z; rewrite rev_involutive in Z; exact (NE Z)).
  pose proof (recorded_name site (rev r ++ site) r NP PP (path_to_below r site NE)) as RN.
  destruct (H x (join "/" r) s X E) as (sig & HS & _ & SG); [rewrite RN; exact NO|rewrite RN; exact F|]. rewrite SK in SG.
  destruct (opened_parts _ _ _ _ _ _ _ _ _ O) as (cs & w & ep & sc & rc & _ & _ & _ & _ & _ & _ & _ & _ & _ & CE & _ & _ & V). specialize (V SK). unfold verify_records in V. cbn [w_records w_files] in V. destruct rc as [t|]; [|discriminate]. cbn [option_map] in V.
  assert (IF : In (join "/" r, s) (map (fun e => (relative_str (fst e), snd e)) (tree_files [] (TDir c')))).
  { apply in_map_iff. exists (rev r, s). split; [unfold relative_str; cbn [fst snd]; rewrite rev_involutive; reflexivity|]. rewrite <- (app_nil_r (rev r)). apply tree_files_in. rewrite CE. apply prune_content_files. apply W. }
  pose proof (verify_files_ok _ _ _ _ V _ IF) as VF. unfold verify_file in VF. cbn [fst snd] in VF.
  assert (NS : forall n, In n r -> ~ In "/"%char n) by (intros n I; rewrite Forall_forall in PR; apply PR; exact I).
  pose proof (split_join "/" r NE NS) as SJ. change (join ["/"%char] r) with (join "/" r) in SJ.
  assert (NRP : str_eqb (join "/" r) (record_path (Wheel (map (fun e => (relative_str (fst e), snd e)) (tree_files [] (TDir c'))) (info_name stem) (Some (named_records records)))) = false).
  { apply str_eqb_neq. intro Z. unfold record_path in Z. cbn [w_dist_info] in Z. apply (f_equal (split_on "/")) in Z. rewrite SJ in Z. change (info_name stem ++ lit "/RECORD") with ((info_name stem) ++ "/"%char :: lit "RECORD") in Z.
    rewrite split_on_app in Z by (intro BAD; apply in_app_or in BAD; destruct BAD as [BAD|BAD]; [exact (SS BAD)|cbn in BAD; intuition discriminate]). cbn in Z. apply (proj2 W). exists []. exact Z. }
  rewrite NRP in VF. destruct (dict_get (join "/" r) (dict_of (named_records records))) as [[sg|]|] eqn:DG; [|discriminate|discriminate].
  pose proof (precomputed_last _ _ _ DG) as PL. unfold sign_of in SG. rewrite PL in SG. subst sig. destruct sg as [kind v]. unfold validate_against in VF. cbn [s_type s_value] in VF.
  destruct (h kind) as [g|] eqn:HK; [|discriminate]. cbn [bind] in VF. exists kind, v, g. split; [exact HS|]. split; [exact HK|]. destruct (str_eqb (g s) v) eqn:EQ; [apply str_eqb_eq; exact EQ|]. exfalso.
  assert (ID : in_dist_info (join "/" r) = false).
  { unfold in_dist_info. rewrite SJ. apply not_true_iff_false. intro Z. apply existsb_exists in Z. destruct Z as (d & I & K). rewrite (ND d I) in K. discriminate. }
  rewrite ID in VF. discriminate.
Qed.

(** ** C166 *)
(** nothing of the package was there before: neither its dist-info directory, nor any of its files, nor anything its record
    lists; and others have no compiled files where the removal deletes such directories *)
Record untouched_place : Prop := Place {
  no_info : lookup f info = None;
  no_file : forall q, brings q -> lookup f q = None;
  no_listed : forall q, listed f' info q -> lookup f q = None;
  no_cache : forall d q p s, listed f' info q \/ q = lit "RECORD" :: info -> under d (parent q) = true -> eligible site d = true ->
    lookup f p = Some (File s) -> under (pycache d) p = false }.
Lemma all_listed : printable h -> good_names brings f -> forall q s, brings q -> ~ own info q -> lookup f' q = Some (File s) -> listed f' info q.
Proof.
  intros PH G q s B O L. apply (C163_recorded_partial PH q s); auto. intros ->.
  destruct D as [(c' & records & OP) OS OK IN].
  destruct (done_frame h ini compile tag order tg c request mode skip b f stem purelib entries c' records f' OP OS OK IN) as (f3 & X & Y).
  pose proof (fr_wf _ _ _ Y (fr_wf _ _ _ X OK)) as [Z _]. congruence.
Qed.
Lemma done_frames : exists f3, frame brings f f3 /\ frame (own info) f3 f'.
Proof.
  destruct D as [(c' & records & OP) OS OK IN].
  exact (done_frame h ini compile tag order tg c request mode skip b f stem purelib entries c' records f' OP OS OK IN).
Qed.
Theorem C166_files_partial : printable h -> good_names brings f -> untouched_place -> forall f2, uninstalled info f' f2 ->
  forall p s, lookup f2 p = Some (File s) <-> lookup f p = Some (File s).
Proof.
  intros PH G [A B C E] f2 U. pose proof (d_wf _ _ _ _ _ _ _ _ _ _ _ _ _ _ _ _ D) as OK.
  exact (round_files info f f' f2 brings OK done_frames (all_listed PH G) U A B C E).
Qed.
(** directories with files of others stay *)
Theorem C166_directories_partial : printable h -> good_names brings f -> untouched_place -> forall f2, uninstalled info f' f2 ->
  forall r d s, lookup f (r ++ d) = Some (File s) -> r <> [] -> lookup f2 d = Some Dir.
Proof.
  intros PH G [A B C E] f2 U. pose proof (d_wf _ _ _ _ _ _ _ _ _ _ _ _ _ _ _ _ D) as OK.
  exact (round_dirs info f f' f2 brings OK done_frames (all_listed PH G) U A B C E).
Qed.
(** and below the site no directory is left over, unless the installation has made one that is empty *)
Theorem C166_no_new_directories_partial : printable h -> good_names brings f -> untouched_place -> forall f2, uninstalled info f' f2 ->
  (forall p n, lookup f' p = Some n -> Forall plain p) -> Forall plain site ->
  (forall d, under site d = true -> is_empty_directory f' d = true -> lookup f d = Some Dir) ->
  forall d, under site d = true -> d <> site -> lookup f2 d = Some Dir -> lookup f d = Some Dir.
Proof.
  intros PH G [A B C E] f2 U PN PS NE. pose proof (d_wf _ _ _ _ _ _ _ _ _ _ _ _ _ _ _ _ D) as OK.
  exact (round_new_dirs info f f' f2 brings OK done_frames (all_listed PH G) U A B C E PN PS NE).
Qed.

(** ** C169 *)
Definition newline : ascii := ascii_of_nat 10.
Lemma script_placed : names_differ (TDir c) -> forall x s, wheel_file c (info_name stem) [data_of stem; lit "scripts"; x] s -> alone [data_of stem; lit "scripts"; x] (x :: t_scripts tg) ->
  lookup f' (x :: t_scripts tg) = Some (File (patch_script (t_interpreter tg) s)).
Proof.
  intros ND x s W A. destruct (done_placed ND _ _ W) as (p & B & _ & L).
  assert (EP : p = x :: t_scripts tg).
  { apply (belongs_fun _ _ _ _ _ _ B). change (x :: t_scripts tg) with (rev [x] ++ t_scripts tg). apply in_part; [discriminate|]. cbn. tauto. }
  subst p. rewrite (L A). cbn [shown]. rewrite str_eqb_refl. reflexivity.
Qed.
Lemma first_line_at : forall a body, ~ In newline a -> first_line (a ++ newline :: body) = (a ++ [newline], body).
Proof.
  intros a body. unfold first_line. assert (SP : ~ In newline a -> span (fun ch => negb (Ascii.eqb ch lf)) (a ++ newline :: body) = (a, newline :: body)).
  { induction a as [|y a IH]; intro N; [reflexivity|]. cbn [app span]. assert (Y : Ascii.eqb y lf = false) by (apply Ascii.eqb_neq; intros ->; apply N; left; reflexivity). rewrite Y. cbn [negb]. rewrite IH by (intro I; apply N; right; exact I). reflexivity. }
  intro N. rewrite (SP N). reflexivity.
Qed.
(** scripts directly in the directory for scripts get the interpreter of the environment, the rest stays *)
Theorem C169_scripts_partial : names_differ (TDir c) -> forall x rest body, wheel_file c (info_name stem) [data_of stem; lit "scripts"; x] (lit "#!python" ++ rest ++ newline :: body) -> ~ In newline rest ->
  alone [data_of stem; lit "scripts"; x] (x :: t_scripts tg) ->
  lookup f' (x :: t_scripts tg) = Some (File (lit "#!" ++ t_interpreter tg ++ (if starts_with "w" rest then lit "w" else []) ++ newline :: body)).
Proof.
  intros ND x rest body W N A. rewrite (script_placed ND _ _ W A). f_equal. f_equal. unfold patch_script.
  rewrite app_assoc, first_line_at by (intro I; apply in_app_or in I; destruct I as [I|I]; [cbn in I; intuition discriminate|exact (N I)]).
  rewrite <- app_assoc. replace (starts_with "#!python" (lit "#!python" ++ rest ++ [newline])) with true by reflexivity.
  replace (starts_with "#!pythonw" (lit "#!python" ++ rest ++ [newline])) with (starts_with "w" rest).
  - rewrite <- !app_assoc. reflexivity.
  - destruct rest as [|w rest]; [reflexivity|]. cbn [starts_with lit list_ascii_of_string app]. change (Ascii.eqb "#" "#") with true. cbn. destruct w as [[] [] [] [] [] [] [] []]; reflexivity.
Qed.
(** other files there are copied as they are *)
Theorem C169_others_partial : names_differ (TDir c) -> forall x s, wheel_file c (info_name stem) [data_of stem; lit "scripts"; x] s -> starts_with "#!python" s = false ->
  alone [data_of stem; lit "scripts"; x] (x :: t_scripts tg) -> lookup f' (x :: t_scripts tg) = Some (File s).
Proof.
  intros ND x s W N A. rewrite (script_placed ND _ _ W A). f_equal. f_equal. unfold patch_script.
  assert (FL : let (l, r) := first_line s in s = l ++ r /\ (forall k, starts_with k l = true -> starts_with k s = true)).
  { assert (SP : forall t, let (u, v) := span (fun ch => negb (Ascii.eqb ch lf)) t in t = u ++ v).
    { induction t as [|y t IH]; [reflexivity|]. cbn [span]. destruct (negb _); [|reflexivity]. destruct (span _ t). rewrite IH. reflexivity. }
    assert (SW : forall k l r, starts_with k l = true -> starts_with k (l ++ r) = true).
    { clear. induction k as [|y k IH]; intros l r H; [reflexivity|]. destruct l as [|z l]; [discriminate|]. cbn [app starts_with] in *. apply andb_true_iff in H. destruct H as [H1 H2]. rewrite H1. apply IH. exact H2. }
    unfold first_line. specialize (SP s). destruct (span _ s) as [u [|ch v]] eqn:E; (split; [rewrite SP, <- ?app_assoc; reflexivity|]); intros k K; rewrite SP.
    - apply SW. exact K.
    - change (ch :: v) with ([ch] ++ v). rewrite app_assoc. apply SW. exact K. }
  destruct (first_line s) as [l r]. destruct FL as [-> FL]. destruct (starts_with "#!python" l) eqn:SL; [|reflexivity]. rewrite (FL _ SL) in N. discriminate.
Qed.

(** ** C170 *)
(** a script that starts an entry point, from its specification [module:object] *)
Definition starter (interpreter module object : str) : str :=
  lit "#!" ++ interpreter ++ [newline] ++ lit "import sys;import " ++ module ++ lit ";sys.exit(" ++ module ++ lit "." ++ object ++ lit "())".
(** every entry point of the two groups gets its launcher, which runs the object it names *)
Theorem C170_launchers_partial : forall e, In e entries -> e_group e = lit "console_scripts" \/ e_group e = lit "gui_scripts" ->
  let p := resolve_record (t_scripts tg) (e_name e) in
  (forall x, In x entries -> e_group x = lit "console_scripts" \/ e_group x = lit "gui_scripts" -> under (resolve_record (t_scripts tg) (e_name x)) p = true -> x = e) ->
  (forall q, (exists y, brings y /\ cached tag y q) \/ own info q -> under q p = false) ->
  exists object, o_object (e_ref e) = Some object /\ object <> [] /\ lookup f' p = Some (File (starter (t_interpreter tg) (o_module (e_ref e)) object)).
Proof.
  intros e I G p AL NO. destruct D as [(c' & records & OP) OS OK IN].
  destruct (done_spec h ini compile tag order tg c request mode skip b f stem purelib entries c' records f' OP OS OK IN) as (f1 & f2 & f3 & old & new & text & F1 & F2 & F3 & F4 & _ & LC & _).
  assert (SC : forall x, is_script x = true <-> e_group x = lit "console_scripts" \/ e_group x = lit "gui_scripts") by (intro x; unfold is_script; rewrite orb_true_iff, !str_eqb_eq; reflexivity).
  destruct (LC e I (proj2 (SC e) G)) as (body & SN & L). unfold snippet in SN. destruct (o_object (e_ref e)) as [[|o1 o]|] eqn:OB; [discriminate| |discriminate]. injection SN as <-.
  exists (o1 :: o). split; [reflexivity|]. split; [discriminate|]. fold p in L.
  assert (BI := fun q => brings_iff h ini compile tag order tg c request mode skip b f stem purelib entries c' records f' OP IN q).
  apply (fr_keep _ _ _ F4); [apply (fr_keep _ _ _ F3); [apply L|]|].
  - intros x X XS U. rewrite (AL x X (proj1 (SC x) XS) U). auto.
  - intros q (y & [Y S] & E). apply NO. left. exists y. split; [apply BI; tauto|]. apply cached_iff. auto.
  - intros q Q. apply NO. right. exact Q.
Qed.
(** ** C171 *)
(** every directory in the data directory of an installed wheel is one of the known parts *)
Theorem C171_known_parts : forall cs key t, In (data_of stem, TDir cs) c -> In (key, t) cs -> t <> TDir [] -> exists dir, In (key, dir) (parts tg).
Proof.
  intros cs key t I J NE. destruct D as [(c' & records & OP) OS OK IN].
  destruct (copied_all h ini compile tag order tg c request mode skip b f stem purelib entries c' records f' OP IN) as (b1 & t1 & R).
  destruct (get_place tg key) as [dir|e] eqn:GP.
  - exists dir. unfold get_place in GP. cbn [parts In].
    repeat match type of GP with (if str_eqb key ?k then _ else _) = _ => destruct (str_eqb key k) eqn:?; [match goal with X : str_eqb key _ = true |- _ => apply str_eqb_eq in X; subst key end; injection GP as <-; tauto|] end.
    destruct (existsb _ _); discriminate.
  - exfalso. apply (run_no_stop _ _ _ _ _ e R). rewrite (opened_content _ _ _ _ _ _ _ _ _ OP).
    unfold prune_content. destruct (prune_children c) as (c1 & E1 & H1). rewrite E1. destruct (prune_children cs) as (cs1 & E2 & H2).
    assert (NC : TDir cs <> TDir []) by (intro Z; injection Z as ->; destruct J).
    unfold copy_actions. apply in_flat_map. exists (data_of stem, TDir cs1). split; [apply H1; exists (TDir cs); split; [exact I|]; split; [exact NC|symmetry; exact E2]|].
    cbn [fst snd]. rewrite data_name_stem, str_eqb_refl. apply in_flat_map. exists (key, prune t). split; [apply H2; eauto|].
    unfold data_actions. cbn [fst]. rewrite GP. left. reflexivity.
Qed.
(** ** C172 *)
Theorem C172_version : names_differ (TDir c) -> forall text fields, has_file (TDir c) [info_name stem; lit "WHEEL"] text -> read_lines text = Ok fields ->
  (forall v, dict_get (lit "Wheel-Version") fields = Some v -> exists w rest, parse_version v = Ok (VStd w) /\ release w = 1%N :: rest) /\
  (purelib = true <-> dict_get (lit "Root-Is-Purelib") fields = None \/ dict_get (lit "Root-Is-Purelib") fields = Some (lit "true")).
Proof.
  intros ND text fields W RL. destruct D as [(c' & records & OP) OS OK IN].
  destruct (opened_parts _ _ _ _ _ _ _ _ _ OP) as (cs & w & ep & sc & rc & I1 & _ & _ & _ & TW & WC & _).
  assert (EW : w = Some text).
  { unfold text_of in TW. destruct (dict_get (lit "WHEEL") cs) as [[t|x]|] eqn:DW; try discriminate; injection TW as <-.
    - f_equal. apply dict_get_in in DW. apply (has_file_fun (TDir c) [info_name stem; lit "WHEEL"]); [exact ND| |exact W]. econstructor; [exact I1|]. econstructor; [exact DW|constructor].
    - exfalso. inversion W as [|n l c1 r s J K]; subst. assert (c1 = TDir cs).
      { clear - ND I1 J. destruct ND as [ND _]. induction c as [|[m d] c0 IH]; [destruct J|]. cbn [map fst] in ND. inversion ND as [|? ? A B]; subst. destruct I1 as [I|I], J as [J|J].
        - congruence.
        - injection I as -> ->. exfalso. apply A. apply (in_map fst) in J. exact J.
        - injection J as -> ->. exfalso. apply A. apply (in_map fst) in I. exact I.
        - exact (IH B I J). }
      subst c1. inversion K as [|n2 l2 c2 r2 s2 J2 K2]; subst. assert (X : dict_get (lit "WHEEL") cs <> None).
      { clear - J2. induction cs as [|[m d] cs IH]; [destruct J2|]. cbn [dict_get]. destruct (str_eqb (lit "WHEEL") m) eqn:E; [congruence|]. destruct J2 as [J2|J2]; [injection J2 as -> ->; rewrite str_eqb_refl in E; discriminate|exact (IH J2)]. }
      exact (X DW). }
  subst w. unfold wheel_config in WC. rewrite RL in WC. cbn [bind] in WC.
  destruct (match dict_get (lit "Wheel-Version") fields with Some v => _ | None => _ end) as [ver|] eqn:V; [|discriminate]. cbn [bind] in WC.
  destruct ver as [? ? ?|?|sv]; [discriminate|discriminate|]. destruct (release sv) as [|major rest] eqn:R; [discriminate|]. destruct (negb (major =? 1)%N) eqn:M; [discriminate|]. apply negb_false_iff, N.eqb_eq in M. subst major.
  destruct rest as [|minor rest]; [discriminate|]. apply (f_equal (fun r => match r with Ok x => x | Err _ => true end)) in WC. cbv beta iota in WC. split.
  - intros v DV. rewrite DV in V. destruct (parse_version v) as [pv|] eqn:PV; [|discriminate]. injection V as ->. exists sv, (minor :: rest). auto.
  - rewrite <- WC. destruct (dict_get (lit "Root-Is-Purelib") fields) as [x|]; [|split; auto]. rewrite str_eqb_eq. split; [intros ->; auto|]. intros [X|X]; [discriminate|injection X as ->; reflexivity].
Qed.
End Wheel.

(** ** C167 *)
(** a file that does not have the hash of the record stops the installation before it begins, whatever else there is *)
Theorem C167_mismatch : forall h ini compile tag order tg c request mode b f stem r s,
  (forall n t, In (n, t) c -> ends_with ".dist-info" n = true -> n = info_name stem) -> ~ In "/"%char stem ->
  wheel_file c (info_name stem) r s -> Forall proper r -> (forall d, In d (removelast r) -> ends_with ".dist-info" d = false) ->
  (forall text rs x sig g, has_file (TDir c) [info_name stem; lit "RECORD"] text -> load_records text = Ok rs -> In x rs -> rec_file x = Some (join "/" r) -> rec_hash x = Some sig ->
     h (s_type sig) = Some g -> g s <> s_value sig) ->
  exists e, install_extracted h ini compile tag order tg c request mode false b f = Refused e.
Proof.
  intros h ini compile tag order tg c request mode b f stem r s U SS W PR ND MM. unfold install_extracted. destruct (open_wheel h ini c false) as [[[[[name pl] es] c'] records]|e] eqn:O; [exfalso|eauto].
  destruct (opened_parts _ _ _ _ _ _ _ _ _ O) as (cs & w & ep & sc & rc & I1 & I2 & _ & _ & _ & _ & _ & _ & _ & CE & TR & LR & V). pose proof (U _ _ I1 I2) as ->. specialize (V eq_refl).
  unfold verify_records in V. cbn [w_records w_files] in V. destruct rc as [t|]; [|discriminate]. cbn [option_map] in V. assert (NE : r <> []) by (destruct W as [W _]; inversion W; discriminate).
  assert (IF : In (join "/" r, s) (map (fun e => (relative_str (fst e), snd e)) (tree_files [] (TDir c')))).
  { apply in_map_iff. exists (rev r, s). split; [unfold relative_str; cbn [fst snd]; rewrite rev_involutive; reflexivity|]. rewrite <- (app_nil_r (rev r)). apply tree_files_in. rewrite CE. apply prune_content_files. apply W. }
  pose proof (verify_files_ok _ _ _ _ V _ IF) as VF. unfold verify_file in VF. cbn [fst snd] in VF.
  assert (NS : forall n, In n r -> ~ In "/"%char n) by (intros n I; rewrite Forall_forall in PR; apply PR; exact I).
  pose proof (split_join "/" r NE NS) as SJ. change (join ["/"%char] r) with (join "/" r) in SJ.
  assert (NRP : str_eqb (join "/" r) (record_path (Wheel (map (fun e => (relative_str (fst e), snd e)) (tree_files [] (TDir c'))) (info_name stem) (Some (named_records records)))) = false).
  { apply str_eqb_neq. intro Z. unfold record_path in Z. cbn [w_dist_info] in Z. apply (f_equal (split_on "/")) in Z. rewrite SJ in Z. change (info_name stem ++ lit "/RECORD") with ((info_name stem) ++ "/"%char :: lit "RECORD") in Z.
    rewrite split_on_app in Z by (intro BAD; apply in_app_or in BAD; destruct BAD as [BAD|BAD]; [exact (SS BAD)|cbn in BAD; intuition discriminate]). cbn in Z. apply (proj2 W). exists []. exact Z. }
  rewrite NRP in VF. destruct (dict_get (join "/" r) (dict_of (named_records records))) as [[sg|]|] eqn:DG; [|discriminate|discriminate].
  unfold validate_against in VF. destruct (h (s_type sg)) as [g|] eqn:HK; [|discriminate]. cbn [bind] in VF. apply dict_from in DG. unfold named_records in DG. apply in_flat_map in DG. destruct DG as (x & I & J). destruct (rec_file x) as [fl|] eqn:RF; [|destruct J].
  destruct J as [J|[]]. injection J as -> RH. unfold text_of in TR. destruct (dict_get (lit "RECORD") cs) as [[t'|]|] eqn:DR; try discriminate. injection TR as ->. apply dict_get_in in DR.
  assert (HR : has_file (TDir c) [info_name stem; lit "RECORD"] t) by (econstructor; [exact I1|]; econstructor; [exact DR|constructor]).
  pose proof (MM t records x sg g HR LR I RF RH HK) as BAD. apply str_eqb_neq in BAD. rewrite BAD in VF.
  assert (ID : in_dist_info (join "/" r) = false).
  { unfold in_dist_info. rewrite SJ. apply not_true_iff_false. intro Z. apply existsb_exists in Z. destruct Z as (d & I' & K). rewrite (ND d I') in K. discriminate. }
  rewrite ID in VF. discriminate.
Qed.
Lemma run_do : forall ops b t, run_actions b t (map Do ops) = tx_run None b t ops.
Proof.
  intros ops b t. unfold run_actions, tx_run. generalize (Go b t). induction ops as [|o ops IH]; intro x; [reflexivity|]. cbn [map fold_left]. apply IH.
Qed.
Lemma copy_ops : forall tg site name c, (forall cs, ~ In (data_name name, TDir cs) c) ->
  copy_actions tg site name c = map Do (tl (copy_tree_ops false (fun p => negb (path_eqb p [lit "RECORD"; name])) [] site (TDir c))).
Proof.
  intros tg site name c. cbn [copy_tree_ops tl]. induction c as [|[n t] c IH]; intro N; [reflexivity|]. unfold copy_actions in *. cbn [flat_map fst snd].
  rewrite IH by (intros cs I; apply (N cs); right; exact I). rewrite map_app. f_equal.
  assert (PN : path_eqb [n] [lit "RECORD"; name] = false) by (cbn [path_eqb]; apply andb_false_iff; auto || reflexivity). rewrite PN. cbn [negb]. destruct t as [x|cs].
  - reflexivity.
  - destruct (str_eqb n (data_name name)) eqn:E; [apply str_eqb_eq in E; subst n; exfalso; apply (N cs); left; reflexivity|]. reflexivity.
Qed.
Lemma differ_prune : forall t, names_differ t -> names_differ (prune t).
Proof.
  induction t as [x|cs IH] using tree_ind'; [auto|]. intros [ND NA]. assert (X : exists cs', prune (TDir cs) = TDir cs' /\ NoDup (map fst cs') /\ (forall n, In n (map fst cs') -> In n (map fst cs)) /\
    (fix all (l : list (str * tree)) : Prop := match l with [] => True | (_, c) :: r => names_differ c /\ all r end) cs').
  { induction cs as [|[n c] cs IHl]; [exists []; repeat split; auto; constructor|]. inversion IH as [|? ? H1 H2]; subst. cbn [map fst] in ND. inversion ND as [|? ? A B]; subst. destruct NA as [NC NA].
    destruct (IHl H2 B NA) as (cs' & E & D' & I' & AL). cbn [prune] in E. injection E as E.
    assert (Y : c = TDir [] \/ c <> TDir []) by (destruct c as [|[|]]; auto; right; discriminate). destruct Y as [->|Y].
    - exists cs'. cbn [prune]. rewrite E. repeat split; auto. intros m M. right. auto.
    - exists ((n, prune c) :: cs'). split; [destruct c as [s|[|d ds]]; [cbn [prune]; rewrite E; reflexivity|congruence|cbn [prune] in *; rewrite E; reflexivity]|].
      split; [cbn [map fst]; constructor; [intro M; exact (A (I' _ M))|exact D']|]. split; [intros m [M|M]; [left; exact M|right; auto]|]. split; [apply H1; exact NC|exact AL]. }
  destruct X as (cs' & -> & A & _ & B). split; assumption.
Qed.
(** a failure while the files of the wheel are copied leaves nothing behind; missing: launchers, data directories and what
    follows the copying, see below *)
Theorem C167_copy_partial : forall h ini compile tag order tg c request mode skip b f stem purelib entries c' records,
  open_wheel h ini c skip = Ok (info_name stem, purelib, entries, c', records) -> wf_fs f ->
  names_differ (TDir c) -> (forall cs, ~ In (data_of stem, TDir cs) c) ->
  (forall l p, In p (order l) <-> In p l) -> (forall l, inner_first (order l)) ->
  (exists t, run_actions b (tx_start f) (copy_actions tg (site_of tg purelib) (info_name stem) c') = Raised t) ->
  exists g, install_extracted h ini compile tag order tg c request mode skip b f = Broken (Some g) /\ same_fs g f.
Proof.
  intros h ini compile tag order tg c request mode skip b f stem purelib entries c' records O W ND NOD OS IO (t & R). unfold install_extracted. rewrite O. unfold transaction. fold (site_of tg purelib). rewrite R. cbn [and_then].
  pose proof (opened_content _ _ _ _ _ _ _ _ _ O) as CE. assert (EC : TDir c' = prune (TDir c)) by (subst c'; unfold prune_content; destruct (prune_children c) as (cs & -> & _); reflexivity).
  assert (NOD' : forall cs, ~ In (data_name (info_name stem), TDir cs) c').
  { intros cs I. rewrite data_name_stem in I. destruct (prune_children c) as (cs' & E & H). rewrite <- EC in E. injection E as E. rewrite <- E in H. apply H in I. destruct I as (d & I & _ & P). destruct d as [x|ds]; [discriminate|]. exact (NOD ds I). }
  rewrite (copy_ops tg _ _ c' NOD'), run_do in R.
  assert (ORD : orderly (tl (copy_tree_ops false (fun p => negb (path_eqb p [lit "RECORD"; info_name stem])) [] (site_of tg purelib) (TDir c')))).
  { pose proof (copy_tree_orderly (fun p => negb (path_eqb p [lit "RECORD"; info_name stem])) (TDir c') [] (site_of tg purelib)) as X. rewrite EC in X at 1. specialize (X (differ_prune _ ND)). destruct X as [X Y].
    destruct (copy_tree_ops _ _ _ _ _) as [|o ops]; [split; assumption|]. inversion X; inversion Y; subst. split; assumption. }
  set (ops := tl _) in R, ORD. assert (ET : final (tx_run None b (tx_start f) ops) = t) by (rewrite R; reflexivity).
  destruct (C22_rollback_partial f ops b (order (copied t)) W ORD) as (g & G & SM); [rewrite ET; apply OS|apply IO|]. rewrite ET in G. exists g. rewrite G. auto.
Qed.

(** ** C170 *)
Theorem C170_reference : forall m o, ~ In ":"%char m -> ~ In "["%char o -> parse_reference (m ++ lit ":" ++ o) = Ref m (Some o).
Proof.
  intros m o M O. unfold parse_reference.
  assert (SP : forall (k : ascii) a r, ~ In k a -> span (fun ch => negb (Ascii.eqb ch k)) (a ++ k :: r) = (a, k :: r)).
  { clear. intros k a r. induction a as [|y a IH]; intro N; [cbn [app span]; rewrite Ascii.eqb_refl; reflexivity|]. cbn [app span]. assert (Y : Ascii.eqb y k = false) by (apply Ascii.eqb_neq; intros ->; apply N; left; reflexivity). rewrite Y. cbn [negb].
    rewrite IH by (intro I; apply N; right; exact I). reflexivity. }
  assert (SE : forall (k : ascii) a, ~ In k a -> span (fun ch => negb (Ascii.eqb ch k)) a = (a, [])).
  { clear. intros k a. induction a as [|y a IH]; intro N; [reflexivity|]. cbn [span]. assert (Y : Ascii.eqb y k = false) by (apply Ascii.eqb_neq; intros ->; apply N; left; reflexivity). rewrite Y. cbn [negb].
    rewrite IH by (intro I; apply N; right; exact I). reflexivity. }
  change (m ++ lit ":" ++ o) with (m ++ ":"%char :: o). rewrite SP by exact M. rewrite SE by exact O. reflexivity.
Qed.

(** ** A sample: a package with a module, a script and an entry point, into an empty environment *)
Definition w_sum (s : str) : str := lit "h" ++ show_N (N.of_nat (length s)).
Definition w_hashes : hashlib := fun t => if str_eqb t "sha256" then Some w_sum else None.
Definition w_ini (s : str) : res (list (str * list (str * str))) := Ok [(lit "console_scripts", [(lit "run", s)])].
Definition w_compile (p : path) (s : str) : option str := Some (lit "pyc" ++ s).
(** longer paths first, each once *)
Fixpoint w_insert (p : path) (l : list path) : list path := match l with [] => [p] | q :: r => if length q <=? length p then p :: l else q :: w_insert p r end.
Definition w_order (l : list path) : list path := fold_right w_insert [] l.
Definition w_tg := Target "/v/bin/python" [lit "std"; lit "v"] [lit "std"; lit "v"] [lit "inc"; lit "v"] [lit "site"; lit "v"] [lit "plat"; lit "v"] [lit "inc"; lit "v"] [lit "v"] [lit "bin"; lit "v"].
Definition w_text := lit "Wheel-Version: 1.0" ++ [newline] ++ lit "Root-Is-Purelib: true".
Definition w_fs : fs := [([], Dir); ([lit "v"], Dir); ([lit "site"; lit "v"], Dir); ([lit "other.py"; lit "site"; lit "v"], File (lit "o"))].
(** a wheel with these files besides its dist-info directory, whose record is made from them *)
Definition w_content (text : str) (files : content) (extra : content) : content :=
  let c rec := files ++ [(lit "a-1.dist-info", TDir ((lit "WHEEL", TFile text) :: extra ++ rec))] in
  c [(lit "RECORD", TFile (concat (map (fun e => csv_row [relative_str (fst e); lit "sha256=" ++ w_sum (snd e); show_N (N.of_nat (length (snd e)))]) (tree_files [] (TDir (c []))))))].
Definition w_files : content := [(lit "a", TDir [(lit "__init__.py", TFile "x=1")]); (lit "a-1.data", TDir [(lit "scripts", TDir [(lit "s", TFile (lit "#!python" ++ [newline] ++ lit "go")); (lit "t", TFile "echo")])])].
Definition w_entry_file : content := [(lit "entry_points.txt", TFile "a:main")].
Definition w_wheel := w_content w_text w_files w_entry_file.
Definition w_entries := [Entry "console_scripts" "run" (Ref "a" (Some (lit "main")))].
Definition w_install c b f := install_extracted w_hashes w_ini w_compile "cp39" w_order w_tg c (Some (lit "a")) None false b f.
Definition w_result (r : result) : fs := match r with Installed f => f | _ => [] end.
Definition w_after := w_result (w_install w_wheel 100 w_fs).
Definition w_site : path := [lit "site"; lit "v"].
Definition w_info : path := lit "a-1.dist-info" :: w_site.
Lemma w_insert_in : forall p q l, In q (w_insert p l) <-> q = p \/ In q l.
Proof. intros p q l. induction l as [|x l IH]; cbn [w_insert In]; [intuition|]. destruct (_ <=? _); cbn [In]; [intuition|]. rewrite IH. intuition. Qed.
Lemma w_order_same : forall l p, In p (w_order l) <-> In p l.
Proof. intros l p. induction l as [|x l IH]; [reflexivity|]. cbn [w_order fold_right]. fold (w_order l). rewrite w_insert_in. cbn [In]. rewrite IH. intuition. Qed.
Lemma w_order_inner : forall l, inner_first (w_order l).
Proof.
  assert (K : forall l, (forall a b x y, l = a ++ x :: b -> In y b -> length y <= length x) -> forall p a b x y, w_insert p l = a ++ x :: b -> In y b -> length y <= length x).
  { induction l as [|q l IH]; intros H p a b x y E I.
    - cbn in E. destruct a as [|? [|]]; [injection E as <- <-; destruct I|discriminate|discriminate].
    - cbn [w_insert] in E. destruct (length q <=? length p) eqn:L.
      + apply Nat.leb_le in L. destruct a as [|z a]; cbn [app] in E; [injection E as <- <-|injection E as _ E; exact (H a b x y E I)].
        destruct I as [<-|I]; [exact L|]. pose proof (H [] l q y eq_refl I). lia.
      + apply Nat.leb_gt in L. assert (H' : forall a b x y, l = a ++ x :: b -> In y b -> length y <= length x) by (intros a0 b0 x0 y0 E0 I0; apply (H (q :: a0) b0); [rewrite E0; reflexivity|exact I0]).
        destruct a as [|z a]; cbn [app] in E; [injection E as <- <-|injection E as _ E; exact (IH H' p a b x y E I)].
        apply w_insert_in in I. destruct I as [->|I]; [lia|]. exact (H [] l q y eq_refl I). }
  intros l a b x y E I U. assert (S : forall l a b x y, w_order l = a ++ x :: b -> In y b -> length y <= length x).
  { clear - K. induction l as [|p l IH]; intros a b x y E I; [destruct a; discriminate|]. cbn [w_order fold_right] in E. exact (K _ IH p a b x y E I). }
  pose proof (S l a b x y E I) as Z. apply under_iff in U. destruct U as (r & ->). rewrite app_length in Z. destruct r; [reflexivity|cbn [length] in Z; lia].
Qed.
Lemma w_done : forall c b f entries purelib, wf_fs f ->
  match open_wheel w_hashes w_ini c false with Ok (n, p, e, _, _) => n = lit "a-1.dist-info" /\ p = purelib /\ e = entries | Err _ => False end ->
  forall f', w_install c b f = Installed f' ->
  done w_hashes w_ini w_compile (lit "cp39") w_order w_tg c (Some (lit "a")) None false b f (lit "a-1") purelib entries f'.
Proof.
  intros c b f entries purelib W O f' I. split; [|exact w_order_same|exact W|exact I]. destruct (open_wheel _ _ _ _) as [[[[[n p] e] c'] rs]|]; [|destruct O]. destruct O as (-> & -> & ->). exists c', rs. reflexivity.
Qed.
Example w_sample : done w_hashes w_ini w_compile (lit "cp39") w_order w_tg w_wheel (Some (lit "a")) None false 100 w_fs (lit "a-1") true w_entries w_after.
Proof. apply w_done; [apply wf_check; vm_compute; reflexivity| |]; vm_compute; auto. Qed.
Notation w_brings := (brought w_tg w_site (lit "a-1") (lit "cp39") w_entries w_wheel).
Lemma w_reach : forall test, forallb test (reach w_tg w_site (lit "a-1") (lit "cp39") w_entries w_wheel) = true -> forall p, w_brings p -> test p = true.
Proof. intros test H p B. rewrite forallb_forall in H. apply H. apply reach_in. exact B. Qed.
Lemma file_reach : forall c (test : list str -> str -> bool), forallb (fun e => test (rev (fst e)) (snd e)) (tree_files [] (TDir c)) = true -> forall r s, has_file (TDir c) r s -> test r s = true.
Proof. intros c test H r s F. rewrite forallb_forall in H. specialize (H (rev r, s)). cbn [fst snd] in H. rewrite rev_involutive in H. apply H. rewrite <- (app_nil_r (rev r)). apply tree_files_in. exact F. Qed.
Example w_names : names_differ (TDir w_wheel).
Proof.
  vm_compute. repeat match goal with |- _ /\ _ => split | |- True => exact I | |- NoDup [] => apply NoDup_nil | |- NoDup (_ :: _) => apply NoDup_cons; [intro X; repeat (destruct X as [X|X]; [discriminate|]); exact X|] end.
Qed.
Example w_printable : printable w_hashes.
Proof.
  intros g s H. injection H as <-. unfold w_sum. split; [|reflexivity].
  intro I. apply in_app_or in I. destruct I as [I|I]; [cbn in I; intuition discriminate|]. pose proof (show_N_digits (N.of_nat (length s))) as X. rewrite forallb_forall in X. specialize (X _ I). discriminate.
Qed.


Definition alone_b tag tg c stem purelib entries (r : list str) (p : path) : bool :=
  forallb (fun e => path_eqb (rev (fst e)) r || path_eqb (rev (fst e)) [info_name stem; lit "RECORD"] || forallb (fun q => negb (under q p)) (places tg (site_of tg purelib) (data_of stem) (rev (fst e)))) (tree_files [] (TDir c)) &&
  forallb (fun e => negb (under (resolve_record (t_scripts tg) (e_name e)) p)) entries &&
  forallb (fun q => negb (is_python q && under (cache_of tag q) p)) (reach tg (site_of tg purelib) stem tag entries c) &&
  forallb (fun n => negb (under (n :: info_name stem :: site_of tg purelib) p)) [lit "RECORD"; lit "INSTALLER"; lit "REQUESTED"; lit "INSTALLATION_MODE"].
Lemma alone_check : forall tag tg c stem purelib entries r p, alone_b tag tg c stem purelib entries r p = true -> alone tag tg c stem purelib entries r p.
Proof.
  intros tag tg c stem purelib entries r p H. unfold alone_b in H. rewrite !andb_true_iff in H. destruct H as [[[A B] C] E]. rewrite forallb_forall in A, B, C, E. split.
  - intros r' s' p' [F N] G U. specialize (A (rev r', s')). cbn [fst] in A. rewrite rev_involutive in A. assert (I : In (rev r', s') (tree_files [] (TDir c))) by (rewrite <- (app_nil_r (rev r')); apply tree_files_in; exact F).
    specialize (A I). apply orb_true_iff in A. destruct A as [A|A]; [apply orb_true_iff in A; destruct A as [A|A]|].
    + apply path_eqb_eq. exact A.
    + exfalso. apply N. apply path_eqb_eq in A. exists []. exact A.
    + rewrite forallb_forall in A. apply places_in in G. specialize (A _ G). rewrite U in A. discriminate.
  - intros q [(e & I & _ & ->)|[(p' & P & K)|O]].
    + apply negb_true_iff. exact (B e I).
    + apply cached_iff in K. destruct K as [K ->]. apply reach_in in P. specialize (C _ P). rewrite K in C. cbn [andb] in C. apply negb_true_iff. exact C.
    + unfold own in O. apply in_map_iff in O. destruct O as (n & <- & O). apply negb_true_iff. exact (E n O).
Qed.
(** ** C162 *)
Example C162_sample : wheel_file w_wheel (info_name (lit "a-1")) [lit "a"; lit "__init__.py"] (lit "x=1") /\
  alone (lit "cp39") w_tg w_wheel (lit "a-1") true w_entries [lit "a"; lit "__init__.py"] (lit "__init__.py" :: lit "a" :: w_site) /\
  lookup w_after (lit "__init__.py" :: lit "a" :: w_site) = Some (File (lit "x=1")).
Proof.
  split; [split; [|intros (? & X); discriminate]|split; [apply alone_check; vm_compute; reflexivity|vm_compute; reflexivity]].
  eapply inside; [vm_compute; left; reflexivity|]. eapply inside; [left; reflexivity|]. constructor.
Qed.
(** the same file twice, in the site and in the data directory: one of them is lost *)
Definition w_twice := w_content w_text [(lit "m.txt", TFile "1"); (lit "a-1.data", TDir [(lit "purelib", TDir [(lit "m.txt", TFile "22")])])] [].
Theorem C162_twice_refuted : exists f', done w_hashes w_ini w_compile (lit "cp39") w_order w_tg w_twice (Some (lit "a")) None false 100 w_fs (lit "a-1") true [] f' /\
  names_differ (TDir w_twice) /\ wheel_file w_twice (lit "a-1.dist-info") [lit "m.txt"] (lit "1") /\ belongs w_tg w_site (lit "a-1.data") [lit "m.txt"] (lit "m.txt" :: w_site) /\ lookup f' (lit "m.txt" :: w_site) <> Some (File (lit "1")).
Proof.
  exists (w_result (w_install w_twice 100 w_fs)). split; [apply w_done; [apply wf_check; vm_compute; reflexivity| |]; vm_compute; auto|]. split.
  { vm_compute. repeat match goal with |- _ /\ _ => split | |- True => exact I | |- NoDup [] => apply NoDup_nil | |- NoDup (_ :: _) => apply NoDup_cons; [intro X; repeat (destruct X as [X|X]; [discriminate|]); exact X|] end. }
  split; [split; [eapply inside; [left; reflexivity|constructor]|intros (? & X); discriminate]|]. split; [apply in_site; right; reflexivity|]. vm_compute. discriminate.
Qed.
(** ** C163 *)
Example w_good : good_names w_brings w_fs.
Proof.
  intros q [B|L]; apply proper_check.
  - revert q B. apply (w_reach (fun q => forallb proper_b q)). vm_compute. reflexivity.
  - destruct (lookup w_fs q) as [n|] eqn:E; [|congruence]. apply lookup_in in E. cbn in E. repeat (destruct E as [E|E]; [injection E as <- <-; reflexivity|]). destruct E.
Qed.
Example C163_sample : w_brings (lit "run" :: t_scripts w_tg) /\ w_brings (lit "__init__.cp39.pyc" :: lit "__pycache__" :: lit "a" :: w_site) /\
  listed w_after w_info (lit "run" :: t_scripts w_tg) /\ listed w_after w_info (lit "__init__.cp39.pyc" :: lit "__pycache__" :: lit "a" :: w_site).
Proof.
  assert (A : w_brings (lit "run" :: t_scripts w_tg)) by (apply from_entry; exists (Entry "console_scripts" "run" (Ref "a" (Some (lit "main")))); split; [left; reflexivity|]; split; [left; reflexivity|reflexivity]).
  assert (B : w_brings (lit "__init__.cp39.pyc" :: lit "__pycache__" :: lit "a" :: w_site)).
  { apply (from_source _ _ _ _ _ _ [lit "a"; lit "__init__.py"] (lit "x=1") (lit "__init__.py" :: lit "a" :: w_site)); [exact (proj1 C162_sample)|apply in_site; left; discriminate|]. exists (lit "__init__"), (lit "a" :: w_site). split; [reflexivity|]. split; [discriminate|reflexivity]. }
  split; [exact A|]. split; [exact B|]. split; eapply (C163_recorded_partial _ _ _ _ _ _ _ _ _ _ _ _ _ _ _ _ w_sample w_printable); try exact A; try exact B; try (apply proper_check; vm_compute; reflexivity); try discriminate; try (intro X; vm_compute in X; repeat (destruct X as [X|X]; [discriminate|]); exact X); vm_compute; reflexivity.
Qed.
(** the file that says who has installed the package is not in the record *)
Theorem C163_installer_refuted : exists f', done w_hashes w_ini w_compile (lit "cp39") w_order w_tg w_wheel (Some (lit "a")) None false 100 w_fs (lit "a-1") true w_entries f' /\
  lookup w_fs (lit "INSTALLER" :: w_info) = None /\ lookup f' (lit "INSTALLER" :: w_info) = Some (File (lit "pkm")) /\ ~ listed f' w_info (lit "INSTALLER" :: w_info).
Proof.
  exists w_after. split; [exact w_sample|]. split; [reflexivity|]. split; [vm_compute; reflexivity|]. intros (text & l & r & n & T & L & I & R & E). vm_compute in T. injection T as <-. vm_compute in L. injection L as <-.
  repeat (destruct I as [<-|I]; [vm_compute in R; injection R as <-; vm_compute in E; discriminate|]). destruct I.
Qed.
(** ** C164 *)
Example C164_new_record_sample : new_record (lit "cp39") w_tg w_wheel w_fs (lit "a-1") true w_entries.
Proof.
  split; [reflexivity|]. intro B. apply (w_reach (fun q => negb (path_eqb q (lit "RECORD" :: w_info))) (eq_refl true)) in B. discriminate.
Qed.
(** a record with the hash of the script as it was written, not as it was shipped *)
Example C164_sample : exists text l, lookup w_after (lit "RECORD" :: w_info) = Some (File text) /\ load_records text = Ok l /\
  In (Rec (Some (lit "../bin/s")) (Some (Sig "sha256" (w_sum (lit "#!/v/bin/python" ++ [newline] ++ lit "go")))) (Some 18%N)) l /\
  In (Rec (Some (lit "a/__init__.py")) (Some (Sig "sha256" (w_sum (lit "x=1")))) (Some 3%N)) l.
Proof. eexists. eexists. split; [vm_compute; reflexivity|]. split; [vm_compute; reflexivity|]. split; vm_compute; intuition. Qed.
(** a wheel that ships compiled files: they are compiled again, but the record keeps the hash of the shipped ones *)
Definition w_shipped := w_content w_text [(lit "a", TDir [(lit "m.py", TFile "x=1"); (lit "__pycache__", TDir [(lit "m.cp39.pyc", TFile "shipped code")])])] [].
Theorem C164_compiled_refuted : exists f' text l x s, done w_hashes w_ini w_compile (lit "cp39") w_order w_tg w_shipped (Some (lit "a")) None false 100 w_fs (lit "a-1") true [] f' /\
  new_record (lit "cp39") w_tg w_shipped w_fs (lit "a-1") true [] /\
  lookup f' (lit "RECORD" :: w_info) = Some (File text) /\ load_records text = Ok l /\ In x l /\ rec_file x = Some (lit "a/__pycache__/m.cp39.pyc") /\
  lookup f' (lit "m.cp39.pyc" :: lit "__pycache__" :: lit "a" :: w_site) = Some (File s) /\ rec_hash x <> Some (Sig "sha256" (w_sum s)).
Proof.
  exists (w_result (w_install w_shipped 100 w_fs)). do 4 eexists. split; [apply w_done; [apply wf_check; vm_compute; reflexivity| |]; vm_compute; auto|]. split.
  { split; [reflexivity|]. intro B. apply reach_in in B. vm_compute in B. repeat (destruct B as [B|B]; [discriminate|]). exact B. }
  split; [vm_compute; reflexivity|]. split; [vm_compute; reflexivity|]. split; [left; reflexivity|]. split; [vm_compute; reflexivity|]. split; [vm_compute; reflexivity|]. vm_compute. discriminate.
Qed.
(** ** C165 *)
Example C165_sample : forall p, w_brings p \/ own w_info p -> under p (lit "other.py" :: w_site) = false.
Proof.
  intros p [B|O].
  - apply negb_true_iff. exact (w_reach (fun q => negb (under q (lit "other.py" :: w_site))) (eq_refl true) p B).
  - vm_compute in O. repeat (destruct O as [<-|O]; [reflexivity|]). destruct O.
Qed.
(** ** C166 *)
Lemma listed_in : forall f info text l q, lookup f (lit "RECORD" :: info) = Some (File text) -> load_records text = Ok l -> listed f info q ->
  In q (flat_map (fun r => match rec_file r with Some n => [resolve_record (parent info) n] | None => [] end) l).
Proof. intros f info text l q T L (t & l' & r & n & T' & L' & I & R & E). rewrite T in T'. injection T' as <-. rewrite L in L'. injection L' as <-. apply in_flat_map. exists r. split; [exact I|]. rewrite R. left. exact E. Qed.
Lemma listed_reach : forall f info (test : path -> bool), match lookup f (lit "RECORD" :: info) with
    | Some (File text) => match load_records text with
                          | Ok l => forallb test (flat_map (fun r => match rec_file r with Some n => [resolve_record (parent info) n] | None => [] end) l) | Err _ => true end
    | _ => true end = true -> forall q, listed f info q -> test q = true.
Proof. intros f info test H q Q. pose proof Q as (t & l & _ & _ & T & L & _). rewrite T, L in H. rewrite forallb_forall in H. apply H. exact (listed_in f info t l q T L Q). Qed.
Definition gone_b (f : fs) (q : path) : bool := match lookup f q with None => true | Some _ => false end.
Lemma gone_check : forall f q, gone_b f q = true -> lookup f q = None.
Proof. intros f q. unfold gone_b. destruct (lookup f q); [discriminate|reflexivity]. Qed.
Definition names_of (l : list record) : list str := flat_map (fun r => match rec_file r with Some n => [n] | None => [] end) l.
Lemma uninstall_check : forall info f, match lookup f (lit "RECORD" :: info) with
    | Some (File text) => match load_records text with
                          | Ok l => forallb (fun r => is_some (rec_file r)) l && forallb (fun p => negb (is_dir f p)) (installed_files info (names_of l)) | Err _ => false end
    | _ => false end = true -> exists f2, uninstalled info f f2.
Proof.
  intros info f H. destruct (lookup f _) as [[text|]|] eqn:T; try discriminate. destruct (load_records text) as [l|] eqn:L; [|discriminate]. apply andb_true_iff in H. destruct H as [A B].
  destruct (removal_exists info (names_of l) f) as (f2 & R); [intros p I; rewrite forallb_forall in B; apply negb_true_iff, B; exact I|]. exists f2, text, l, (names_of l). split; [exact T|]. split; [exact L|]. split; [|exact R].
  clear - A. unfold names_of. induction l as [|r l IH]; [reflexivity|]. cbn [forallb map flat_map] in *. apply andb_true_iff in A. destruct A as [A1 A2]. destruct (rec_file r) as [n|]; [|discriminate]. cbn [app map]. rewrite IH by exact A2. reflexivity.
Qed.
Example C166_sample : untouched_place (lit "cp39") w_tg w_wheel w_fs (lit "a-1") true w_entries w_after /\ exists f2, uninstalled w_info w_after f2.
Proof.
  split; [split|].
  - reflexivity.
  - intros q B. apply gone_check. exact (w_reach (gone_b w_fs) (eq_refl true) q B).
  - intros q L. apply gone_check. revert q L. apply listed_reach. vm_compute. reflexivity.
  - intros d q p s _ _ _ F. destruct (under (pycache d) p) eqn:U; [|reflexivity]. exfalso. apply under_iff in U. destruct U as (r & ->). apply lookup_in in F. cbn in F.
    assert (N : ~ In (lit "__pycache__") (r ++ pycache d)) by (repeat (destruct F as [F|F]; [injection F as <- _; cbn; intuition discriminate|]); destruct F).
    apply N. apply in_or_app. right. left. reflexivity.
  - apply uninstall_check. vm_compute. reflexivity.
Qed.
(** a script that was there before: overwritten by the installation and gone after the removal *)
Definition w_before : fs := w_fs ++ [([lit "bin"; lit "v"], Dir); ([lit "run"; lit "bin"; lit "v"], File (lit "mine"))].
Theorem C166_overwritten_refuted : exists f', done w_hashes w_ini w_compile (lit "cp39") w_order w_tg w_wheel (Some (lit "a")) None false 100 w_before (lit "a-1") true w_entries f' /\
  lookup w_before w_info = None /\ lookup w_before (lit "run" :: t_scripts w_tg) = Some (File (lit "mine")) /\
  (exists f2, uninstalled w_info f' f2) /\ forall f2, uninstalled w_info f' f2 -> lookup f2 (lit "run" :: t_scripts w_tg) = None.
Proof.
  exists (w_result (w_install w_wheel 100 w_before)). split; [apply w_done; [apply wf_check; vm_compute; reflexivity| |]; vm_compute; auto|]. split; [reflexivity|]. split; [reflexivity|]. split; [apply uninstall_check; vm_compute; reflexivity|].
  intros f2 (text & l & names & T & L & M & R). apply (removal_gone _ _ _ _ R). left. apply (listed_removed w_info _ text l names _ T L M). left. exists text, l.
  vm_compute in T. injection T as <-. vm_compute in L. injection L as <-. eexists. eexists. split; [vm_compute; reflexivity|]. split; [vm_compute; reflexivity|]. split; [do 6 right; left; reflexivity|]. split; [reflexivity|]. vm_compute. reflexivity.
Qed.
(** the directory for scripts was made for it and stays *)
Theorem C166_scripts_directory_refuted : exists f', done w_hashes w_ini w_compile (lit "cp39") w_order w_tg w_wheel (Some (lit "a")) None false 100 w_fs (lit "a-1") true w_entries f' /\
  untouched_place (lit "cp39") w_tg w_wheel w_fs (lit "a-1") true w_entries f' /\ lookup w_fs (t_scripts w_tg) = None /\
  (exists f2, uninstalled w_info f' f2) /\ forall f2, uninstalled w_info f' f2 -> lookup f2 (t_scripts w_tg) = Some Dir.
Proof.
  exists w_after. split; [exact w_sample|]. split; [exact (proj1 C166_sample)|]. split; [reflexivity|]. split; [exact (proj2 C166_sample)|]. intros f2 (text & l & names & T & L & M & R).
  assert (D : lookup w_after (t_scripts w_tg) = Some Dir) by (vm_compute; reflexivity). destruct (lookup f2 (t_scripts w_tg)) as [n|] eqn:E; [pose proof (removal_sub _ _ _ _ R _ _ E); congruence|]. exfalso.
  destruct (removal_dirs _ _ _ _ R _ D E) as [U|[(e & q & Q & U & EL & P)|(q & Q & U & EL & X)]]; [discriminate| |discriminate].
  apply under_iff in P. destruct P as (r & P). assert (I : In (lit "__pycache__") (t_scripts w_tg)) by (rewrite P; apply in_or_app; right; left; reflexivity). cbn in I. intuition discriminate.
Qed.
Definition kids (d : path) (f : fs) : list str := flat_map (fun e => match fst e, snd e with n :: q, Dir => if path_eqb q d then [n] else [] | _, _ => [] end) f.
Lemma kids_in : forall x d f, In (x :: d, Dir) f -> In x (kids d f).
Proof. intros x d f I. unfold kids. apply in_flat_map. exists (x :: d, Dir). split; [exact I|]. cbn [fst snd]. rewrite path_eqb_refl. left. reflexivity. Qed.
(** an empty directory of the site that the wheel has files for vanishes *)
Definition w_empty : fs := w_fs ++ [(lit "a" :: w_site, Dir)].
Theorem C166_empty_directory_refuted : exists f', done w_hashes w_ini w_compile (lit "cp39") w_order w_tg w_wheel (Some (lit "a")) None false 100 w_empty (lit "a-1") true w_entries f' /\
  untouched_place (lit "cp39") w_tg w_wheel w_empty (lit "a-1") true w_entries f' /\ lookup w_empty (lit "a" :: w_site) = Some Dir /\
  (exists f2, uninstalled w_info f' f2) /\ forall f2, uninstalled w_info f' f2 -> lookup f2 (lit "a" :: w_site) = None.
Proof.
  set (f' := w_result (w_install w_wheel 100 w_empty)).
  assert (DN : done w_hashes w_ini w_compile (lit "cp39") w_order w_tg w_wheel (Some (lit "a")) None false 100 w_empty (lit "a-1") true w_entries f') by (apply w_done; [apply wf_check; vm_compute; reflexivity| |]; vm_compute; auto).
  assert (UP : untouched_place (lit "cp39") w_tg w_wheel w_empty (lit "a-1") true w_entries f').
  { split.
    - reflexivity.
    - intros q B. apply gone_check. exact (w_reach (gone_b w_empty) (eq_refl true) q B).
    - intros q L. apply gone_check. revert q L. apply listed_reach. vm_compute. reflexivity.
    - intros d q p s _ _ _ F. destruct (under (pycache d) p) eqn:U; [|reflexivity]. exfalso. apply under_iff in U. destruct U as (r & ->). apply lookup_in in F. cbn in F.
      assert (N : ~ In (lit "__pycache__") (r ++ pycache d)) by (repeat (destruct F as [F|F]; [injection F as <- _; cbn; intuition discriminate|]); destruct F).
      apply N. apply in_or_app. right. left. reflexivity. }
  assert (GN : good_names w_brings w_empty).
  { intros q [B|L]; apply proper_check; [exact (w_reach (fun q => forallb proper_b q) (eq_refl true) q B)|].
    destruct (lookup w_empty q) as [n|] eqn:E; [|congruence]. apply lookup_in in E. cbn in E. repeat (destruct E as [E|E]; [injection E as <- <-; reflexivity|]). destruct E. }
  exists f'. split; [exact DN|]. split; [exact UP|]. split; [reflexivity|]. split; [apply uninstall_check; vm_compute; reflexivity|]. intros f2 U.
  pose proof (C166_files_partial _ _ _ _ _ _ _ _ _ _ _ _ _ _ _ _ DN w_printable GN UP f2 U) as FI. destruct U as (text & l & names & T & L & M & R).
  assert (NF : forall x d s, under (lit "a" :: w_site) d = true -> lookup f2 (x :: d) = Some (File s) -> False).
  { intros x d s U Z. apply FI in Z. apply lookup_in in Z.
    assert (LE : forall p n, In (p, n) w_empty -> length p <= 3) by (intros p n I; cbn in I; repeat (destruct I as [I|I]; [injection I as <- _; cbn; lia|]); destruct I).
    specialize (LE _ _ Z). cbn [length] in LE. apply under_len in U. cbn [length] in U. change (length w_site) with 2 in U. lia. }
  assert (NE : forall d, under (lit "a" :: w_site) d = true -> eligible w_site d = true -> is_empty_directory f' d = false -> lookup f2 d = Some Dir -> exists x, lookup f2 (x :: d) = Some Dir /\ In (x :: d, Dir) f').
  { intros d U EL NEM Z. pose proof (removal_no_empty _ _ _ _ R d EL NEM) as X. apply not_empty_iff in X. destruct X as [X|(x & X)]; [congruence|]. exists x. destruct (lookup f2 (x :: d)) as [[s|]|] eqn:Y; [exfalso; exact (NF x d s U Y)| |congruence].
    split; [reflexivity|]. apply lookup_in. exact (removal_sub _ _ _ _ R _ _ Y). }
  destruct (lookup f2 (lit "a" :: w_site)) as [[s|]|] eqn:E; [pose proof (removal_sub _ _ _ _ R _ _ E) as Z; vm_compute in Z; discriminate| |reflexivity]. exfalso.
  destruct (NE (lit "a" :: w_site)) as (x & X & I); [reflexivity|reflexivity|vm_compute; reflexivity|exact E|].
  apply kids_in in I. replace (kids (lit "a" :: w_site) f') with [lit "__pycache__"] in I by (vm_compute; reflexivity). destruct I as [<-|[]].
  destruct (NE (lit "__pycache__" :: lit "a" :: w_site)) as (y & Y & J); [reflexivity|reflexivity|vm_compute; reflexivity|exact X|].
  apply kids_in in J. replace (kids (lit "__pycache__" :: lit "a" :: w_site) f') with (@nil str) in J by (vm_compute; reflexivity). exact J.
Qed.
(** ** C167 *)
(** the module of this wheel has another content than its record says *)
Definition w_broken : content := map (fun e => if str_eqb (fst e) "a" then (lit "a", TDir [(lit "__init__.py", TFile "x=10")]) else e) w_wheel.
Example C167_mismatch_sample : exists e, w_install w_broken 100 w_fs = Refused e.
Proof. eexists. vm_compute. reflexivity. Qed.
(** the same, from the theorem: the hypotheses hold *)
Example C167_mismatch_witness : forall b f, exists e, w_install w_broken b f = Refused e.
Proof.
  intros b f. apply (C167_mismatch w_hashes w_ini w_compile (lit "cp39") w_order w_tg w_broken (Some (lit "a")) None b f (lit "a-1") [lit "a"; lit "__init__.py"] (lit "x=10")).
  - intros n t I E. cbn in I. repeat (destruct I as [I|I]; [injection I as <- _; first [discriminate|reflexivity]|]). destruct I.
  - cbn. intuition discriminate.
  - split; [|intros (? & X); discriminate]. eapply inside; [left; reflexivity|]. eapply inside; [left; reflexivity|]. constructor.
  - apply proper_check. reflexivity.
  - intros d [<-|[]]. reflexivity.
  - intros text rs x sig g HF LR I RF RH HG.
    apply (file_reach w_broken (fun r s => negb (path_eqb r [lit "a-1.dist-info"; lit "RECORD"]) || match load_records s with
      | Ok rs => forallb (fun x => match rec_file x, rec_hash x with Some n, Some sg => negb (str_eqb n "a/__init__.py") || negb (str_eqb (s_value sg) (w_sum (lit "x=10"))) | _, _ => true end) rs | Err _ => false end) (eq_refl true)) in HF.
    rewrite path_eqb_refl in HF. cbn [negb orb] in HF. rewrite LR in HF. rewrite forallb_forall in HF. specialize (HF x I). rewrite RF, RH in HF. change (str_eqb (join "/" [lit "a"; lit "__init__.py"]) "a/__init__.py") with true in HF. cbn [negb orb] in HF.
    unfold w_hashes in HG. destruct (str_eqb (s_type sig) "sha256"); [|discriminate]. injection HG as <-. apply negb_true_iff in HF. apply str_eqb_neq in HF. intro Z. apply HF. symmetry. exact Z.
Qed.
(** the copying breaks off in the middle *)
Definition w_plain := w_content w_text [(lit "a", TDir [(lit "__init__.py", TFile "x=1")]); (lit "other.py", TFile "new")] [].
Example C167_copy_sample : (exists t, run_actions 3 (tx_start w_fs) (copy_actions w_tg w_site (lit "a-1.dist-info") (prune_content w_plain)) = Raised t /\ lookup (fsys t) (lit "other.py" :: w_site) <> Some (File (lit "o"))) /\
  exists g, w_install w_plain 3 w_fs = Broken (Some g) /\ lookup g (lit "other.py" :: w_site) = Some (File (lit "o")) /\ lookup g (lit "a" :: w_site) = None.
Proof. split; [eexists; split; [vm_compute; reflexivity|vm_compute; discriminate]|]. eexists. split; [vm_compute; reflexivity|]. split; vm_compute; reflexivity. Qed.
(** a failure behind the copying: the record and the directory of compiled files stay behind *)
Theorem C167_left_behind_refuted : exists b g, w_install w_wheel b w_fs = Broken (Some g) /\ lookup w_fs w_info = None /\ lookup w_fs (lit "a" :: w_site) = None /\
  (exists text, lookup g (lit "RECORD" :: w_info) = Some (File text)) /\ lookup g (lit "__pycache__" :: lit "a" :: w_site) = Some Dir.
Proof. exists 13. eexists. split; [vm_compute; reflexivity|]. split; [reflexivity|]. split; [reflexivity|]. split; [eexists; vm_compute; reflexivity|vm_compute; reflexivity]. Qed.
(** a script that was there before is overwritten, and then deleted on the way back *)
Theorem C167_script_lost_refuted : exists b g, w_install w_wheel b w_before = Broken (Some g) /\ lookup w_before (lit "run" :: t_scripts w_tg) = Some (File (lit "mine")) /\ lookup g (lit "run" :: t_scripts w_tg) = None.
Proof. exists 11. eexists. split; [vm_compute; reflexivity|]. split; [reflexivity|vm_compute; reflexivity]. Qed.

(** ** C168 *)
(** a package that is installed over itself has every file twice in its record *)
Theorem C168_twice_refuted : exists f1 f2 text l, w_install w_wheel 100 w_fs = Installed f1 /\ w_install w_wheel 100 f1 = Installed f2 /\
  lookup f2 (lit "RECORD" :: w_info) = Some (File text) /\ load_records text = Ok l /\ ~ NoDup (map rec_file l).
Proof.
  exists w_after. do 3 eexists. split; [vm_compute; reflexivity|]. split; [vm_compute; reflexivity|]. split; [vm_compute; reflexivity|]. split; [vm_compute; reflexivity|].
  intro N. cbn [map rec_file] in N. inversion N as [|? ? X _]. apply X. cbn. intuition.
Qed.
(** a record as other installers write it, which lists itself without a hash: the installation fails and the record is cut off *)
Definition w_pip : fs := w_fs ++ [(w_info, Dir); (lit "RECORD" :: w_info, File (lit "a-1.dist-info/RECORD,," ++ [newline] ++ lit "a/__init__.py,sha256=h3,3" ++ [newline]))].
Theorem C168_foreign_record_refuted : exists g, w_install w_wheel 100 w_pip = Broken (Some g) /\ wf_fs w_pip /\
  (exists l, load_records (lit "a-1.dist-info/RECORD,," ++ [newline] ++ lit "a/__init__.py,sha256=h3,3" ++ [newline]) = Ok l /\ length l = 2) /\
  lookup g (lit "RECORD" :: w_info) = Some (File []).
Proof. eexists. split; [vm_compute; reflexivity|]. split; [apply wf_check; vm_compute; reflexivity|]. split; [eexists; split; vm_compute; reflexivity|vm_compute; reflexivity]. Qed.
(** what holds: the old records stay, in front of the new ones *)
Theorem C168_kept : forall h ini compile tag order tg c request mode skip b f stem purelib entries f' text l,
  done h ini compile tag order tg c request mode skip b f stem purelib entries f' -> printable h ->
  let record := lit "RECORD" :: info_name stem :: site_of tg purelib in
  lookup f record = Some (File text) -> load_records text = Ok l -> (forall p, brought tg (site_of tg purelib) stem tag entries c p -> under p record = false) ->
  exists text' new, lookup f' record = Some (File text') /\ load_records text' = Ok (l ++ new).
Proof.
  intros h ini compile tag order tg c request mode skip b f stem purelib entries f' text l D PH record T L NB. destruct D as [(c' & records & OP) OS OK IN].
  destruct (done_spec h ini compile tag order tg c request mode skip b f stem purelib entries c' records f' OP OS OK IN) as (f1 & f2 & f3 & old & new & text' & F1 & F2 & F3 & F4 & _ & _ & LO & S & R & _ & G2).
  pose proof (fun p => brings_iff h ini compile tag order tg c request mode skip b f stem purelib entries c' records f' OP IN p) as BI.
  assert (T3 : lookup f3 record = Some (File text)).
  { apply (fr_keep _ _ _ F3); [apply (fr_keep _ _ _ F2); [apply (fr_keep _ _ _ F1); [exact T|]|]|]; intros p P; apply NB, BI; auto. }
  unfold record in T3. unfold load_record_file in LO. rewrite T3, L in LO. injection LO as <-. exists text', new. split; [exact R|]. apply saved_loads; [exact S|].
  intros x X. apply in_app_or in X. destruct X as [X|X]; [exact (loaded_tidy text l L x X)|].
  destruct (G2 x X) as (q & s & r & sig & _ & _ & SG & ->). intros z Z. injection Z as <-. unfold sign_of in SG. destruct (dict_get (join "/" r) _) as [y|] eqn:DG.
  - subst sig. eapply pre_tidy; eassumption.
  - destruct SG as (g & H1 & ->). destruct (PH g s H1) as [A1 A2]. split; [cbn; intuition discriminate|]. split; [exact A1|]. split; [reflexivity|exact A2].
Qed.
Example C168_kept_sample : exists f2 text l, w_install w_wheel 100 w_after = Installed f2 /\ lookup w_after (lit "RECORD" :: w_info) = Some (File text) /\ load_records text = Ok l /\ length l = 7 /\
  forall p, w_brings p -> under p (lit "RECORD" :: w_info) = false.
Proof.
  do 3 eexists. split; [vm_compute; reflexivity|]. split; [vm_compute; reflexivity|]. split; [vm_compute; reflexivity|]. split; [reflexivity|].
  intros p B. apply negb_true_iff. exact (w_reach (fun q => negb (under q (lit "RECORD" :: w_info))) (eq_refl true) p B).
Qed.

(** ** C169 *)
Lemma w_script_file : wheel_file w_wheel (info_name (lit "a-1")) [data_of (lit "a-1"); lit "scripts"; lit "s"] (lit "#!python" ++ [] ++ newline :: lit "go") /\
  wheel_file w_wheel (info_name (lit "a-1")) [data_of (lit "a-1"); lit "scripts"; lit "t"] (lit "echo").
Proof.
  split; (split; [|intros (? & X); discriminate]); (eapply inside; [vm_compute; right; left; reflexivity|]); (eapply inside; [left; reflexivity|]).
  - eapply inside; [left; reflexivity|constructor].
  - eapply inside; [right; left; reflexivity|constructor].
Qed.
Example C169_sample : alone (lit "cp39") w_tg w_wheel (lit "a-1") true w_entries [data_of (lit "a-1"); lit "scripts"; lit "s"] (lit "s" :: t_scripts w_tg) /\
  alone (lit "cp39") w_tg w_wheel (lit "a-1") true w_entries [data_of (lit "a-1"); lit "scripts"; lit "t"] (lit "t" :: t_scripts w_tg) /\
  lookup w_after (lit "s" :: t_scripts w_tg) = Some (File (lit "#!/v/bin/python" ++ newline :: lit "go")) /\ lookup w_after (lit "t" :: t_scripts w_tg) = Some (File (lit "echo")).
Proof. split; [apply alone_check; vm_compute; reflexivity|]. split; [apply alone_check; vm_compute; reflexivity|]. split; vm_compute; reflexivity. Qed.
(** a script in a directory below is copied with the interpreter of nobody *)
Definition w_nested := w_content w_text [(lit "a-1.data", TDir [(lit "scripts", TDir [(lit "d", TDir [(lit "s", TFile (lit "#!python" ++ [newline] ++ lit "go"))])])])] [].
Theorem C169_nested_refuted : exists f', done w_hashes w_ini w_compile (lit "cp39") w_order w_tg w_nested (Some (lit "a")) None false 100 w_fs (lit "a-1") true [] f' /\
  lookup f' (lit "s" :: lit "d" :: t_scripts w_tg) = Some (File (lit "#!python" ++ [newline] ++ lit "go")).
Proof. exists (w_result (w_install w_nested 100 w_fs)). split; [apply w_done; [apply wf_check; vm_compute; reflexivity| |]; vm_compute; auto|]. vm_compute. reflexivity. Qed.

(** ** C170 *)
Example C170_sample : In (Entry "console_scripts" "run" (Ref "a" (Some (lit "main")))) w_entries /\
  (forall q, (exists y, w_brings y /\ cached (lit "cp39") y q) \/ own w_info q -> under q (resolve_record (t_scripts w_tg) (lit "run")) = false) /\
  lookup w_after (lit "run" :: t_scripts w_tg) = Some (File (starter (lit "/v/bin/python") (lit "a") (lit "main"))).
Proof.
  split; [left; reflexivity|]. split; [|vm_compute; reflexivity]. intros q [(y & Y & K)|O].
  - apply cached_iff in K. destruct K as [K ->]. pose proof (w_reach (fun y => negb (is_python y && under (cache_of (lit "cp39") y) (resolve_record (t_scripts w_tg) (lit "run")))) (eq_refl true) y Y) as Z. cbv beta in Z. rewrite K in Z. apply negb_true_iff. exact Z.
  - vm_compute in O. repeat (destruct O as [<-|O]; [reflexivity|]). destruct O.
Qed.
Example C170_reference_sample : ~ In ":"%char (lit "pkg.mod") /\ ~ In "["%char (lit "Main.run").
Proof. split; cbn; intuition discriminate. Qed.
(** an entry point that names a module only cannot be installed *)
Example C170_no_object : exists g, w_install (w_content w_text w_files [(lit "entry_points.txt", TFile "a")]) 100 w_fs = Broken g.
Proof. eexists. vm_compute. reflexivity. Qed.
(** two entry points of the same name, one for the console and one for windows: the launcher runs the second, and nothing is said *)
Definition w_ini_both (s : str) : res (list (str * list (str * str))) := Ok [(lit "console_scripts", [(lit "run", s)]); (lit "gui_scripts", [(lit "run", s ++ lit "_window")])].
Theorem C170_same_name_refuted : exists f' entries e,
  done w_hashes w_ini_both w_compile (lit "cp39") w_order w_tg w_wheel (Some (lit "a")) None false 100 w_fs (lit "a-1") true entries f' /\
  In e entries /\ e_group e = lit "console_scripts" /\ e_name e = lit "run" /\ e_ref e = Ref "a" (Some (lit "main")) /\
  lookup f' (resolve_record (t_scripts w_tg) (e_name e)) = Some (File (starter (lit "/v/bin/python") (lit "a") (lit "main_window"))).
Proof.
  exists (w_result (install_extracted w_hashes w_ini_both w_compile "cp39" w_order w_tg w_wheel (Some (lit "a")) None false 100 w_fs)).
  exists [Entry "console_scripts" "run" (Ref "a" (Some (lit "main"))); Entry "gui_scripts" "run" (Ref "a" (Some (lit "main_window")))], (Entry "console_scripts" "run" (Ref "a" (Some (lit "main")))).
  split; [split; [|exact w_order_same|apply wf_check; vm_compute; reflexivity|vm_compute; reflexivity]|].
  - eexists. eexists. vm_compute. reflexivity.
  - split; [left; reflexivity|]. split; [reflexivity|]. split; [reflexivity|]. split; [reflexivity|]. vm_compute. reflexivity.
Qed.

(** ** C171 *)
Example C171_sample : In (data_of (lit "a-1"), TDir [(lit "scripts", TDir [(lit "s", TFile (lit "#!python" ++ [newline] ++ lit "go")); (lit "t", TFile "echo")])]) w_wheel.
Proof. right. left. reflexivity. Qed.
(** the standard names a part for headers; a wheel with it cannot be installed *)
Definition w_headers := w_content w_text [(lit "a-1.data", TDir [(lit "headers", TDir [(lit "a.h", TFile "int x;")])])] [].
Theorem C171_headers_refuted : forall b f, wf_fs f -> exists g, w_install w_headers b f = Broken g.
Proof.
  intros b f W. destruct (w_install w_headers b f) as [e|f'|g] eqn:I; [exfalso| exfalso|eauto].
  - unfold w_install, install_extracted in I. destruct (open_wheel w_hashes w_ini w_headers false) as [[[[[n pl] es] c'] rs]|] eqn:O; [|vm_compute in O; discriminate]. destruct (transaction _ _ _ _ _ _ _ _ _ _ _ _ _ _); discriminate.
  - assert (D : done w_hashes w_ini w_compile (lit "cp39") w_order w_tg w_headers (Some (lit "a")) None false b f (lit "a-1") true [] f') by (apply w_done; [exact W| |exact I]; vm_compute; auto).
    destruct (C171_known_parts _ _ _ _ _ _ _ _ _ _ _ _ _ _ _ _ D [(lit "headers", TDir [(lit "a.h", TFile "int x;")])] (lit "headers") (TDir [(lit "a.h", TFile "int x;")])) as (dir & X); [left; reflexivity|left; reflexivity|discriminate|].
    cbn in X. repeat (destruct X as [X|X]; [discriminate|]). exact X.
Qed.

(** ** C172 *)
Example C172_sample : has_file (TDir w_wheel) [info_name (lit "a-1"); lit "WHEEL"] w_text /\ read_lines w_text = Ok [(lit "Wheel-Version", lit "1.0"); (lit "Root-Is-Purelib", lit "true")].
Proof. split; [|vm_compute; reflexivity]. eapply inside; [vm_compute; do 2 right; left; reflexivity|]. eapply inside; [left; reflexivity|constructor]. Qed.
(** a wheel of version 2 is refused, whatever the target *)
Example C172_newer : forall b f, w_install (w_content (lit "Wheel-Version: 2.0") w_files w_entry_file) b f = Refused UnsupportedOperation.
Proof. intros b f. unfold w_install, install_extracted. replace (open_wheel w_hashes w_ini (w_content (lit "Wheel-Version: 2.0") w_files w_entry_file) false) with (@Err (str * bool * list entry * content * list record) UnsupportedOperation) by (vm_compute; reflexivity). reflexivity. Qed.
(** a version without a minor number cannot be read *)
Theorem C172_short_refuted : forall b f, w_install (w_content (lit "Wheel-Version: 1") w_files w_entry_file) b f = Refused IndexError.
Proof. intros b f. unfold w_install, install_extracted. replace (open_wheel w_hashes w_ini (w_content (lit "Wheel-Version: 1") w_files w_entry_file) false) with (@Err (str * bool * list entry * content * list record) IndexError) by (vm_compute; reflexivity). reflexivity. Qed.

Print Assumptions C162_placed_partial.
Print Assumptions C163_recorded_partial.
Print Assumptions C165_untouched.
Print Assumptions C165_new_files.
Print Assumptions C163_complete_partial.
Print Assumptions C164_computed_partial.
Print Assumptions C164_verified_partial.
Print Assumptions C166_files_partial.
Print Assumptions C166_directories_partial.
Print Assumptions C166_no_new_directories_partial.
Print Assumptions C169_scripts_partial.
Print Assumptions C169_others_partial.
Print Assumptions C170_launchers_partial.
Print Assumptions C171_known_parts.
Print Assumptions C172_version.
Print Assumptions C167_mismatch.
Print Assumptions C167_copy_partial.
Print Assumptions C170_reference.
Print Assumptions C162_twice_refuted.
Print Assumptions C163_installer_refuted.
Print Assumptions C164_compiled_refuted.
Print Assumptions C166_overwritten_refuted.
Print Assumptions C166_scripts_directory_refuted.
Print Assumptions C166_empty_directory_refuted.
Print Assumptions C167_left_behind_refuted.
Print Assumptions C167_script_lost_refuted.
Print Assumptions C168_twice_refuted.
Print Assumptions C168_foreign_record_refuted.
Print Assumptions C168_kept.
Print Assumptions C169_nested_refuted.
Print Assumptions C171_headers_refuted.
Print Assumptions C172_short_refuted.
