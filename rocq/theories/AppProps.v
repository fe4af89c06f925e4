(** Properties of the wheels of applications and of the script that installs pkm: C293, C294. *)
From Coq Require Import String Ascii List Bool NArith Arith Lia Sorted.
From Verif Require Import Base BaseFacts ParserModel VersionModel SpecifierModel NamesModel VersionParserModel BuilderModel LauncherModel LauncherProofs LauncherProps AppModel.
Import ListNotations.
Open Scope string_scope.
Open Scope nat_scope.
Open Scope list_scope.
Open Scope bool_scope.

Lemma Ok_inj : forall A (a b : A), Ok a = Ok b -> a = b.
Proof. congruence. Qed.

(** ** C293: the commands of an application that is installed from its wheel *)
(** the path of an interpreter that a system can start: see C291 *)
Definition startable (buf : nat) (i : str) : Prop :=
  i <> [] /\ (forall c, In c i -> c <> " "%char /\ c <> "009"%char /\ c <> "000"%char /\ c <> "010"%char) /\ length i + 3 <= buf.
(** a project that is installed directly has its commands run by the interpreter of the environment *)
Theorem C293_project : forall buf a i name body, startable buf i -> In (name, body) (a_scripts a) ->
  exists text, In (a_dir a ++ lit "/__container__/bin/" ++ name, text) (install_project a i) /\ started buf text = Some (i, []).
Proof.
  intros buf a i name body Hi Hin. exists (posix_script i body). split.
  - apply in_or_app. left. apply in_map_iff. exists (name, body). split; [reflexivity|exact Hin].
  - apply C291_exactly. exact Hi.
Qed.
(** with the wheel each of them is run by an interpreter that was removed when the wheel was built, whatever the environment is *)
Theorem C293_wheel_refuted : forall buf a temporary i name body, startable buf temporary -> i <> temporary -> In (name, body) (a_scripts a) ->
  exists text, In (a_dir a ++ lit "/__container__/bin/" ++ name, text) (install_wheel (build_app_wheel a temporary) i) /\
    started buf text = Some (temporary, []) /\ started buf text <> Some (i, []).
Proof.
  intros buf a temporary i name body Ht Hne Hin. destruct (C293_project buf a temporary name body Ht Hin) as (text & Hx & Hs).
  exists text. split; [exact Hx|]. split; [exact Hs|]. rewrite Hs. intros X. injection X as X. congruence.
Qed.
(** the name of the wheel says that it suits every platform, whatever is in it *)
Theorem C293_platform_refuted : forall current name version requires file, wheel_file_name current name version requires = Ok file ->
  exists first, file = first ++ lit "-none-any.whl".
Proof.
  intros * H. unfold wheel_file_name in H. destruct (python_tag current requires) as [tag|]; [|discriminate]. unfold bind in H.
  destruct (normalize_src_package_name name) as [src|]; [|discriminate]. apply Ok_inj in H. subst file.
  exists (src ++ lit "-" ++ version ++ lit "-" ++ tag). rewrite <- !app_assoc. reflexivity.
Qed.
Example C293_example :
  let a := {| a_dir := lit "tool"; a_scripts := [(lit "helper", lit "import helper")]; a_files := [(lit "tool/__container__/site/fast.so", lit "ELF")] |} in
  install_wheel (build_app_wheel a (lit "/tmp/x1/env/bin/python3")) (lit "/home/me/env/bin/python3") =
    [(lit "tool/__container__/bin/helper", lit "#!/tmp/x1/env/bin/python3" ++ ["010"%char] ++ lit "import helper"); (lit "tool/__container__/site/fast.so", lit "ELF")] /\
  startable 256 (lit "/tmp/x1/env/bin/python3") /\
  wheel_file_name 3 (lit "tool") (lit "1.0") AllowAll = Ok (lit "tool-1.0-py3-none-any.whl").
Proof.
  split; [reflexivity|]. split; [|vm_compute; reflexivity]. split; [discriminate|]. split; [|vm_compute; lia].
  assert (H : forallb (fun c => negb (Ascii.eqb c " " || Ascii.eqb c "009" || Ascii.eqb c "000" || Ascii.eqb c "010")) (lit "/tmp/x1/env/bin/python3") = true) by (vm_compute; reflexivity).
  rewrite forallb_forall in H. intros c Hc. apply H in Hc. repeat split; intros ->; discriminate.
Qed.

(** ** C294: pkm is installed with its newest release *)
(** [b] is a later version than [a] *)
Definition later (a b : str) : Prop :=
  exists v w r r', read_version (PS [] a) = Ok (v, r) /\ read_version (PS [] b) = Ok (w, r') /\ sv_ltb v w = true.
(** if the answer has the releases from the first to the last, the newest one is used *)
Theorem C294_newest_partial : forall releases url, bootstrap releases = Ok url -> StronglySorted later (map fst releases) ->
  exists v files f, In (v, files) releases /\ In f files /\ r_kind f = lit "sdist" /\ r_url f = url /\
    forall w fs, In (w, fs) releases -> w = v \/ later w v.
Proof.
  intros releases url H S. unfold bootstrap in H. destruct (rev releases) as [|[v files] r] eqn:E; [discriminate|].
  destruct (find _ files) as [f|] eqn:Ef; [|discriminate]. apply Ok_inj in H. apply find_some in Ef. destruct Ef as [Hf Hk]. apply str_eqb_eq in Hk.
  assert (E2 : releases = rev r ++ [(v, files)]) by (rewrite <- (rev_involutive releases), E; reflexivity).
  exists v, files, f. split; [rewrite E2; apply in_or_app; right; left; reflexivity|]. repeat (split; [assumption|]).
  intros w fs Hin. rewrite E2 in Hin. apply in_app_or in Hin. destruct Hin as [Hin|[Hin|[]]]; [|left; congruence]. right.
  rewrite E2, map_app in S. cbn [map fst] in S. clear - Hin S. induction (rev r) as [|[a b] l IH]; [contradiction|].
  cbn [map app fst] in S. inversion S as [|x y S2 F]. subst. destruct Hin as [Hin|Hin]; [|exact (IH S2 Hin)]. injection Hin as -> ->.
  rewrite Forall_forall in F. apply F. apply in_or_app. right. left. reflexivity.
Qed.
(** the index answers in the order of the texts: then an older release is used, or a pre-release of the newest one *)
Definition rel (v : string) : str * list release_file := (lit v, [{| r_kind := lit "bdist_wheel"; r_url := lit v ++ lit ".whl" |}; {| r_kind := lit "sdist"; r_url := lit v ++ lit ".tar.gz" |}]).
Theorem C294_text_order_refuted : exists releases url, StronglySorted (fun a b => str_ltb a b = true) (map fst releases) /\ bootstrap releases = Ok url /\
  url = lit "0.9.tar.gz" /\ later (lit "0.9") (lit "0.10") /\ In (lit "0.10") (map fst releases).
Proof.
  exists [rel "0.10"; rel "0.9"], (lit "0.9.tar.gz"). split; [repeat constructor|]. split; [reflexivity|]. split; [reflexivity|]. split; [|left; reflexivity].
  do 4 eexists. split; [vm_compute; reflexivity|]. split; vm_compute; reflexivity.
Qed.
Theorem C294_prerelease_refuted : exists releases url, StronglySorted (fun a b => str_ltb a b = true) (map fst releases) /\ bootstrap releases = Ok url /\
  url = lit "1.0a1.tar.gz" /\ later (lit "1.0a1") (lit "1.0") /\ In (lit "1.0") (map fst releases).
Proof.
  exists [rel "1.0"; rel "1.0a1"], (lit "1.0a1.tar.gz"). split; [repeat constructor|]. split; [reflexivity|]. split; [reflexivity|]. split; [|left; reflexivity].
  do 4 eexists. split; [vm_compute; reflexivity|]. split; vm_compute; reflexivity.
Qed.
(** nothing is installed if the last release has no source archive, whatever the others have *)
Theorem C294_no_archive_refuted : forall others v files, (forall f, In f files -> r_kind f <> lit "sdist") ->
  bootstrap (others ++ [(v, files)]) = Err OtherErr.
Proof.
  intros others v files H. unfold bootstrap. rewrite rev_unit. destruct (find _ files) as [f|] eqn:E; [|reflexivity].
  apply find_some in E. destruct E as [Hin Hk]. apply str_eqb_eq in Hk. exfalso. exact (H f Hin Hk).
Qed.
Example C294_example : bootstrap [rel "0.1"; rel "0.2"; rel "0.3"] = Ok (lit "0.3.tar.gz") /\ StronglySorted later [lit "0.1"; lit "0.2"; lit "0.3"] /\
  bootstrap [rel "0.1"; (lit "0.2", [{| r_kind := lit "bdist_wheel"; r_url := lit "0.2.whl" |}])] = Err OtherErr.
Proof.
  split; [reflexivity|]. split; [|reflexivity].
  assert (L : forall a b v w r r', read_version (PS [] a) = Ok (v, r) -> read_version (PS [] b) = Ok (w, r') -> sv_ltb v w = true -> later a b) by (intros a b v w r r' X Y Z; exists v, w, r, r'; auto).
  repeat constructor; eapply L; vm_compute; reflexivity.
Qed.
