(** C173 - C180: packages of conda channels. *)
From Coq Require Import String Ascii List Bool NArith Arith Lia Permutation.
From Verif Require Import Base BaseFacts NamesModel VersionModel VersionSpec VersionParse VersionProofs VersionProps SpecifierModel SpecifierSpec SpecifierProofs SpecifierProps
  SpecParse SpecParseProofs TagsModel TagsSpec CollectionModel CollectionProofs IndexModel IndexProofs LocalModel CondaModel CondaProofs.
From Verif Require MarkerProps.
Import ListNotations.
Open Scope string_scope.
Open Scope nat_scope.
Open Scope list_scope.
Open Scope bool_scope.

(** *** C173: the subdirectory of a platform *)
(** what conda calls the platforms; [machine] is what the operating system reports *)
Inductive conda_platform : str -> str -> N -> str -> Prop :=
| cp_linux64 : forall c, In c [lit "x86_64"; lit "amd64"] -> conda_platform (lit "linux") c 64%N (lit "linux-64")
| cp_linux32 : forall c, In c [lit "i386"; lit "i686"; lit "x86"; lit "x86_64"] -> conda_platform (lit "linux") c 32%N (lit "linux-32")
| cp_linux_arm : conda_platform (lit "linux") (lit "aarch64") 64%N (lit "linux-aarch64")
| cp_mac : conda_platform (lit "darwin") (lit "x86_64") 64%N (lit "osx-64")
| cp_mac_arm : conda_platform (lit "darwin") (lit "arm64") 64%N (lit "osx-arm64")
| cp_win64 : conda_platform (lit "windows") (lit "amd64") 64%N (lit "win-64")
| cp_win32 : forall c, In c [lit "x86"; lit "amd64"] -> conda_platform (lit "windows") c 32%N (lit "win-32").
(** Missing: the machines "i686" and "arm64", below. *)
Theorem C173_subdir_partial : forall os c bits s, conda_platform os c bits s -> c <> lit "i686" -> c <> lit "arm64" -> subdir_of (Platform os c bits) = Ok s.
Proof.
  intros os c bits s H N1 N2. destruct H as [c I|c I| | | | |c I]; try contradiction; try reflexivity; cbn in I;
    repeat (destruct I as [<-|I]; [first [reflexivity|exfalso; apply N1; reflexivity|exfalso; apply N2; reflexivity]|]); destruct I.
Qed.
Print Assumptions C173_subdir_partial.
Example C173_sample : conda_platform (lit "linux") (lit "x86_64") 64 (lit "linux-64") /\ subdir_of (Platform (lit "linux") (lit "x86_64") 64) = Ok (lit "linux-64").
Proof. split; [constructor; left; reflexivity|reflexivity]. Qed.
(** an answer belongs to the operating system and the bits of the platform, to no other *)
Theorem C173_own_platform : forall p s, subdir_of p = Ok s ->
  exists c, In (pl_os p, pl_bits p, c, s)
    [(lit "linux", 64%N, lit "x86", lit "linux-64"); (lit "linux", 32%N, lit "x86", lit "linux-32"); (lit "linux", 64%N, lit "arm", lit "linux-aarch64");
     (lit "darwin", 64%N, lit "arm", lit "osx-arm64"); (lit "darwin", 64%N, lit "x86", lit "osx-64"); (lit "windows", 64%N, lit "x86", lit "win-64");
     (lit "windows", 32%N, lit "x86", lit "win-32")] /\
    (c = lit "x86" /\ In (pl_machine p) [lit "i386"; lit "amd64"; lit "x86"; lit "x86_64"] \/
     c = lit "arm" /\ exists a b, pl_machine p = a ++ lit "aarch64" ++ b \/ pl_machine p = a ++ lit "armv71" ++ b).
Proof.
  intros [os c bits] s H. unfold subdir_of in H. cbn [pl_os pl_bits pl_machine] in *. unfold bind in H.
  assert (K : forall cpu, In cpu [lit "x86"; lit "arm"] -> forall t, dict_get (os ++ lit "-" ++ show_N bits ++ lit "-" ++ cpu) subdir_by_platform = Some t ->
    In (os, bits, cpu, t)
    [(lit "linux", 64%N, lit "x86", lit "linux-64"); (lit "linux", 32%N, lit "x86", lit "linux-32"); (lit "linux", 64%N, lit "arm", lit "linux-aarch64");
     (lit "darwin", 64%N, lit "arm", lit "osx-arm64"); (lit "darwin", 64%N, lit "x86", lit "osx-64"); (lit "windows", 64%N, lit "x86", lit "win-64");
     (lit "windows", 32%N, lit "x86", lit "win-32")]).
  { intros cpu IC t D.
    assert (J : forall o (b : str) q, forallb is_digit b = true -> b <> [] -> In q [lit "x86"; lit "arm"] -> os ++ lit "-" ++ show_N bits ++ lit "-" ++ cpu = o ++ lit "-" ++ b ++ lit "-" ++ q ->
      os = o /\ show_N bits = b /\ cpu = q).
    { intros o b q B _ Q E. apply (f_equal (@rev ascii)) in E. rewrite !rev_app_distr in E. rewrite <- !app_assoc in E.
      assert (R : forall (x y : str) z w, ~ In "-"%char x -> ~ In "-"%char y -> x ++ rev (lit "-") ++ z = y ++ rev (lit "-") ++ w -> x = y /\ z = w).
      { intros x y z w X Y F. change (rev (lit "-")) with ["-"%char] in F. cbn [app] in F. revert y Y F. induction x as [|a x IH]; intros [|e y] Y F.
        - injection F as <-. auto.
        - injection F as <- _. destruct Y. left. reflexivity.
        - injection F as -> _. destruct X. left. reflexivity.
        - injection F as -> F. destruct (IH (fun I => X (or_intror I)) y (fun I => Y (or_intror I)) F) as [-> ->]. auto. }
      apply R in E; [|cbn in IC; destruct IC as [<-|[<-|[]]]; intro I; vm_compute in I; intuition discriminate|cbn in Q; destruct Q as [<-|[<-|[]]]; intro I; vm_compute in I; intuition discriminate].
      destruct E as [E1 E]. apply R in E; [|rewrite <- in_rev; apply digits_no; reflexivity|].
      - destruct E as [E2 E3]. split; [rewrite <- (rev_involutive os), E3; apply rev_involutive|]. split; [rewrite <- (rev_involutive (show_N bits)), E2; apply rev_involutive|].
        rewrite <- (rev_involutive cpu), E1. apply rev_involutive.
      - rewrite <- in_rev. intro I. rewrite forallb_forall in B. specialize (B _ I). discriminate B. }
    assert (J2 : forall o n q key, key = o ++ lit "-" ++ show_N n ++ lit "-" ++ q -> In q [lit "x86"; lit "arm"] -> str_eqb (os ++ lit "-" ++ show_N bits ++ lit "-" ++ cpu) key = true -> os = o /\ bits = n /\ cpu = q).
    { intros o n q key -> Q E. apply str_eqb_eq in E. apply J in E; [|apply show_N_digits|apply show_N_nonempty|exact Q]. destruct E as (-> & E & ->). apply show_N_inj in E. auto. }
    unfold subdir_by_platform in D. cbn [dict_get] in D.
    Ltac one J2 D o n q := destruct (str_eqb _ _) eqn:?E in D;
      [injection D as <-; match goal with E : str_eqb _ _ = true |- _ => apply (J2 (lit o) n (lit q)) in E; [destruct E as (-> & -> & ->); cbn [In]; tauto|reflexivity|cbn; tauto] end|].
    one J2 D "linux" 64%N "x86". one J2 D "linux" 32%N "x86". one J2 D "linux" 64%N "arm". one J2 D "darwin" 64%N "arm". one J2 D "darwin" 64%N "x86".
    one J2 D "windows" 64%N "x86". one J2 D "windows" 32%N "x86".
    destruct (str_eqb _ (lit "any")) eqn:E8; [|discriminate]. exfalso. apply str_eqb_eq in E8. assert (I : In "-"%char (lit "any")) by (rewrite <- E8; apply in_or_app; right; left; reflexivity).
    vm_compute in I. intuition discriminate. }
  destruct (has_x86_cpu (Platform os c bits)) eqn:X.
  - destruct (dict_get _ _) as [t|] eqn:D; [|discriminate]. injection H as ->. exists (lit "x86"). split; [apply K; [left; reflexivity|exact D]|].
    left. split; [reflexivity|]. unfold has_x86_cpu, str_mem in X. cbn [pl_machine] in X. apply existsb_exists in X. destruct X as (y & I & E). apply str_eqb_eq in E. subst y. exact I.
  - destruct (has_arm_cpu (Platform os c bits)) eqn:A; [|discriminate]. destruct (dict_get _ _) as [t|] eqn:D; [|discriminate]. injection H as ->.
    exists (lit "arm"). split; [apply K; [right; left; reflexivity|exact D]|]. right. split; [reflexivity|]. unfold has_arm_cpu in A. cbn [pl_machine] in A.
    apply orb_true_iff in A. destruct A as [A|A]; apply MarkerProps.contains_iff in A; destruct A as (a & b & ->); exists a, b; auto.
Qed.
Print Assumptions C173_own_platform.
(** a mac with an arm processor reports "arm64", a linux of 32 bits "i686": both are refused *)
Theorem C173_apple_silicon_refuted : exists os c bits s, conda_platform os c bits s /\ subdir_of (Platform os c bits) = Err UnsupportedOperation.
Proof. exists (lit "darwin"), (lit "arm64"), 64%N, (lit "osx-arm64"). split; [constructor|reflexivity]. Qed.
Print Assumptions C173_apple_silicon_refuted.
Theorem C173_i686_refuted : exists os c bits s, conda_platform os c bits s /\ os = lit "linux" /\ subdir_of (Platform os c bits) = Err UnsupportedOperation.
Proof. exists (lit "linux"), (lit "i686"), 32%N, (lit "linux-32"). split; [constructor; right; left; reflexivity|]. split; reflexivity. Qed.
Print Assumptions C173_i686_refuted.

(** *** C174: what a channel offers *)
Definition here (s : str) : str := s.
Definition entry (file name version build : string) (n : N) (depends : list string) : artifact :=
  (lit file, Info (lit name) (lit version) (lit build) n (map lit depends)).
Definition cpython (minor : N) : machine :=
  Machine (lit "cp") (3, minor)%N false false false None Linux (lit "linux-x86_64") false (Some (2, 31)%N) None (0, 0)%N [].
Definition linux : platform := Platform (lit "linux") (lit "x86_64") 64.
Definition main : str := lit "https://repo.example.org/main".
Definition only (sd : string) (l : list artifact) (channel subdir : str) : res repodata :=
  Ok (Repodata (if str_eqb subdir (lit sd) then l else []) []).
Definition spec_of (t : string) : spec := match parse_conda_spec here (lit t) with Ok s => s | Err _ => RestrictAll end.
(** the packages that are found: exactly the allowed versions of the index of the platform, each with all of its files.
    Missing: the index of the packages for every platform, and files of the newer format, below. *)
Theorem C174_offered_partial : forall fetch channel pl name s l, required_url s = None -> conda_do_match fetch channel pl name s = Ok l ->
  exists subdir r, subdir_of pl = Ok subdir /\ fetch channel subdir = Ok r /\
    (forall v sd i p, In (v, (sd, i, p)) l <->
       sd = subdir /\ i = r /\ package_version p = Ok v /\ allows s v = true /\ cp_name p = name /\ cp_artifacts p <> [] /\
       cp_artifacts p = filter (fun a => str_eqb (i_name (snd a)) name && str_eqb (i_version (snd a)) (cp_version p)) (r_packages r)) /\
    NoDup (map (fun x => cp_version (snd (snd x))) l).
Proof.
  intros fetch channel pl name s l U H. unfold conda_do_match in H. rewrite U in H. unfold bind in H.
  destruct (subdir_of pl) as [subdir|] eqn:S; [|discriminate]. destruct (fetch channel subdir) as [r|] eqn:F; [|discriminate].
  destruct (filter_version (allows s) (general_package r name)) as [k|] eqn:K; [|discriminate]. injection H as <-.
  exists subdir, r. split; [reflexivity|]. split; [exact F|]. pose proof (sort_perm (@fst version cpackage) k) as P. split.
  - intros v sd i p. rewrite in_map_iff. split.
    + intros ([w q] & E & I). cbn [fst snd] in E. injection E as <- <- <- <-. apply (Permutation_in _ P) in I.
      apply (filter_version_in _ _ _ K) in I. destruct I as (I & V & A). apply in_general in I. destruct I as (N & B & C). auto 8.
    + intros (-> & -> & V & A & N & C & B). exists (v, p). split; [reflexivity|]. apply (Permutation_in _ (Permutation_sym P)).
      apply (filter_version_in _ _ _ K). split; [|auto]. apply in_general. auto.
  - rewrite map_map. cbn [snd]. apply (Permutation_NoDup (l := map (fun x => cp_version (snd x)) k)); [apply Permutation_map, Permutation_sym, P|].
    destruct (filter_version_sub _ _ _ K) as (keep & E). rewrite <- (map_map snd cp_version), E. unfold general_package.
    apply nodup_filter. assert (G : forall q, NoDup (map (fun p => (cp_name p, cp_version p)) q) -> NoDup (map cp_version (filter (fun p => str_eqb (cp_name p) name) q))).
    { intros q. induction q as [|x q IH]; intro H; [constructor|]. cbn in H. inversion H as [|? ? N H2]; subst. cbn [filter]. destruct (str_eqb (cp_name x) name) eqn:E1; [|auto].
      cbn [map]. constructor; [|auto]. intro I. apply N. apply in_map_iff in I. destruct I as (y & E2 & I). apply filter_In in I. destruct I as [I E3].
      apply str_eqb_eq in E1, E3. apply in_map_iff. exists y. split; [congruence|exact I]. }
    apply G, channel_once.
Qed.
Print Assumptions C174_offered_partial.
Definition numpy : list artifact :=
  [entry "numpy-1.20.1-py38_0.tar.bz2" "numpy" "1.20.1" "py38_0" 0 ["python >=3.8,<3.9.0a0"; "mkl 2021.*"];
   entry "numpy-1.21.2-py38_0.tar.bz2" "numpy" "1.21.2" "py38_0" 0 ["python >=3.8,<3.9.0a0"];
   entry "numpy-1.21.2-py39_0.tar.bz2" "numpy" "1.21.2" "py39_0" 0 ["python >=3.9,<3.10.0a0"];
   entry "mkl-2021.4-0.tar.bz2" "mkl" "2021.4" "0" 0 []].
Example C174_sample : required_url (spec_of ">=1.20") = None /\
  (do l <- conda_do_match (only "linux-64" numpy) main linux (lit "numpy") (spec_of ">=1.20"); Ok (map (fun x => (cp_version (snd (snd x)), length (cp_artifacts (snd (snd x))))) l))
  = Ok [(lit "1.21.2", 2); (lit "1.20.1", 1)].
Proof. split; vm_compute; reflexivity. Qed.
(** [six] is there for every platform, and is not found *)
Theorem C174_noarch_refuted : exists fetch r a, fetch main (lit "noarch") = Ok r /\ In a (r_packages r) /\ i_name (snd a) = lit "six" /\
  conda_match here fetch (cpython 9) main linux (lit "six") AllowAll = Ok [].
Proof.
  exists (only "noarch" [entry "six-1.16-py_0.tar.bz2" "six" "1.16" "py_0" 0 ["python"]]). eexists. exists (entry "six-1.16-py_0.tar.bz2" "six" "1.16" "py_0" 0 ["python"]).
  split; [reflexivity|]. split; [left; reflexivity|]. split; [reflexivity|]. vm_compute. reflexivity.
Qed.
Print Assumptions C174_noarch_refuted.
(** files that end with ".conda" are listed in a table of their own, which is not read *)
Theorem C174_conda_files_refuted : exists fetch r a, fetch main (lit "linux-64") = Ok r /\ In a (r_conda r) /\ i_name (snd a) = lit "six" /\
  conda_match here fetch (cpython 9) main linux (lit "six") AllowAll = Ok [].
Proof.
  exists (fun _ _ => Ok (Repodata [] [entry "six-1.16-py39_0.conda" "six" "1.16" "py39_0" 0 ["python >=3.9,<3.10"]])). eexists. exists (entry "six-1.16-py39_0.conda" "six" "1.16" "py39_0" 0 ["python >=3.9,<3.10"]).
  split; [reflexivity|]. split; [left; reflexivity|]. split; [reflexivity|]. vm_compute. reflexivity.
Qed.
Print Assumptions C174_conda_files_refuted.

(** *** C175: version requirements of conda *)
(** "1.2.*" is read as the versions whose release numbers begin with 1.2. Missing: pre-releases, below. *)
Theorem C175_series_partial : forall x, x <> [] -> exists s, parse_conda_spec here (join (lit ".") (map show_N x) ++ lit ".*") = Ok s /\
  forall r, r <> [] -> (allows s (VStd (SV r None None None None None)) = true <-> forall i n, nth_error x i = Some n -> nth i r 0%N = n).
Proof.
  intros x X. destruct (parse_star here x X) as (s & E & V). exists s. split; [exact E|]. intros r R. change (SV r None None None None None) with (sv_plain r).
  rewrite V by (split; [apply plain_vs; exact R|reflexivity]). apply series_begins. exact X.
Qed.
Print Assumptions C175_series_partial.
Example C175_series_sample : lit "1.2.*" = join (lit ".") (map show_N [1; 2]%N) ++ lit ".*" /\
  map (fun r => allows (spec_of "1.2.*") (VStd (SV r None None None None None))) [[1; 2]%N; [1; 2; 9]%N; [1; 20]%N; [1; 3]%N] = [true; true; false; false].
Proof. split; vm_compute; reflexivity. Qed.
(** alternatives. Missing: alternatives that allow everything or nothing *)
Theorem C175_alternatives_partial : forall channel subdir r name options specs, ~ In " "%char name -> 2 <= length options ->
  (forall o, In o options -> ~ In "|"%char o /\ ~ In " "%char o) -> Forall2 (fun o s => parse_conda_spec here o = Ok s) options specs ->
  Forall (fun s => s <> AllowAll /\ s <> RestrictAll) specs ->
  exists s, parse_conda_dependency here channel subdir r (name ++ lit " " ++ join (lit "|") options) = Ok (name, s) /\
    forall v, allows s v = true <-> exists t, In t specs /\ allows t v = true.
Proof.
  intros channel subdir r name options specs N L O F S. unfold parse_conda_dependency. change (name ++ lit " " ++ join (lit "|") options) with (name ++ " "%char :: join (lit "|") options).
  assert (J : ~ In " "%char (join (lit "|") options)).
  { clear -O. induction options as [|a l IH]; [intros []|]. destruct l as [|b l]; [cbn; apply O; left; reflexivity|]. cbn [join]. rewrite !in_app_iff. intros [I|[I|I]].
    - destruct (O a (or_introl eq_refl)) as [_ X]. exact (X I).
    - vm_compute in I. intuition discriminate.
    - revert I. apply IH. intros o Io. apply O. right. exact Io. }
  rewrite split_on_app, split_on_single by assumption. rewrite split_pipe; [|destruct options; [cbn in L; lia|discriminate]|intros o I; apply O, I].
  pose proof (proj2 (all_ok_forall2 (parse_conda_spec here) options specs) F) as A. rewrite A. cbn [bind].
  assert (LS : length specs = length options) by exact (all_ok_length _ _ _ A).
  destruct (mk_union specs) as [u|] eqn:U.
  - exists u. split; [|intro v; apply union_allows; exact U]. destruct specs as [|a [|b specs]]; [cbn in LS; lia|cbn in LS; lia|]. reflexivity.
  - exfalso. unfold mk_union in U. destruct (length specs <=? 1) eqn:Q; [apply Nat.leb_le in Q; lia|]. destruct (existsb _ specs) eqn:X; [|discriminate].
    apply existsb_exists in X. destruct X as (t & I & X). rewrite Forall_forall in S. destruct (S t I) as [S1 S2]. destruct t; try discriminate; contradiction.
Qed.
Print Assumptions C175_alternatives_partial.
Example C175_alternatives_sample : parse_conda_spec here (lit "1.8") = Ok (Match (VStd (sv_plain [1; 8]%N)) true) /\
  (do d <- parse_conda_dependency here main (lit "linux-64") (Repodata [] []) (lit "hdf5 1.8|>=1.10,<1.12");
   Ok (fst d, map (fun r => allows (snd d) (VStd (sv_plain r))) [[1; 8]%N; [1; 9]%N; [1; 10; 4]%N; [1; 12]%N])) = Ok (lit "hdf5", [true; false; true; false]).
Proof. split; vm_compute; reflexivity. Qed.
(** pre-releases of the next version count as members of the series *)
Theorem C175_next_pre_release_refuted : exists s v, parse_conda_spec here (lit "1.2.*") = Ok s /\ parse_version (lit "1.3a1") = Ok v /\ allows s v = true.
Proof. do 2 eexists. repeat split. Qed.
Print Assumptions C175_next_pre_release_refuted.
(** a star that follows a number directly is skipped: only the number itself is allowed *)
Theorem C175_glued_star_refuted : exists s v w, parse_conda_spec here (lit "2.7*") = Ok s /\ parse_version (lit "2.7.18") = Ok v /\ allows s v = false /\
  parse_version (lit "2.7") = Ok w /\ allows s w = true.
Proof. do 3 eexists. repeat split. Qed.
Print Assumptions C175_glued_star_refuted.
(** a version with a letter ends the requirement: what follows is not read *)
Theorem C175_letter_refuted : exists s v, parse_conda_spec here (lit ">=1.1.1g,<1.1.2") = Ok s /\ parse_version (lit "3.0") = Ok v /\ allows s v = true.
Proof. do 2 eexists. repeat split. Qed.
Print Assumptions C175_letter_refuted.
(** "anything or 1.8" cannot be read *)
Theorem C175_any_alternative_refuted : parse_conda_dependency here main (lit "linux-64") (Repodata [] []) (lit "hdf5 1.8|*") = Err AssertionError.
Proof. vm_compute. reflexivity. Qed.
Print Assumptions C175_any_alternative_refuted.

(** *** C176: builds *)
Definition build_spec (version : str) : res spec := if str_eqb version (lit "*") then Ok AllowAll else parse_specifier here (lit "==" ++ version).
(** every build that follows the pattern is found *)
Theorem C176_builds_found : forall r name version build l s a v, match_artifacts_by_build here r name version build = Ok l -> build_spec version = Ok s ->
  In a (r_packages r) -> i_name (snd a) = name -> parse_version (i_version (snd a)) = Ok v -> allows s v = true -> pattern build (i_build (snd a)) -> In a l.
Proof.
  intros r name version build l s a v H S I N V A P. unfold match_artifacts_by_build in H. destruct build as [|c build]; [discriminate|].
  fold (build_spec version) in H. rewrite S in H. cbn [bind] in H. destruct (filter_version _ _) as [k|] eqn:K; [|discriminate]. cbn [bind] in H. injection H as <-.
  apply filter_In. split; [|refine (proj2 (build_match_pattern (c :: build) (i_build (snd a))) _); exists (i_build (snd a)), []; rewrite app_nil_r; auto].
  set (p := CPackage name (i_version (snd a)) (entries r name (i_version (snd a)))).
  assert (IE : In a (entries r name (i_version (snd a)))). { unfold entries. apply filter_In. split; [exact I|]. rewrite N, !str_eqb_refl. reflexivity. }
  assert (G : In p (general_package r name)). { apply in_general. cbn. split; [reflexivity|]. split; [reflexivity|]. intro E. cbn in E. rewrite E in IE. exact IE. }
  assert (T : exists w, package_version p = Ok w). { clear -K G. revert k K. induction (general_package r name) as [|q g IH]; intros k K; [destruct G|]. cbn [filter_version] in K.
    unfold bind in K. destruct (package_version q) as [w|] eqn:W; [|discriminate]. destruct (filter_version (allows s) g) as [rest|]; [|discriminate].
    destruct G as [<-|G]; [exists w; exact W|]. exact (IH G _ eq_refl). }
  destruct T as (w & W). pose proof (package_version_ok p w W) as W2. cbn [cp_version p] in W2. assert (w = v) by congruence. subst w.
  apply in_flat_map. exists (v, p). split; [|exact IE]. apply (filter_version_in _ _ _ K). auto.
Qed.
Print Assumptions C176_builds_found.
(** what is found belongs to the package, has an allowed version, and its build begins as the pattern says.
    Missing: that the build ends as the pattern says, below *)
Theorem C176_only_builds_partial : forall r name version build l a, match_artifacts_by_build here r name version build = Ok l -> In a l ->
  exists s v, build_spec version = Ok s /\ In a (r_packages r) /\ i_name (snd a) = name /\ parse_version (i_version (snd a)) = Ok v /\ allows s v = true /\
    exists x y, i_build (snd a) = x ++ y /\ pattern build x.
Proof.
  intros r name version build l a H I. unfold match_artifacts_by_build in H. destruct build as [|c build]; [discriminate|].
  fold (build_spec version) in H. destruct (build_spec version) as [s|]; [|discriminate]. cbn [bind] in H. destruct (filter_version _ _) as [k|] eqn:K; [|discriminate].
  cbn [bind] in H. injection H as <-. apply filter_In in I. destruct I as [I B]. apply (proj1 (build_match_pattern (c :: build) (i_build (snd a)))) in B. apply in_flat_map in I. destruct I as ([v p] & IP & IA). cbn [snd] in IA.
  apply (filter_version_in _ _ _ K) in IP. destruct IP as (IG & V & A). apply in_general in IG. destruct IG as (N & E & _). rewrite E in IA. unfold entries in IA.
  apply filter_In in IA. destruct IA as [IA Q]. apply andb_true_iff in Q. destruct Q as [Q1 Q2]. apply str_eqb_eq in Q1, Q2.
  exists s, v. split; [reflexivity|]. split; [exact IA|]. split; [exact Q1|]. split; [rewrite Q2; apply package_version_ok; exact V|]. auto.
Qed.
Print Assumptions C176_only_builds_partial.
(** if no build is found the dependency allows nothing *)
Theorem C176_none_found : forall channel subdir r text name version build more n s, split_on " " text = name :: version :: build :: more ->
  match_artifacts_by_build here r name version build = Ok [] -> parse_conda_dependency here channel subdir r text = Ok (n, s) -> n = name /\ forall v, allows s v = false.
Proof.
  intros channel subdir r text name version build more n s T M H. unfold parse_conda_dependency in H. rewrite T, M in H. cbn in H. injection H as <- <-. split; [reflexivity|]. intro v. reflexivity.
Qed.
Print Assumptions C176_none_found.
Definition mkl : list artifact :=
  [entry "mkl-1.0-h_1.tar.bz2" "mkl" "1.0" "h_1" 1 []; entry "mkl-1.0-h_10.tar.bz2" "mkl" "1.0" "h_10" 10 []; entry "mkl-1.0-g_1.tar.bz2" "mkl" "1.0" "g_1" 1 []].
Example C176_sample : pattern (lit "h*1") (lit "h_1") /\
  (do l <- match_artifacts_by_build here (Repodata mkl []) (lit "mkl") (lit "1.*") (lit "g*"); Ok (map fst l)) = Ok [lit "mkl-1.0-g_1.tar.bz2"].
Proof.
  split; [|vm_compute; reflexivity]. change (lit "h*1") with ("h"%char :: "*"%char :: ["1"%char]). change (lit "h_1") with ("h"%char :: (["_"%char] ++ ["1"%char])).
  constructor; [discriminate|]. constructor. constructor; [discriminate|constructor].
Qed.
Example C176_none_sample : split_on " " (lit "mkl 1.0 x*") = [lit "mkl"; lit "1.0"; lit "x*"] /\ match_artifacts_by_build here (Repodata mkl []) (lit "mkl") (lit "1.0") (lit "x*") = Ok [] /\
  parse_conda_dependency here main (lit "linux-64") (Repodata mkl []) (lit "mkl 1.0 x*") = Ok (lit "mkl", RestrictAll).
Proof. repeat split; vm_compute; reflexivity. Qed.
(** the build "h_1" is asked for, and "h_10" comes along *)
Theorem C176_longer_build_refuted : exists r l a, match_artifacts_by_build here r (lit "mkl") (lit "1.0") (lit "h_1") = Ok l /\ In a l /\ i_build (snd a) = lit "h_10".
Proof. exists (Repodata mkl []). do 2 eexists. split; [vm_compute; reflexivity|]. split; [right; left; reflexivity|reflexivity]. Qed.
Print Assumptions C176_longer_build_refuted.
(** when several builds follow the pattern, the dependency finds none of them *)
Theorem C176_several_builds_refuted : exists fetch r s l, fetch main (lit "linux-64") = Ok r /\
  parse_conda_dependency here main (lit "linux-64") r (lit "mkl 1.0 h_*") = Ok (lit "mkl", s) /\
  match_artifacts_by_build here r (lit "mkl") (lit "1.0") (lit "h_*") = Ok l /\ length l = 2 /\
  conda_match here fetch (cpython 9) main linux (lit "mkl") s = Ok [] /\
  (do found <- conda_match here fetch (cpython 9) main linux (lit "mkl") AllowAll; Ok (length found)) = Ok 1.
Proof. exists (only "linux-64" mkl). do 3 eexists. split; [reflexivity|]. split; [vm_compute; reflexivity|]. repeat split; vm_compute; reflexivity. Qed.
Print Assumptions C176_several_builds_refuted.

(** *** C177: the interpreter *)
(** the files that may be chosen do not ask for a newer interpreter than the one of the environment, nor for another platform.
    Missing: the upper end of the requirement, below *)
Theorem C177_not_newer_partial : forall m channel subdir r p a v x y rest upper j, forallb is_lower (m_ipt m) = true ->
  best_artifact_for here m channel subdir r p = Ok (Some a) -> required_python here channel subdir r a = Ok (Range (Some v) upper true j) ->
  release v = x :: y :: rest -> (x < 10)%N ->
  x = fst (m_version m) /\ (y <= snd (m_version m))%N /\ exists os, dict_get subdir subdir_to_os_ctag = Some os /\ platform_ok m os.
Proof.
  intros m channel subdir r p a v x y rest upper j L B R V X. destruct (best_spec _ _ _ _ _ _ _ B) as (s & _ & U & _).
  destruct (python_lower _ _ _ _ _ _ _ _ _ _ _ L U R) as (os & rel & O & P & E & M). injection E as <-. rewrite V in M. destruct (M X) as [M1 M2].
  split; [exact M1|]. split; [exact M2|]. exists os. auto.
Qed.
Print Assumptions C177_not_newer_partial.
Definition numpy121 : cpackage := CPackage (lit "numpy") (lit "1.21.2") (entries (Repodata numpy []) (lit "numpy") (lit "1.21.2")).
Example C177_sample : (do a <- best_artifact_for here (cpython 9) main (lit "linux-64") (Repodata numpy []) numpy121; Ok (option_map (fun a => i_build (snd a)) a)) = Ok (Some (lit "py39_0")) /\
  (do a <- best_artifact_for here (cpython 8) main (lit "linux-64") (Repodata numpy []) numpy121; Ok (option_map (fun a => i_build (snd a)) a)) = Ok (Some (lit "py38_0")).
Proof. split; vm_compute; reflexivity. Qed.
(** a file for python 3.8 only is chosen for python 3.11 *)
Theorem C177_upper_bound_refuted : exists r p a s v, best_artifact_for here (cpython 11) main (lit "linux-64") r p = Ok (Some a) /\
  required_python here main (lit "linux-64") r a = Ok s /\ parse_version (lit "3.11") = Ok v /\ allows s v = false.
Proof.
  exists (Repodata numpy []), (CPackage (lit "numpy") (lit "1.20.1") (entries (Repodata numpy []) (lit "numpy") (lit "1.20.1"))). do 3 eexists.
  split; [vm_compute; reflexivity|]. split; [vm_compute; reflexivity|]. split; vm_compute; reflexivity.
Qed.
Print Assumptions C177_upper_bound_refuted.
Definition pinned : list artifact :=
  [entry "x-1.0-py39_0.tar.bz2" "x" "1.0" "py39_0" 0 ["python >=3.9,<3.10"]; entry "x-1.0-py27_0.tar.bz2" "x" "1.0" "py27_0" 0 ["python 2.7"];
   entry "y-1.0-py_0.tar.bz2" "y" "1.0" "py_0" 0 ["python >3"]].
(** one file that asks for exactly one version of python makes the whole name unusable *)
Theorem C177_exact_python_refuted : exists fetch, conda_match here fetch (cpython 9) main linux (lit "x") AllowAll = Err UnsupportedOperation /\
  exists r a t ds, fetch main (lit "linux-64") = Ok r /\ In a (r_packages r) /\ i_name (snd a) = lit "x" /\
    compatibility_tag here main (lit "linux-64") r a = Ok t /\ is_some (compatibility_score (cpython 9) t) = true /\ dependencies here main (lit "linux-64") r a = Ok ds.
Proof.
  exists (only "linux-64" pinned). split; [vm_compute; reflexivity|]. exists (Repodata pinned []), (entry "x-1.0-py39_0.tar.bz2" "x" "1.0" "py39_0" 0 ["python >=3.9,<3.10"]). do 2 eexists.
  split; [reflexivity|]. split; [left; reflexivity|]. split; [reflexivity|]. split; [vm_compute; reflexivity|]. split; vm_compute; reflexivity.
Qed.
Print Assumptions C177_exact_python_refuted.
(** "python >3" is taken for python 4 *)
Theorem C177_above_refuted : exists r a s v, required_python here main (lit "linux-64") r a = Ok s /\ parse_version (lit "3.9") = Ok v /\ allows s v = true /\
  compatibility_tag here main (lit "linux-64") r a = Ok (lit "py4-none-linux_x86_64") /\
  best_artifact_for here (cpython 9) main (lit "linux-64") r (CPackage (lit "y") (lit "1.0") [a]) = Ok None.
Proof.
  exists (Repodata pinned []), (entry "y-1.0-py_0.tar.bz2" "y" "1.0" "py_0" 0 ["python >3"]). do 2 eexists.
  split; [vm_compute; reflexivity|]. split; [vm_compute; reflexivity|]. repeat split; vm_compute; reflexivity.
Qed.
Print Assumptions C177_above_refuted.

(** *** C178: the best file *)
Theorem C178_best : forall m channel subdir r p a, best_artifact_for here m channel subdir r p = Ok (Some a) ->
  exists s, In a (cp_artifacts p) /\ usable here m channel subdir r a s /\
    forall b t, In b (cp_artifacts p) -> usable here m channel subdir r b t ->
      score_ltb s t = false /\ (score_ltb t s = false -> (i_number (snd b) <= i_number (snd a))%N).
Proof. intros m channel subdir r p a. apply best_spec. Qed.
Print Assumptions C178_best.
Theorem C178_nothing_usable : forall m channel subdir r p, best_artifact_for here m channel subdir r p = Ok None ->
  forall a s, In a (cp_artifacts p) -> ~ usable here m channel subdir r a s.
Proof. intros m channel subdir r p. apply best_none. Qed.
Print Assumptions C178_nothing_usable.
Definition rebuilt : list artifact :=
  [entry "z-1.0-py39_0.tar.bz2" "z" "1.0" "py39_0" 0 ["python >=3.9,<3.10"]; entry "z-1.0-py39_2.tar.bz2" "z" "1.0" "py39_2" 2 ["python >=3.9,<3.10"];
   entry "z-1.0-py39_1.tar.bz2" "z" "1.0" "py39_1" 1 ["python >=3.9,<3.10"]; entry "z-1.0-py38_9.tar.bz2" "z" "1.0" "py38_9" 9 ["python >=3.8,<3.9"];
   entry "z-1.0-py39_7.tar.bz2" "z" "1.0" "py39_7" 7 ["python >=3.9,<3.10"; "w 1.0 missing"]].
Example C178_sample : (do a <- best_artifact_for here (cpython 9) main (lit "linux-64") (Repodata rebuilt []) (CPackage (lit "z") (lit "1.0") rebuilt); Ok (option_map fst a))
    = Ok (Some (lit "z-1.0-py39_2.tar.bz2")) /\
  best_artifact_for here (cpython 7) main (lit "linux-64") (Repodata rebuilt []) (CPackage (lit "z") (lit "1.0") rebuilt) = Ok None.
Proof. split; vm_compute; reflexivity. Qed.

(** *** C179: files by their url *)
(** Missing: names with capital letters, below *)
Theorem C179_found_partial : forall fetch channel pl name subdir r a s v,
  fetch channel subdir = Ok r -> dict_get (fst a) (r_packages r) = Some (snd a) ->
  lower (channel ++ lit "/" ++ subdir ++ lit "/" ++ fst a) = channel ++ lit "/" ++ subdir ++ lit "/" ++ fst a ->
  ~ In "010"%char (channel ++ lit "/" ++ subdir ++ lit "/" ++ fst a) -> ~ In "/"%char subdir -> ~ In "/"%char (fst a) ->
  artifact_match channel subdir a = Ok s -> package_version (CPackage (i_name (snd a)) (i_version (snd a)) [a]) = Ok v ->
  conda_do_match fetch channel pl name s = Ok [(v, (subdir, r, CPackage (i_name (snd a)) (i_version (snd a)) [a]))].
Proof. exact url_found. Qed.
Print Assumptions C179_found_partial.
Example C179_sample : exists r a s v, only "linux-64" numpy main (lit "linux-64") = Ok r /\ dict_get (fst a) (r_packages r) = Some (snd a) /\
  lower (main ++ lit "/" ++ lit "linux-64" ++ lit "/" ++ fst a) = main ++ lit "/" ++ lit "linux-64" ++ lit "/" ++ fst a /\
  artifact_match main (lit "linux-64") a = Ok s /\ package_version (CPackage (i_name (snd a)) (i_version (snd a)) [a]) = Ok v.
Proof.
  eexists. exists (entry "mkl-2021.4-0.tar.bz2" "mkl" "2021.4" "0" 0 []). do 2 eexists. split; [vm_compute; reflexivity|]. split; [vm_compute; reflexivity|].
  split; [vm_compute; reflexivity|]. split; vm_compute; reflexivity.
Qed.
Theorem C179_capitals_refuted : exists fetch r a s, fetch main (lit "linux-64") = Ok r /\ In a (r_packages r) /\ artifact_match main (lit "linux-64") a = Ok s /\
  conda_match here fetch (cpython 9) main linux (i_name (snd a)) s = Ok [] /\
  (do found <- conda_match here fetch (cpython 9) main linux (i_name (snd a)) AllowAll; Ok (length found)) = Ok 1.
Proof.
  exists (only "linux-64" [entry "PyYAML-5.4-0.tar.bz2" "PyYAML" "5.4" "0" 0 []]). eexists. exists (entry "PyYAML-5.4-0.tar.bz2" "PyYAML" "5.4" "0" 0 []). eexists.
  split; [reflexivity|]. split; [left; reflexivity|]. split; [vm_compute; reflexivity|]. split; vm_compute; reflexivity.
Qed.
Print Assumptions C179_capitals_refuted.

(** *** C180: the order of the versions *)
(** Missing: versions that are told apart by a letter, below *)
Theorem C180_newest_first_partial : forall fetch channel pl name s l, required_url s = None -> conda_do_match fetch channel pl name s = Ok l ->
  Forall (fun x => match fst x with VUrl _ _ _ => False | VNamed _ => True | VStd v => local_label v = None end) l ->
  forall before v after w x y, l = before ++ (v, x) :: after -> In (w, y) after -> version_ltb v w = false.
Proof.
  intros fetch channel pl name s l U H F before v after w x y E I. unfold conda_do_match in H. rewrite U in H. unfold bind in H.
  destruct (subdir_of pl) as [subdir|]; [|discriminate]. destruct (fetch channel subdir) as [r|]; [|discriminate].
  destruct (filter_version (allows s) (general_package r name)) as [k|]; [|discriminate]. injection H as H.
  assert (FK : Forall (fun z => orderly (fst z)) k).
  { rewrite Forall_forall in *. intros z Z. apply (Permutation_in _ (Permutation_sym (sort_perm fst k))) in Z. subst l.
    specialize (F (fst z, (subdir, r, snd z)) (in_map (fun x => (fst x, (subdir, r, snd x))) _ z Z)). exact F. }
  pose proof (sort_sorted fst k FK) as S. subst l. clear F. revert before E. induction S as [|z q Z S IH]; intros before E; [destruct before; discriminate|]. cbn [map] in E.
  destruct before as [|b before].
  - cbn [app] in E. injection E as <- _ <-. apply in_map_iff in I. destruct I as (z2 & E2 & I). injection E2 as <- _. rewrite Forall_forall in Z. exact (Z z2 I).
  - injection E as _ E. exact (IH before E).
Qed.
Print Assumptions C180_newest_first_partial.
Example C180_sample : exists l, conda_do_match (only "linux-64" numpy) main linux (lit "numpy") AllowAll = Ok l /\ length l = 2 /\
  Forall (fun x => match fst x with VUrl _ _ _ => False | VNamed _ => True | VStd v => local_label v = None end) l.
Proof. eexists. split; [vm_compute; reflexivity|]. split; [reflexivity|]. constructor; [reflexivity|]. constructor; [reflexivity|]. constructor. Qed.
(** the versions "1.1.1g" and "1.1.1k" are one and the same, and the older file comes first *)
Theorem C180_letters_refuted : exists fetch l, conda_match here fetch (cpython 9) main linux (lit "openssl") AllowAll = Ok l /\
  map (fun x => cp_version (snd (snd x))) l = [lit "1.1.1g"; lit "1.1.1k"] /\ exists v, map fst l = [v; v].
Proof.
  exists (only "linux-64" [entry "openssl-1.1.1g-0.tar.bz2" "openssl" "1.1.1g" "0" 0 []; entry "openssl-1.1.1k-0.tar.bz2" "openssl" "1.1.1k" "0" 0 []]). eexists.
  split; [vm_compute; reflexivity|]. split; [reflexivity|]. eexists. reflexivity.
Qed.
Print Assumptions C180_letters_refuted.
