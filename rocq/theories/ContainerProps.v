(** Properties of package containers (C199-C204) *)
From Coq Require Import List Bool NArith Ascii String Arith Lia.
From Verif Require Import Base BaseFacts CollectionModel CollectionProofs NamesModel NamesProofs VersionModel SpecifierModel InstallModel InstallProofs ContainerModel ContainerProofs.
Import ListNotations.
Open Scope string_scope. Open Scope nat_scope. Open Scope list_scope. Open Scope bool_scope.

(** the site of an environment: a package is filed under the key of its name, one package per key *)
Definition tidy_site (l : list ipkg) : Prop := distinct_keys l /\ forall p, In p l -> package_name_key (i_name p) = Ok (i_key p).
Lemma at_ok : forall inside p, package_name_key (i_name p) = Ok (i_key p) -> exists c, container_at inside p = Ok c /\ c_package c = p.
Proof. intros inside p H. unfold package_name_key in H. unfold container_at. destruct (normalize_src_package_name (i_name p)); [|discriminate]. eexists. split; reflexivity. Qed.

(** ** C199: finding a container *)
(** the container of a name is the container that is installed under it, or the wrapper of that name when nothing is installed under it *)
Theorem C199_found_partial : forall host inside name k, tidy_site host -> valid_name name -> package_name_key name = Ok k ->
  forall p, In p host ->
    ((exists c, container_of host inside name = Ok (Some c) /\ c_package c = p) <->
     i_container p = true /\ (i_key p = k \/ i_key p = k ++ wrapper_suffix /\ forall q, In q host -> i_key q <> k)).
Proof.
  intros host inside name k [D T] V K p I. unfold container_of, installed_package. rewrite K, (suffix_key name k V K). cbn [bind]. split.
  - intros (c & H & <-). destruct (find (fun q => str_eqb (i_key q) k) host) as [q|] eqn:F.
    + cbn [bind] in H. pose proof (find_some _ _ F) as [IQ EQ]. apply str_eqb_eq in EQ. destruct (i_container q) eqn:C; [|discriminate]. destruct (at_ok inside q (T q IQ)) as (c' & A & B). rewrite A in H. cbn in H. injection H as <-. rewrite B. split; [exact C|left; exact EQ].
    + cbn [bind] in H. destruct (find (fun q => str_eqb (i_key q) (k ++ wrapper_suffix)) host) as [q|] eqn:G; [|discriminate]. pose proof (find_some _ _ G) as [IQ EQ]. apply str_eqb_eq in EQ.
      destruct (i_container q) eqn:C; [|discriminate]. destruct (at_ok inside q (T q IQ)) as (c' & A & B). rewrite A in H. cbn in H. injection H as <-. rewrite B. split; [exact C|right]. split; [exact EQ|].
      intros r IR ER. pose proof (find_none _ _ F r IR) as X. cbn in X. rewrite ER, str_eqb_refl in X. discriminate.
  - intros [C E]. destruct (at_ok inside p (T p I)) as (c & A & B). exists c. split; [|exact B]. destruct E as [E|[E N]].
    + rewrite (find_key host p k D I E). cbn [bind]. rewrite C, A. reflexivity.
    + rewrite (find_none_key host k N). cbn [bind]. rewrite (find_key host p (k ++ wrapper_suffix) D I E). cbn [bind]. rewrite C, A. reflexivity.
Qed.
(** the list of all containers *)
Theorem C199_all : forall host inside, tidy_site host -> exists l, containers host inside = Ok l /\ map c_package l = filter i_container host.
Proof.
  intros host inside [_ T]. unfold containers. induction host as [|p host IH]; [exists []; split; reflexivity|]. destruct IH as (l & E & M); [intros q I; apply T; right; exact I|].
  cbn [all_containers filter]. destruct (i_container p); [|exists l; split; assumption]. destruct (at_ok inside p (T p (or_introl eq_refl))) as (c & A & B). exists (c :: l). rewrite A, E. cbn. rewrite B, M. split; reflexivity.
Qed.
Print Assumptions C199_found_partial. Print Assumptions C199_all.
Definition one : version := VStd (SV [1%N] None None None None None).
Definition plain_pkg (n k : string) : ipkg := IPkg (lit n) (lit k) one false true.
Definition wrapper (n k : string) : ipkg := IPkg (lit n) (lit k) one true true.
Example C199_sample : tidy_site [plain_pkg "requests" "requests"; wrapper "My-Tool-containerized" "my_tool_containerized"] /\ valid_name (lit "my.tool") /\
  exists c, container_of [plain_pkg "requests" "requests"; wrapper "My-Tool-containerized" "my_tool_containerized"] (fun _ => []) "my.tool" = Ok (Some c) /\ i_name (c_package c) = lit "My-Tool-containerized".
Proof.
  split; [split|split].
  - repeat constructor; cbn; intuition discriminate.
  - intros p [<-|[<-|[]]]; reflexivity.
  - split; [reflexivity|exists "m"%char, (lit "y.tool"); split; reflexivity|exists "l"%char, (lit "my.too"); split; reflexivity].
  - eexists. split; reflexivity.
Qed.
(** a container is not found when its application is installed outside of it too: it is shown in the list but cannot be removed, and it is
    installed again at every request *)
Theorem C199_hidden_refuted : let host := [plain_pkg "tool" "tool"; wrapper "tool-containerized" "tool_containerized"] in forall inside,
  exists c, containers host inside = Ok [c] /\ i_name (c_package c) = lit "tool-containerized" /\
    container_of host inside "tool" = Ok None /\ uninstall host inside [] (Some (lit "tool")) = Err AttributeError /\ forall s, must_install host inside "tool" s = Ok true.
Proof. cbv zeta. intros inside. eexists. repeat split. Qed.
(** a name that ends with a dash has a container under another name *)
Theorem C199_name_refuted : package_name_key "tool-" = package_name_key "tool" /\ exists a b, package_name_key (lit "tool-" ++ wrapper_suffix) = Ok a /\ package_name_key (lit "tool" ++ wrapper_suffix) = Ok b /\ a <> b.
Proof. split; [reflexivity|]. do 2 eexists. split; [reflexivity|split; [reflexivity|discriminate]]. Qed.

(** ** C200: the application of a container *)
(** the application of a wrapper, which carries the name that a descriptor gives it, is the package that is wrapped *)
Theorem C200_main_partial : forall name k p site main, valid_name name -> single_seps name = true -> package_name_key name = Ok k ->
  descriptor_name (name ++ wrapper_suffix) = Ok (i_name p) -> i_key p = k ++ wrapper_suffix -> distinct_keys site -> In main site -> i_key main = k ->
  containerized_package (Container p site) = Ok (Some main).
Proof.
  intros name k p site main V S K N E D I M. unfold containerized_package. cbn [c_package c_site].
  assert (W : ends_with wrapper_suffix (i_key p) = true) by (apply ends_with_iff; exists k; exact E). rewrite W.
  assert (NM : i_name p = dashed name ++ dashed wrapper_suffix).
  { unfold descriptor_name in N. destruct (name ++ wrapper_suffix) as [|x r] eqn:Q; [discriminate|]. rewrite <- Q in N. rewrite valid_normal, suffix_normal, single_normal in N by (try apply valid_suffix; assumption).
    cbn [bind] in N. injection N as N. rewrite <- N. unfold dashed. apply map_app. }
  rewrite NM. rewrite app_length. change (List.length (dashed wrapper_suffix)) with (List.length wrapper_suffix). rewrite Nat.add_sub. rewrite firstn_app, Nat.sub_diag, firstn_all. cbn [firstn]. rewrite app_nil_r.
  unfold installed_package at 1. rewrite dashed_key by assumption. rewrite K. cbn [bind]. rewrite (find_key site main k D I M). reflexivity.
Qed.
(** an application that is a container itself is the package of its name *)
Theorem C200_own : forall p site main, package_name_key (i_name p) = Ok (i_key p) -> (forall x, i_key p <> x ++ wrapper_suffix) ->
  distinct_keys site -> In main site -> i_key main = i_key p -> containerized_package (Container p site) = Ok (Some main).
Proof.
  intros p site main K N D I M. unfold containerized_package. cbn [c_package c_site]. destruct (ends_with wrapper_suffix (i_key p)) eqn:W; [apply ends_with_iff in W as (x & W); exfalso; apply (N x W)|].
  cbn [bind]. unfold installed_package. rewrite K. cbn [bind]. rewrite (find_key site main _ D I M). reflexivity.
Qed.
(** the plugins are the requested packages beside the application and the container *)
Theorem C200_plugins : forall c main l, containerized_package c = Ok (Some main) -> list_installed_plugins c = Ok l ->
  forall p, In p l <-> In p (c_site c) /\ i_requested p = true /\ i_name p <> i_name main /\ i_name p <> i_name (c_package c).
Proof.
  intros c main l M H p. unfold list_installed_plugins in H. destruct (filter i_requested (c_site c)) as [|x r] eqn:F.
  - injection H as <-. split; [intros []|]. intros (I & R & _). assert (X : In p (filter i_requested (c_site c))) by (apply filter_In; auto). rewrite F in X. destruct X.
  - rewrite M in H. cbn [bind] in H. match type of H with Ok ?e = Ok _ => assert (L : l = e) by congruence; subst l end. rewrite <- F. rewrite !filter_In, andb_true_iff, !negb_true_iff, !str_eqb_neq. tauto.
Qed.
Print Assumptions C200_main_partial. Print Assumptions C200_own. Print Assumptions C200_plugins.
Example C200_sample : exists p, descriptor_name (lit "my_tool" ++ wrapper_suffix) = Ok (i_name p) /\ i_key p = lit "my_tool" ++ wrapper_suffix /\
  let site := [plain_pkg "my-tool-containerized" "my_tool_containerized"; plain_pkg "click" "click"; plain_pkg "my-tool" "my_tool"] in
  containerized_package (Container p site) = Ok (Some (plain_pkg "my-tool" "my_tool")) /\ list_installed_plugins (Container p site) = Ok [plain_pkg "click" "click"].
Proof. exists (wrapper "my-tool-containerized" "my_tool_containerized"). repeat split. Qed.
(** the wrapper of an application with two underscores in its name is filed under a name with one: it is not found and is installed again
    at every request *)
Theorem C200_underscores_refuted : exists p, descriptor_name (lit "my__tool" ++ wrapper_suffix) = Ok (i_name p) /\ tidy_site [p] /\ i_container p = true /\
  forall inside, container_of [p] inside "my__tool" = Ok None /\ forall s, must_install [p] inside "my__tool" s = Ok true.
Proof.
  exists (wrapper "my--tool-containerized" "my_tool_containerized"). split; [reflexivity|]. split; [split; [repeat constructor; intros []|intros p [<-|[]]; reflexivity]|]. split; [reflexivity|]. intros inside. split; reflexivity.
Qed.
(** an application whose own name ends like a wrapper, with a dependency of the rest of the name, passes for the dependency *)
Theorem C200_suffix_refuted : let app := wrapper "web-containerized" "web_containerized" in
  containerized_package (Container app [plain_pkg "web" "web"; plain_pkg "web-containerized" "web_containerized"]) = Ok (Some (plain_pkg "web" "web")).
Proof. reflexivity. Qed.

(** ** C201: an application is installed when it is not there *)
Theorem C201_installed : forall host inside name s c main, container_of host inside name = Ok (Some c) -> containerized_package c = Ok (Some main) ->
  must_install host inside name s = Ok (negb (allows s (i_version main))).
Proof. intros host inside name s c main C M. unfold must_install. rewrite C. cbn [bind]. rewrite M. reflexivity. Qed.
Theorem C201_absent : forall host inside name k s, valid_name name -> package_name_key name = Ok k -> (forall p, In p host -> i_key p <> k /\ i_key p <> k ++ wrapper_suffix) ->
  must_install host inside name s = Ok true /\ uninstall host inside [] (Some name) = Err AttributeError.
Proof.
  intros host inside name k s V K H. assert (C : container_of host inside name = Ok None).
  { unfold container_of, installed_package. rewrite K, (suffix_key name k V K). cbn [bind]. rewrite find_none_key by (intros p I; apply H, I). cbn [bind]. rewrite find_none_key by (intros p I; apply H, I). reflexivity. }
  split; [unfold must_install; rewrite C; reflexivity|]. unfold uninstall. destruct (v_first _ V) as (x & r & E & _). rewrite E in *. rewrite C. reflexivity.
Qed.
(** what [uninstall] removes: the container when no packages are named, else the packages from the site of the container *)
Theorem C201_uninstalled : forall host inside name c, name <> [] -> container_of host inside name = Ok (Some c) ->
  uninstall host inside [] (Some name) = Ok (RemoveContainer (c_package c)) /\
  forall n ns, uninstall host inside (n :: ns) (Some name) = Ok (RemoveFrom (c_site c) (n :: ns)) /\ uninstall host inside (n :: ns) None = Ok (RemoveFrom host (n :: ns)).
Proof. intros host inside [|x name] c N C; [contradiction|]. unfold uninstall. rewrite C. split; [reflexivity|]. intros n ns. split; reflexivity. Qed.
Print Assumptions C201_installed. Print Assumptions C201_absent. Print Assumptions C201_uninstalled.
(** a container whose application was removed from it can only fail *)
Theorem C201_broken_refuted : forall s, must_install [wrapper "tool-containerized" "tool_containerized"] (fun _ => []) "tool" s = Err AttributeError.
Proof. reflexivity. Qed.
Example C201_sample : let inside := fun d => if str_eqb d (lit "tool_containerized") then [plain_pkg "tool" "tool"] else [] in
  must_install [wrapper "tool-containerized" "tool_containerized"] inside "tool" AllowAll = Ok false /\
  must_install [wrapper "tool-containerized" "tool_containerized"] inside "tool" (Match one false) = Ok true.
Proof. split; reflexivity. Qed.

(** ** C202: the scripts of a container *)
(** every script runs what it refers to, when the names of the functions differ and are names *)
Theorem C202_scripts_partial : forall l, (forall s, In s l -> exists n, normalize_src_package_name (s_name s) = Ok n /\ is_identifier n = true) ->
  (forall s t, In s l -> In t l -> normalize_src_package_name (s_name s) = normalize_src_package_name (s_name t) -> s_module s = s_module t /\ s_object s = s_object t) ->
  forall s, In s l -> run_script l s = Ok (s_module s, s_object s).
Proof.
  intros l N U s I. destruct (funcs_spec l) as (defs & E & K); [intros x J; destruct (N x J) as (n & X & _); exists n; exact X|]. unfold run_script. rewrite E. cbn [bind]. unfold import_entrypoints.
  assert (ID : forallb (fun d => is_identifier (fst d)) defs = true). { apply forallb_forall. intros d J. apply K in J as (x & J & X & _). destruct (N x J) as (n & Y & Z). rewrite X in Y. injection Y as ->. exact Z. }
  rewrite ID. cbn [bind]. destruct (N s I) as (n & X & _). rewrite X. cbn [bind]. rewrite (fold_set_get defs [] n (s_module s, s_object s)); [reflexivity| |].
  - intros d J EQ. apply K in J as (x & J & Y & Z). rewrite Z. destruct (U x s J I) as [-> ->]; [congruence|reflexivity].
  - left. exists (n, (s_module s, s_object s)). split; [apply K; exists s; split; [exact I|split; [exact X|reflexivity]]|reflexivity].
Qed.
Print Assumptions C202_scripts_partial.
Definition script_of (n m o : string) : script := Script (lit n) (lit m) (lit o).
Example C202_sample : run_script [script_of "my-tool" "pkg.main" "run"; script_of "other" "pkg.other" "main"] (script_of "my-tool" "pkg.main" "run") = Ok (lit "pkg.main", lit "run").
Proof. reflexivity. Qed.
(** of two scripts whose names differ in a separator both run the second *)
Theorem C202_same_refuted : run_script [script_of "my-tool" "a" "main"; script_of "my.tool" "b" "main"] (script_of "my-tool" "a" "main") = Ok (lit "b", lit "main").
Proof. reflexivity. Qed.
(** a script whose name begins with a digit or is a keyword spoils all scripts of the container *)
Theorem C202_digit_refuted : forall l s, run_script (l ++ [script_of "2to3" "lib2to3.main" "main"]) s <> Ok (s_module s, s_object s) /\ run_script (l ++ [script_of "import" "x" "main"]) s <> Ok (s_module s, s_object s).
Proof.
  assert (G : forall b n, normalize_src_package_name (s_name b) = Ok n -> is_identifier n = false -> forall l s r, run_script (l ++ [b]) s <> Ok r).
  { intros b n B NI l s r H. unfold run_script in H. destruct (define_epfuncs (l ++ [b])) as [defs|] eqn:E; [|discriminate]. cbn [bind] in H.
    assert (I : In (n, (s_module b, s_object b)) defs). { revert defs E H. induction l as [|x l IH]; intros defs E H; cbn [app define_epfuncs] in E.
      - rewrite B in E. cbn in E. injection E as <-. left. reflexivity.
      - destruct (normalize_src_package_name (s_name x)); [|discriminate]. cbn [bind] in E. destruct (define_epfuncs (l ++ [b])) as [d|] eqn:F; [|discriminate]. cbn [bind] in E. injection E as <-. right. clear H. specialize (fun H => IH d eq_refl H).
        assert (J : forall dd, define_epfuncs (l ++ [b]) = Ok dd -> In (n, (s_module b, s_object b)) dd). { clear -B. induction l as [|y l IH]; intros dd D; cbn [app define_epfuncs] in D; [rewrite B in D; cbn in D; injection D as <-; left; reflexivity|]. destruct (normalize_src_package_name (s_name y)); [|discriminate]. cbn [bind] in D. destruct (define_epfuncs (l ++ [b])); [|discriminate]. cbn [bind] in D. injection D as <-. right. apply IH. reflexivity. }
        apply J. exact F. }
    unfold import_entrypoints in H. destruct (forallb (fun d => is_identifier (fst d)) defs) eqn:A; [|discriminate]. rewrite forallb_forall in A. specialize (A _ I). cbn in A. congruence. }
  intros l s. split; eapply G; reflexivity.
Qed.

(** ** C203: the search paths in a container *)
(** the site of the container comes right after the directory of the script, when it has no .pth files *)
Theorem C203_first_partial : forall dir x rest, NoDup (x :: rest) -> ~ In dir (x :: rest) -> register_site dir [] (x :: rest) = Ok (x :: dir :: rest).
Proof.
  intros dir x rest N I. unfold register_site, addsitedir. rewrite add_new; [apply last_second_snoc|]. apply NoDup_Add with (a := dir) (l := x :: rest); [|split; assumption].
  rewrite <- (app_nil_r (x :: rest)) at 1. apply Add_app.
Qed.
(** with .pth files it is last and the directory of the last of them is there instead *)
Theorem C203_pth_refuted : forall dir pth d x rest, NoDup ((x :: rest) ++ dir :: pth ++ [d]) ->
  register_site dir (pth ++ [d]) (x :: rest) = Ok (x :: d :: rest ++ dir :: pth).
Proof.
  intros dir pth d x rest N. unfold register_site, addsitedir. rewrite add_new by exact N. transitivity (last_second (x :: (rest ++ dir :: pth) ++ [d])); [|apply last_second_snoc]. f_equal. cbn [app]. f_equal. rewrite <- app_assoc. reflexivity.
Qed.
(** PATH begins with the scripts of the container, the rest is as before *)
Theorem C203_path_partial : forall bin old, ~ In ":"%char bin -> (forall a b, old <> a ++ bin ++ b) ->
  exists rest, split_on ":"%char (register_path bin (Some old)) = bin :: rest /\ (old = [] \/ rest = split_on ":"%char old).
Proof.
  intros bin old N S. unfold register_path. destruct old as [|c o]; [exists []; split; [apply split_on_single, N|left; reflexivity]|]. set (old := c :: o) in *.
  assert (C : contains bin old = false). { destruct (contains bin old) eqn:C; [|reflexivity]. exfalso. clearbody old. clear c o.
    assert (G : exists a b, old = a ++ bin ++ b). { clear S. induction old as [|c o IH]; cbn [contains] in C; apply orb_true_iff in C as [C|C]; try discriminate; try (apply starts_with_iff in C as (b & C); exists [], b; exact C). destruct (IH C) as (a & b & ->). exists (c :: a), b. reflexivity. }
    destruct G as (a & b & G). exact (S a b G). }
  rewrite C. exists (split_on ":"%char old). split; [|right; reflexivity]. change (lit ":" ++ old) with (":"%char :: old). apply split_on_app, N.
Qed.
Theorem C203_unset : forall bin, register_path bin None = bin.
Proof. reflexivity. Qed.
Print Assumptions C203_first_partial. Print Assumptions C203_pth_refuted. Print Assumptions C203_path_partial. Print Assumptions C203_unset.
(** the scripts of the container are not found when another directory has the same beginning *)
Theorem C203_path_refuted : let bin := lit "/env/tool/__container__/bin" in let old := lit "/env/tool/__container__/bin.old:/usr/bin" in
  register_path bin (Some old) = old /\ ~ In bin (split_on ":"%char old).
Proof. split; [reflexivity|]. intros I. vm_compute in I. intuition discriminate. Qed.
(** when the site is known already another directory is moved to the front *)
Theorem C203_known_refuted : register_site "/c/site" [] [lit "/script"; lit "/c/site"; lit "/usr/lib"; lit "/home/old"] = Ok [lit "/script"; lit "/home/old"; lit "/c/site"; lit "/usr/lib"].
Proof. reflexivity. Qed.
Example C203_sample : register_site "/c/site" [] [lit "/script"; lit "/usr/lib"] = Ok [lit "/script"; lit "/c/site"; lit "/usr/lib"] /\ register_path "/c/bin" (Some (lit "/usr/bin:/bin")) = lit "/c/bin:/usr/bin:/bin".
Proof. split; reflexivity. Qed.

(** ** C204: the report of an environment *)
(** every package that is not a container and that was asked for, or that is to be shown, has one line *)
Definition of_line (x : line) : rpkg * list str := match x with LUser p m | LRequired p _ m | LOrphan p m => (p, m) end.
Theorem C204_lines : forall all l, map (fun x => fst (of_line x)) (report all l) = filter (fun p => negb (r_container p) && (all || r_user p)) l.
Proof.
  intros all l. unfold report, listed. rewrite map_map. assert (E : forall p, fst (of_line (describe l p)) = p) by (intros p; unfold describe; destruct (r_user p); [reflexivity|]; destruct (required_by l p); reflexivity).
  rewrite (map_ext _ (fun p => p)) by exact E. rewrite map_id. clear E. induction l as [|p l IH]; [reflexivity|]. cbn [filter]. destruct (r_container p); cbn [negb andb filter]; [exact IH|]. destruct (all || r_user p); rewrite ?IH; reflexivity.
Qed.
(** the dependencies that are reported missing are those that no package outside of containers provides *)
Theorem C204_missing : forall all l x, In x (report all l) -> forall d,
  In d (snd (of_line x)) <-> In (d, true) (r_deps (fst (of_line x))) /\ ~ exists q, In q l /\ r_container q = false /\ r_key q = d.
Proof.
  intros all l x I d. unfold report in I. apply in_map_iff in I as (p & <- & _). assert (E : of_line (describe l p) = (p, missing l p)) by (unfold describe; destruct (r_user p); [reflexivity|]; destruct (required_by l p); reflexivity).
  rewrite E. cbn [fst snd]. unfold missing, requires. rewrite filter_In, negb_true_iff, in_map_iff. split.
  - intros [([d' b] & <- & J) M]. apply filter_In in J as [J B]. cbn in *. subst b. split; [exact J|]. intros (q & Q & C & K). assert (X : str_mem d' (map r_key (listed l)) = true); [|congruence]. apply str_mem_iff. apply in_map_iff. exists q. split; [exact K|]. apply filter_In. split; [exact Q|]. rewrite C. reflexivity.
  - intros [J N]. split; [exists (d, true); split; [reflexivity|apply filter_In; split; [exact J|reflexivity]]|]. destruct (str_mem d (map r_key (listed l))) eqn:M; [|reflexivity]. exfalso. apply N. apply str_mem_iff in M. apply in_map_iff in M as (q & K & Q). apply filter_In in Q as [Q C]. exists q. split; [exact Q|]. split; [apply negb_true_iff; exact C|exact K].
Qed.
(** a package is reported as an orphan when it was not asked for and no package outside of containers needs it here *)
Theorem C204_orphan : forall l p, In p l -> r_container p = false -> (exists m, In (LOrphan p m) (report true l)) <->
  r_user p = false /\ ~ exists q, In q l /\ r_container q = false /\ In (r_key p, true) (r_deps q).
Proof.
  intros l p I C. assert (R : required_by l p = [] <-> ~ exists q, In q l /\ r_container q = false /\ In (r_key p, true) (r_deps q)).
  { unfold required_by. split.
    - intros E (q & Q & CQ & D). assert (X : In q (flat_map (fun p0 => flat_map (fun d => if str_eqb d (r_key p) then [p0] else []) (requires p0)) (listed l))); [|rewrite E in X; destruct X].
      apply in_flat_map. exists q. split; [apply filter_In; split; [exact Q|rewrite CQ; reflexivity]|]. apply in_flat_map. exists (r_key p). split; [apply in_map_iff; exists (r_key p, true); split; [reflexivity|apply filter_In; split; [exact D|reflexivity]]|]. rewrite str_eqb_refl. left. reflexivity.
    - intros N. match goal with |- ?t = [] => destruct t as [|q r] eqn:E end; [reflexivity|]. exfalso. apply N.
      assert (X : In q (flat_map (fun p0 => flat_map (fun d => if str_eqb d (r_key p) then [p0] else []) (requires p0)) (listed l))) by (rewrite E; left; reflexivity).
      apply in_flat_map in X as (q' & Q & X). apply in_flat_map in X as (d & D & X). destruct (str_eqb d (r_key p)) eqn:EQ; [|destruct X]. destruct X as [->|[]]. apply str_eqb_eq in EQ. subst d. apply filter_In in Q as [Q CQ].
      apply in_map_iff in D as ([k b] & K & D). apply filter_In in D as [D B]. cbn in *. subst. exists q. split; [exact Q|]. split; [apply negb_true_iff; exact CQ|exact D]. }
  rewrite <- R. split.
  - intros (m & H). unfold report in H. apply in_map_iff in H as (q & E & Q). unfold describe in E. destruct (r_user q) eqn:U; [discriminate|]. destruct (required_by l q) eqn:RB; [|discriminate]. injection E as -> _. split; assumption.
  - intros [U E]. exists (missing l p). unfold report. apply in_map_iff. exists p. split; [unfold describe; rewrite U, E; reflexivity|]. apply filter_In. split; [apply filter_In; split; [exact I|rewrite C; reflexivity]|reflexivity].
Qed.
Print Assumptions C204_lines. Print Assumptions C204_missing. Print Assumptions C204_orphan.
(** what the command that removes orphans sees of a package *)
Definition seen (p : rpkg) : gpkg := GP (r_key p) (r_key p) (r_user p) (r_deps p).
(** the orphans of the report are not those that the command removes: of two packages that nobody asked for, the one that the other needs is
    removed and reported as required; and one that is needed on another system is reported as an orphan and stays *)
Theorem C204_removed_refuted :
  (let a := RPkg (lit "a") false false [(lit "b", true)] in let b := RPkg (lit "b") false false [] in
   find_orphan_packages 10 (map seen [a; b]) = Some (map seen [a; b]) /\ report true [a; b] = [LOrphan a []; LRequired b [a] []]) /\
  (let a := RPkg (lit "a") false true [(lit "b", false)] in let b := RPkg (lit "b") false false [] in
   find_orphan_packages 10 (map seen [a; b]) = Some [] /\ report true [a; b] = [LUser a []; LOrphan b []]).
Proof. split; cbv zeta; split; reflexivity. Qed.
Example C204_sample : report true [RPkg (lit "app") false true [(lit "lib", true); (lit "gone", true); (lit "win", false)]; RPkg (lit "lib") false false []; RPkg (lit "box") true true []] =
  [LUser (RPkg (lit "app") false true [(lit "lib", true); (lit "gone", true); (lit "win", false)]) [lit "gone"];
   LRequired (RPkg (lit "lib") false false []) [RPkg (lit "app") false true [(lit "lib", true); (lit "gone", true); (lit "win", false)]] []].
Proof. reflexivity. Qed.
