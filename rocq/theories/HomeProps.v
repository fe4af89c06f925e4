(** Properties of the directory in which pkm keeps its data. *)
From Coq Require Import String Ascii List Bool NArith Arith Lia.
From Verif Require Import Base BaseFacts ParserModel FsModel FsFacts HomeModel HomeProofs.
Import ListNotations.
Open Scope string_scope.
Open Scope nat_scope.
Open Scope list_scope.
Open Scope bool_scope.

(** ** C279: PKM_HOME decides where pkm keeps its data *)
(** whatever it is set to, nothing that needs the directory works *)
Theorem C279_given_refuted : forall pr c s, dict_get (lit "PKM_HOME") (p_vars pr) = Some (c :: s) ->
  exists h, pkm_home pr = Ok h /\
  (forall f, use_home f h = Err AttributeError) /\
  (forall initial f, clean_cache initial h f = Err AttributeError) /\
  (forall k tmp b attr f, k <> BuildEditable -> run_hook k tmp b (World attr h f) = (World attr h f, Err AttributeError)).
Proof.
  intros pr c s H. exists (HText (c :: s)). unfold pkm_home. rewrite H. split; [reflexivity|]. split; [reflexivity|]. split; [reflexivity|].
  intros k tmp b attr f K. destruct k; try reflexivity. contradiction.
Qed.
Definition no_user (n : str) : option (list str) := match n with [] => Some [lit "home"; lit "ann"] | _ => None end.
Definition linux (vars : list (str * str)) (cwd : path) : process := Process vars Other cwd no_user.
Example C279_given_example : dict_get (lit "PKM_HOME") (p_vars (linux [(lit "PKM_HOME", lit "/srv/pkm")] [lit "tmp"])) = Some (lit "/srv/pkm").
Proof. reflexivity. Qed.

(** without it, the directory is the one of the platform *)
Definition unset (v : str) (pr : process) : Prop := dict_get v (p_vars pr) = None.
Theorem C279_default_partial : forall pr u, unset (lit "PKM_HOME") pr \/ dict_get (lit "PKM_HOME") (p_vars pr) = Some [] -> p_user_home pr [] = Some u -> ~ In (lit "..") u ->
  (p_platform pr = Mac -> pkm_home pr = Ok (HPath ([lit "pkm"; lit "Application Support"; lit "Library"] ++ rev u))) /\
  (p_platform pr = Other -> unset (lit "XDG_DATA_HOME") pr -> pkm_home pr = Ok (HPath ([lit "pkm"; lit "share"; lit ".local"] ++ rev u))) /\
  (forall l, p_platform pr = Other -> l <> [] -> (forall c, In c l -> c <> [] /\ c <> lit "." /\ c <> lit ".." /\ ~ In "/"%char c) ->
     dict_get (lit "XDG_DATA_HOME") (p_vars pr) = Some ("/"%char :: join (lit "/") l) -> pkm_home pr = Ok (HPath (lit "pkm" :: rev l))).
Proof.
  intros pr u H U N.
  assert (E : pkm_home pr = do p <- default_home pr; Ok (HPath p)) by (unfold pkm_home; destruct H as [H|H]; unfold unset in *; rewrite H; reflexivity).
  rewrite E. unfold default_home, data_text.
  assert (T : forall l, ~ In (lit "..") l -> resolve_from [] (u ++ l) = rev l ++ rev u).
  { intros l M. rewrite resolve_plain; [rewrite rev_app_distr, app_nil_r; reflexivity|]. intro I. apply in_app_iff in I. tauto. }
  split; [|split].
  - intros ->. assert (P : path_parts (lit "~/Library/Application Support/") = [lit "~"; lit "Library"; lit "Application Support"]) by (vm_compute; reflexivity). rewrite P.
    change (expand_user (p_user_home pr) (is_absolute (lit "~/Library/Application Support/")) ([lit "~"; lit "Library"; lit "Application Support"] ++ [lit "pkm"])) with (match p_user_home pr [] with Some h => Ok (true, h ++ [lit "Library"; lit "Application Support"; lit "pkm"]) | None => Err RuntimeErr end).
    rewrite U. cbn [bind fst snd]. rewrite T; [reflexivity|]. intros [I|[I|[I|[]]]]; discriminate.
  - intros -> X. rewrite X. assert (P : path_parts (lit "~/.local/share") = [lit "~"; lit ".local"; lit "share"]) by (vm_compute; reflexivity). rewrite P.
    change (expand_user (p_user_home pr) (is_absolute (lit "~/.local/share")) ([lit "~"; lit ".local"; lit "share"] ++ [lit "pkm"])) with (match p_user_home pr [] with Some h => Ok (true, h ++ [lit ".local"; lit "share"; lit "pkm"]) | None => Err RuntimeErr end).
    rewrite U. cbn [bind fst snd]. rewrite T; [reflexivity|]. intros [I|[I|[I|[]]]]; discriminate.
  - intros l -> L C X. rewrite X.
    cbv zeta. rewrite parts_absolute; [|exact L|intros c I; destruct (C c I) as (A1 & A2 & _ & A4); auto].
    match goal with |- context [expand_user ?a ?b ?c] => assert (P : expand_user a b c = Ok (true, c)) by (destruct l as [|[|k s] l]; reflexivity) end.
    rewrite P. cbn [bind fst snd]. rewrite resolve_plain; [rewrite rev_app_distr, app_nil_r; reflexivity|]. intro I. apply in_app_iff in I. destruct I as [I|[I|[]]]; [destruct (C _ I) as (_ & _ & D & _); contradiction|discriminate].
Qed.
Example C279_default_example : pkm_home (linux [(lit "XDG_DATA_HOME", lit "/srv/data")] [lit "tmp"]) = Ok (HPath [lit "pkm"; lit "data"; lit "srv"]) /\ pkm_home (linux [] [lit "tmp"]) = Ok (HPath [lit "pkm"; lit "share"; lit ".local"; lit "ann"; lit "home"]) /\ lit "/srv/data" = "/"%char :: join (lit "/") [lit "srv"; lit "data"].
Proof. vm_compute. repeat split. Qed.

(** an empty XDG_DATA_HOME counts as unset for every other program; here it is the directory pkm is run in *)
Theorem C279_empty_refuted : forall user cwd, pkm_home (Process [(lit "XDG_DATA_HOME", [])] Other cwd user) = Ok (HPath (lit "pkm" :: cwd)).
Proof. reflexivity. Qed.
Theorem C279_two_refuted : exists vars a b h1 h2, p_vars (linux vars a) = p_vars (linux vars b) /\ pkm_home (linux vars a) = Ok (HPath h1) /\ pkm_home (linux vars b) = Ok (HPath h2) /\ h1 <> h2.
Proof. exists [(lit "XDG_DATA_HOME", [])], [lit "a"], [lit "b"], [lit "pkm"; lit "a"], [lit "pkm"; lit "b"]. repeat split; try reflexivity. discriminate. Qed.

(** ** C280: cleaning the cache removes the caches and nothing else *)
Definition in_caches (h q : path) : Prop := exists r, q = r ++ [lit "repos"] ++ h \/ q = r ++ [lit "build-cache"] ++ h \/ q = r ++ [lit "http"; lit "resources"] ++ h.
Lemma in_caches_iff : forall h q, in_caches h q <-> caches h q = true.
Proof.
  intros h q. unfold caches, repos_dir, builds_dir, http_dir. rewrite !orb_true_iff, !under_iff. unfold in_caches. cbn [app]. split.
  - intros [r [E|[E|E]]]; eauto.
  - intros [[[r E]|[r E]]|[r E]]; eauto.
Qed.
Theorem C280_clean : forall initial h f f', clean_cache initial (HPath h) f = Ok f' ->
  (forall q, in_caches h q -> lookup f' q = None) /\
  (forall q n, ~ in_caches h q -> lookup f q = Some n -> lookup f' q = Some n) /\
  (forall q n, lookup f q = None -> lookup f' q = Some n ->
     (n = Dir /\ exists r, [lit "pkm"; lit "etc"] ++ h = r ++ q) \/ (n = Dir /\ q = lit "resources" :: h) \/ (q = [lit "repositories.toml"; lit "pkm"; lit "etc"] ++ h /\ n = File initial)).
Proof.
  intros initial h f f' H. destruct (clean_spec _ _ _ _ H) as (A & B & C & _). split; [|split].
  - intros q Q. apply A, in_caches_iff, Q.
  - intros q n Q L. rewrite B; [exact L| |congruence]. destruct (caches h q) eqn:E; [|reflexivity]. exfalso. apply Q, in_caches_iff, E.
  - intros q n L N. destruct (C q L) as [[D [F|F]]|[E F]]; [congruence| | |].
    + left. split; [congruence|]. apply under_iff in F. exact F.
    + right. left. split; [congruence|exact F].
    + right. right. split; [exact E|congruence].
Qed.
(** it succeeds if no file is where a directory should be *)
(** it succeeds if no file is where a directory should be *)
Theorem C280_succeeds : forall initial h f,
  (forall q s, (exists r, [lit "pkm"; lit "etc"] ++ h = r ++ q) \/ (exists r, [lit "build-cache"] ++ h = r ++ q) \/ (exists r, [lit "http"; lit "resources"] ++ h = r ++ q) -> lookup f q <> Some (File s)) ->
  exists f', clean_cache initial (HPath h) f = Ok f'.
Proof. intros initial h f H. apply clean_ok. intros q s U. apply H. rewrite <- !under_iff. exact U. Qed.
Definition old_home : path := [lit "pkm"; lit "data"].
Definition old_files : fs := [([], Dir); ([lit "data"], Dir); (old_home, Dir); (lit "repos" :: old_home, Dir); (lit "pypi" :: lit "repos" :: old_home, File (lit "x")); (lit "keep" :: old_home, File (lit "y")); (lit "http" :: lit "resources" :: old_home, Dir); (lit "resources" :: old_home, Dir)].
Example C280_example : exists f', clean_cache (lit "z") (HPath old_home) old_files = Ok f' /\ in_caches old_home (lit "pypi" :: lit "repos" :: old_home) /\ lookup f' (lit "pypi" :: lit "repos" :: old_home) = None /\ lookup f' (lit "keep" :: old_home) = Some (File (lit "y")) /\ lookup f' (repos_config old_home) = Some (File (lit "z")).
Proof. eexists. split; [vm_compute; reflexivity|]. split; [exists [lit "pypi"]; left; reflexivity|]. repeat split; vm_compute; reflexivity. Qed.

(** ** C281: a build through the hooks leaves the home and the modules of pkm alone *)
(** a build is to get a directory of its own if there is no home yet; it always gets the home *)
Definition makes_home : build := fun h f => match use_home f h with Ok (_, g) => (g, Ok (lit "built")) | Err e => (f, Err e) end.
Theorem C281_home_refuted : forall p tmp attr f k, lookup f p = None -> under tmp p = false -> (forall q s, under q p = true -> lookup f q <> Some (File s)) ->
  exists w', run_hook k tmp makes_home (World attr (HPath p) f) = (w', Ok (lit "built")) /\ lookup (w_fs w') p = Some Dir.
Proof.
  intros p tmp attr f k L U F. apply exists_at_false in L.
  assert (P : exists g, mkdirs f p = Ok g) by (apply mkdirs_ok; exact F).
  assert (Q : exists g, mkdirs (write f tmp Dir) p = Ok g).
  { apply mkdirs_ok. intros q s V. rewrite lookup_write. destruct (path_eqb q tmp); [discriminate|apply F, V]. }
  destruct P as [g P]. destruct Q as [g' Q]. pose proof (proj1 (mkdirs_spec _ _ _ P)) as P1. pose proof (proj1 (mkdirs_spec _ _ _ Q)) as Q1.
  destruct k; cbn [run_hook]; unfold with_buildsys, run_build, makes_home, use_home; cbn [w_home w_fs w_attr]; rewrite ?L, ?P, ?Q; cbn [bind fst snd w_fs]; eexists; (split; [reflexivity|]); cbn [w_fs]; rewrite ?lookup_remove_tree, ?U; assumption.
Qed.
(** afterwards the name [pkm.api.pkm] is no longer the module *)
Theorem C281_module_refuted : forall p tmp b f k, k <> BuildEditable -> lookup f p = None ->
  imported (fst (run_hook k tmp b (World OModule (HPath p) f))) = OPkm (HPath p).
Proof.
  intros p tmp b f k K L. apply exists_at_false in L.
  destruct k; try contradiction; cbn [run_hook]; unfold with_buildsys, run_build; cbn [w_home w_fs w_attr]; rewrite L; destruct (b (HPath p) (write f tmp Dir)); reflexivity.
Qed.
(** with a home there is nothing to guard: the build runs as it is and the modules stay; in any case the new directory does not stay *)
Theorem C281_partial : forall p tmp b f attr k f1 r, b (HPath p) (if exists_at f p then f else match k with BuildEditable => f | _ => write f tmp Dir end) = (f1, r) ->
  snd (run_hook k tmp b (World attr (HPath p) f)) = r /\ w_home (fst (run_hook k tmp b (World attr (HPath p) f))) = HPath p /\
  (lookup f p <> None \/ k = BuildEditable -> w_attr (fst (run_hook k tmp b (World attr (HPath p) f))) = attr /\ w_fs (fst (run_hook k tmp b (World attr (HPath p) f))) = f1) /\
  (lookup f p = None -> k <> BuildEditable -> forall q, (under tmp q = true -> lookup (w_fs (fst (run_hook k tmp b (World attr (HPath p) f)))) q = None) /\ (under tmp q = false -> lookup (w_fs (fst (run_hook k tmp b (World attr (HPath p) f)))) q = lookup f1 q)).
Proof.
  intros p tmp b f attr k f1 r H. destruct (exists_at f p) eqn:E.
  - assert (R : run_hook k tmp b (World attr (HPath p) f) = (World attr (HPath p) f1, r)) by (destruct k; cbn [run_hook]; unfold with_buildsys, run_build; cbn [w_home w_fs w_attr]; rewrite ?E, H; reflexivity).
    rewrite R. cbn [fst snd w_home w_attr w_fs]. apply exists_at_true in E. repeat split; auto; contradiction.
  - pose proof (proj1 (exists_at_false _ _) E) as L. destruct k.
    4: cbn [run_hook]; unfold run_build; cbn [w_home w_fs w_attr]; rewrite H; cbn [fst snd w_home w_attr w_fs]; repeat split; auto; contradiction.
    all: cbn [run_hook]; unfold with_buildsys, run_build; cbn [w_home w_fs w_attr]; rewrite E, H; cbn [fst snd w_home w_attr w_fs]; split; [reflexivity|]; split; [reflexivity|]; split; [intros [N|N]; [contradiction|discriminate]|]; intros _ _ q; rewrite lookup_remove_tree; destruct (under tmp q); split; intro; congruence.
Qed.
Example C281_example :
  lookup [([], Dir)] old_home = None /\ under [lit "t"; lit "tmp"] old_home = false /\
  (let w := fst (run_hook BuildWheel [lit "t"; lit "tmp"] makes_home (World OModule (HPath old_home) [([], Dir); ([lit "tmp"], Dir)])) in
   lookup (w_fs w) old_home = Some Dir /\ lookup (w_fs w) [lit "t"; lit "tmp"] = None /\ imported w = OPkm (HPath old_home)).
Proof. vm_compute. repeat split. Qed.
