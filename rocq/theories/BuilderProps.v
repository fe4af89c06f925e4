(** C137: the wheels pkm builds pass its own verification and install.  C138: a wheel holds the code of the project.  C139: a build does
    not depend on the working directory.  C140: a source distribution gives the same wheel.  C141: the tag of a wheel fits. *)
From Coq Require Import String Ascii List Bool NArith Arith Lia.
From Verif Require Import Base BaseFacts ParserModel FsModel FsFacts SharedModel ArtifactModel ArtifactProofs SharedProofs RecordFileModel GitModel NamesModel VersionModel SpecifierModel TagsModel TagsSpec TagsProofs TagsProps RecordFileProps BuilderModel BuilderProofs.
Import ListNotations.
Open Scope string_scope.
Open Scope nat_scope.
Open Scope list_scope.
Open Scope bool_scope.

(** a file system: parents are directories, a path has one entry, names have no slash *)
Definition real_fs (f : fs) : Prop :=
  lookup f [] = Some Dir /\ (forall c p, lookup f (c :: p) <> None -> lookup f p = Some Dir) /\ NoDup (map fst f) /\
  (forall p c, lookup f p <> None -> In c p -> ~ In "/"%char c).
(** the directories that count as packages of the project at [root] *)
Inductive package_dir (f : fs) (root : path) (p : project) : path -> Prop :=
| pd_listed : forall l n, p_packages p = Some l -> In n l -> package_dir f root p (join_path root n)
| pd_src : forall n, (p_packages p = None \/ p_packages p = Some []) -> lookup f (lit "src" :: root) <> None -> lookup f (n :: lit "src" :: root) = Some Dir ->
    package_dir f root p (n :: lit "src" :: root)
| pd_flat : forall n, (p_packages p = None \/ p_packages p = Some []) -> lookup f (lit "src" :: root) = None -> lookup f (n :: root) = Some Dir -> package_dir f root p (n :: root).
Lemma package_dirs : forall f root p dirs, src_packages f root (p_packages p) = Ok dirs -> forall d, In d dirs <-> package_dir f root p d.
Proof.
  intros f root p dirs H d. destruct (p_packages p) as [[|x l]|] eqn:P.
  1,3: assert (N : unlisted p) by (unfold unlisted; rewrite P; exact I); rewrite <- P in H; destruct (unlisted_dirs f root p dirs N H) as (src & S & Di & ->); rewrite filter_In, in_map_iff; split;
    [intros [(n & <- & In_) Z]; apply is_dir_true in Z; destruct (exists_at f (lit "src" :: root)) eqn:E; subst src;
      [apply exists_at_true in E; apply pd_src; [rewrite P; auto|exact E|exact Z]|apply exists_at_false in E; apply pd_flat; [rewrite P; auto|exact E|exact Z]]
    |intro Z; inversion Z as [l0 n Q I0 E0|n Q X Y E0|n Q X Y E0]; subst d; [rewrite P in Q; try discriminate Q; injection Q as <-; destruct I0| |];
      [apply exists_at_true in X|apply exists_at_false in X]; rewrite X in S; subst src; (split; [exists n; split; [reflexivity|apply children_in; rewrite Y; discriminate]|apply is_dir_true; exact Y])].
  injection H as <-. change (join_path root x :: map (join_path root) l) with (map (join_path root) (x :: l)). rewrite in_map_iff. split.
  - intros (n & <- & I). eapply pd_listed; [exact P|exact I].
  - intro Z. inversion Z as [l0 n Q I0 E0|n Q X Y E0|n Q X Y E0]; subst d; [|destruct Q as [Q|Q]; rewrite P in Q; discriminate|destruct Q as [Q|Q]; rewrite P in Q; discriminate]. rewrite P in Q. injection Q as <-. exists n. split; [reflexivity|exact I0].
Qed.

Section Props.
  Variable metadata : project -> str -> str -> res str.
  Variable entry_points : project -> res str.
  Variable digest : str -> str.
  Notation wheel_of := (wheel_tree metadata entry_points digest).

  (** ** C138 *)
  (** the packages are in the wheel as they are in the project, without caches; besides them there is only the dist-info directory *)
  Theorem C138_contents : forall f cwd root p t, real_fs f -> wheel_of f cwd root p = Ok t ->
    lookup t [] = Some Dir /\ lookup t [dist_info_name p] = Some Dir /\
    (forall d q, package_dir f root p d -> ~ In pycache q -> lookup t (q ++ [hd [] d]) = lookup f (q ++ d)) /\
    (forall x n, lookup t x = Some n -> x = [] \/ under [dist_info_name p] x = true \/
       exists d q, package_dir f root p d /\ ~ In pycache q /\ x = q ++ [hd [] d] /\ lookup f (q ++ d) = Some n).
  Proof.
    intros f cwd root p t (A & B & _) H. assert (W : wf_fs f) by (split; assumption). destruct (wheel_parts metadata entry_points digest f cwd root p t H) as (info & dirs & t0 & I & D & C & ->).
    destruct (tree_shape metadata entry_points f cwd root p info dirs t0 W I D C) as (_ & NI & T1 & T2 & T3 & _). destruct (base_shape metadata entry_points f cwd p info I) as (_ & R & _ & NN & S).
    assert (CC : forall q, cached q = false <-> ~ In pycache q).
    { intro q. unfold cached. split.
      - intros E Y. assert (existsb (str_eqb pycache) q = true) by (apply existsb_exists; exists pycache; split; [exact Y|apply str_eqb_refl]). congruence.
      - intro N. destruct (existsb (str_eqb pycache) q) eqn:E; [|reflexivity]. exfalso. apply existsb_exists in E. destruct E as (x & I1 & E). apply str_eqb_eq in E. subst x. exact (N I1). }
    assert (NR : forall q x, x <> dist_info_name p -> path_eqb (q ++ [x]) (record_file p) = false).
    { intros q x N. destruct (path_eqb (q ++ [x]) (record_file p)) eqn:E; [|reflexivity]. exfalso. apply path_eqb_eq in E. change (record_file p) with ([lit "RECORD"] ++ [dist_info_name p]) in E. apply app_inj_tail in E. apply N, E. }
    split; [|split; [|split]].
    - rewrite lookup_write. change (path_eqb [] (record_file p)) with false. cbn iota. rewrite T3; [exact R|intros; reflexivity].
    - rewrite lookup_write. destruct (path_eqb [dist_info_name p] (record_file p)) eqn:E; [apply path_eqb_eq in E; discriminate E|]. rewrite T3; [exact NN|]. intros d Id. destruct (under [hd [] d] [dist_info_name p]) eqn:V; [|reflexivity]. exfalso. apply NI, in_map_iff. exists d. split; [|exact Id]. apply under_cons_cases in V. destruct V as [V|V]; [injection V as V; exact V|apply under_len in V; cbn in V; lia].
    - intros d q P N. apply (package_dirs f root p dirs D) in P. rewrite lookup_write, NR; [|intro E; apply NI, in_map_iff; exists d; split; assumption]. apply CC in N. pose proof (T2 d q P) as X. rewrite N in X. exact X.
    - intros x n L. rewrite lookup_write in L. destruct (path_eqb x (record_file p)) eqn:E.
      + apply path_eqb_eq in E. subst x. right. left. exact (under_app [lit "RECORD"] [dist_info_name p]).
      + destruct (existsb (fun d => under [hd [] d] x) dirs) eqn:EX.
        * right. right. apply existsb_exists in EX. destruct EX as (d & Id & V). apply under_iff in V. destruct V as [r ->]. pose proof (eq_trans (eq_sym L) (T2 d r Id)) as Y. destruct (cached r) eqn:K; [discriminate Y|]. apply CC in K. exists d, r. split; [apply (package_dirs f root p dirs D), Id|]. split; [exact K|]. split; [reflexivity|symmetry; exact Y].
        * rewrite T3 in L. { destruct (S x) as [->|[->|(m & -> & _)]]; [congruence|auto|right; left; apply under_refl|right; left; exact (under_app [m] [dist_info_name p])]. }
          intros d Id. destruct (under [hd [] d] x) eqn:V; [|reflexivity]. assert (existsb (fun d => under [hd [] d] x) dirs = true) by (apply existsb_exists; exists d; split; assumption). congruence.
  Qed.
  (** ** C137 *)
  (** pkm opens every wheel it builds and finds all of its files signed correctly *)
  Theorem C137_verifies_partial : forall h f cwd root p t, real_fs f -> ~ In "/"%char (p_name p) -> ~ In "/"%char (p_version p) ->
    h (lit "sha256") = Some digest -> (forall c x, In x (digest c) -> is_space x = false /\ x <> "="%char) ->
    (forall d, package_dir f root p d -> ends_with (lit ".dist-info") (hd [] d) = false) ->
    wheel_of f cwd root p = Ok t -> exists w, open_wheel t = Ok w /\ verify_records h w = Ok tt.
  Proof.
    intros h f cwd root p t (A & B & U & SL) N V HH TF ND H. assert (W : wf_fs f) by (split; assumption).
    assert (ND' : forall dirs d, src_packages f root (p_packages p) = Ok dirs -> In d dirs -> ends_with ".dist-info" (hd [] d) = false) by (intros dirs d D Id; apply ND, (package_dirs f root p dirs D), Id).
    assert (SL' : slashless f) by (intros q L c; apply SL, L).
    destruct (wheel_opens metadata entry_points digest f cwd root p t W U SL' (conj N V) TF ND' H) as (t0 & _ & _ & _ & _ & _ & O). eexists. split; [exact O|].
    eapply (wheel_verifies metadata entry_points digest h f cwd root p t); eauto. split; assumption.
  Qed.
  (** such a wheel installs into a new site, and the site then has exactly the files of the packages and of the dist-info directory *)
  Theorem C137_installs_partial : forall h f cwd root p t extra, real_fs f -> ~ In "/"%char (p_name p) -> ~ In "/"%char (p_version p) ->
    h (lit "sha256") = Some digest -> (forall c x, In x (digest c) -> is_space x = false /\ x <> "="%char) ->
    (forall d, package_dir f root p d -> ends_with (lit ".dist-info") (hd [] d) = false) ->
    (forall e, In e extra -> starts_with (dist_info_name p ++ lit "/") (fst e) = true) ->
    wheel_of f cwd root p = Ok t ->
    exists w site, open_wheel t = Ok w /\ install_wheel h w extra (Site [] []) = Ok site /\
      (forall d q c, package_dir f root p d -> ~ In pycache q -> q <> [] -> lookup f (q ++ d) = Some (File c) -> dict_get (rel_text (q ++ [hd [] d])) (st_files site) = Some c) /\
      (forall k c, dict_get k (st_files site) = Some c -> starts_with (dist_info_name p ++ lit "/") k = true \/
         exists d q, package_dir f root p d /\ ~ In pycache q /\ lookup f (q ++ d) = Some (File c) /\ k = rel_text (q ++ [hd [] d])).
  Proof.
    intros h f cwd root p t extra RF N V HH TF ND EX H. assert (RF' := RF). destruct RF as (A & B & U & SL). assert (W : wf_fs f) by (split; assumption).
    assert (ND' : forall dirs d, src_packages f root (p_packages p) = Ok dirs -> In d dirs -> ends_with ".dist-info" (hd [] d) = false) by (intros dirs d D Id; apply ND, (package_dirs f root p dirs D), Id).
    assert (SL' : slashless f) by (intros q L c; apply SL, L).
    destruct (wheel_opens metadata entry_points digest f cwd root p t W U SL' (conj N V) TF ND' H) as (t0 & Ut & St & Lt & Et & LR & O).
    pose proof (wheel_verifies metadata entry_points digest h f cwd root p t _ W U SL' (conj N V) TF HH ND' H O) as VE.
    destruct (C138_contents f cwd root p t RF' H) as (R0 & R1 & Q1 & Q2).
    eexists. eexists. split; [exact O|]. unfold install_wheel. rewrite VE. cbn [bind]. split; [reflexivity|]. cbn [st_files w_files].
    set (text := snd (save_records (sign_tree digest t0))) in *. set (rp := record_path _). assert (RP : rel_text (record_file p) = rp) by reflexivity. set (all := (rel_text (record_file p), text) :: file_list t0).
    assert (NDisc : ~ In "/"%char (dist_info_name p)) by (apply good_dist_info; split; assumption).
    assert (NK : NoDup (map fst (file_list t0))) by (apply file_list_nodup; [exact Ut|exact St|intros c X; rewrite Lt in X; discriminate X]).
    assert (Lk : forall q, q <> record_file p -> lookup t q = lookup t0 q). { intros q NE. rewrite Et. cbn [lookup]. destruct (path_eqb q (record_file p)) eqn:E; [apply path_eqb_eq in E; contradiction|reflexivity]. }
    assert (F : filter (fun g => negb (str_eqb (fst g) rp)) all = file_list t0).
    { unfold all. cbn [filter fst]. rewrite RP, str_eqb_refl. cbn [negb]. assert (G : forall l : list (str * str), (forall e, In e l -> fst e <> rp) -> filter (fun g => negb (str_eqb (fst g) rp)) l = l).
      { induction l as [|e l IH]; intro Hl; [reflexivity|]. cbn [filter]. destruct (str_eqb (fst e) rp) eqn:E; [apply str_eqb_eq in E; exfalso; exact (Hl e (or_introl eq_refl) E)|]. cbn [negb]. f_equal. apply IH. intros x X. apply Hl. right. exact X. }
      apply G. intros [k c] I E. cbn [fst] in E. apply file_list_in in I. destruct I as (q & I & K). pose proof (entry_lookup _ _ _ Ut I) as L. assert (q = record_file p).
      { apply rel_text_inj; [intros ->; pose proof (eq_trans (eq_sym L) Lt) as Z; discriminate Z|discriminate|apply St; intro Z; pose proof (eq_trans (eq_sym L) Z) as Z2; discriminate Z2| |transitivity k; [symmetry; exact K|rewrite RP; exact E]]. intros x [<-|[<-|[]]]; [intro Z; vm_compute in Z; repeat (destruct Z as [Z|Z]; [discriminate Z|]); exact Z|exact NDisc]. }
      subst q. pose proof (eq_trans (eq_sym L) LR) as Z. discriminate Z. }
    rewrite F. split.
    - intros d q c P NP NQ L. rewrite dict_of_last, rev_app_distr. pose proof (Q1 d q P NP) as L1. pose proof (eq_trans L1 L) as L2. assert (NE : q ++ [hd [] d] <> record_file p).
      { intro E. pose proof (ND d P) as X. change (record_file p) with ([lit "RECORD"] ++ [dist_info_name p]) in E. apply app_inj_tail in E. destruct E as [_ E]. rewrite E in X. pose proof (dist_info_ends p) as Y. pose proof (eq_trans (eq_sym X) Y) as Z. discriminate Z. }
      pose proof (eq_trans (eq_sym (Lk _ NE)) L2) as L3. pose proof (lookup_in _ _ _ L3) as I3.
      assert (I4 : In (rel_text (q ++ [hd [] d]), c) (file_list t0)) by (apply file_list_in; exists (q ++ [hd [] d]); split; [exact I3|reflexivity]).
      pose proof (dict_of_nodup _ _ _ _ NK I4) as G. unfold dict_of in G. rewrite dict_of_last in G. cbn [dict_get] in G.
      assert (Ff : forall (a b : list (str * str)) P, find P (a ++ b) = match find P a with Some x => Some x | None => find P b end).
      { intros a b P0. induction a as [|x a IHa]; [reflexivity|]. cbn. destruct (P0 x); [reflexivity|exact IHa]. }
      rewrite Ff. destruct (find (fun e => str_eqb (rel_text (q ++ [hd [] d])) (fst e)) (rev extra)) as [e|] eqn:FE; [|exact G]. exfalso.
      apply find_some in FE. destruct FE as [Ie Ee]. apply in_rev in Ie. apply EX in Ie. apply str_eqb_eq in Ee. rewrite <- Ee in Ie. apply starts_with_iff in Ie. destruct Ie as [r Er].
      assert (Rr : rel_text (q ++ [hd [] d]) = hd [] d ++ "/"%char :: rel_text q). { unfold rel_text. rewrite rev_app_distr. cbn [rev app]. destruct (rev q) as [|y l] eqn:Eq; [exfalso; apply NQ; rewrite <- (rev_involutive q), Eq; reflexivity|]. reflexivity. }
      assert (Sx : ~ In "/"%char (hd [] d)). { destruct d as [|x d']; [intros []|]. apply (SL (q ++ x :: d')); [congruence|]. apply in_or_app. right. left. reflexivity. }
      rewrite Rr in Er. apply (f_equal (split_on "/")) in Er. rewrite (split_on_app "/" (hd [] d)) in Er by exact Sx. rewrite <- app_assoc in Er. change (lit "/" ++ r) with ("/"%char :: r) in Er. rewrite (split_on_app "/" (dist_info_name p)) in Er by exact NDisc. injection Er as Er _.
      pose proof (ND d P) as X. rewrite Er in X. pose proof (eq_trans (eq_sym X) (dist_info_ends p)) as Z. discriminate Z.
    - intros k c G. rewrite dict_of_last in G. destruct (find _ _) as [e|] eqn:FE; [|discriminate G]. injection G as <-. apply find_some in FE. destruct FE as [Ie Ee]. apply str_eqb_eq in Ee. subst k. apply in_rev in Ie. apply in_app_or in Ie. destruct Ie as [Ie|Ie]; [|left; apply EX, Ie].
      destruct e as [k c]. cbn [fst snd]. apply file_list_in in Ie. destruct Ie as (q & Iq & ->). pose proof (entry_lookup _ _ _ Ut Iq) as L0. assert (NE : q <> record_file p) by (intros ->; congruence). pose proof (eq_trans (Lk q NE) L0) as L. destruct (Q2 q _ L) as [->|[Un|(d & r & P & NP & Eq & Lf)]]; [congruence| |].
      + left. apply under_iff in Un. destruct Un as [r ->]. destruct r as [|x r]; [cbn [app] in L; pose proof (eq_trans (eq_sym L) R1) as Z; discriminate Z|]. apply starts_with_iff. unfold rel_text. rewrite rev_app_distr. cbn [rev app]. destruct (rev r ++ [x]) as [|y l] eqn:El; [destruct (rev r); discriminate El|]. cbn [join]. eexists. rewrite <- app_assoc. reflexivity.
      + right. exists d, r. split; [exact P|]. split; [exact NP|]. split; [exact Lf|rewrite Eq; reflexivity].
  Qed.
  (** building a project that has a src directory again, also after its results are in it, gives the same wheel but for the order of RECORD *)
  Theorem C138_again_partial : forall pack fname f cwd cwd' root p f' t, real_fs f -> (p_packages p = None \/ p_packages p = Some []) ->
    (forall n, p_readme p <> Some (TFile n)) -> (forall n, p_license p <> Some (TFile n)) -> lookup f (lit "src" :: root) <> None ->
    (forall q c, under q (lit "pkm" :: lit "etc" :: root) = true \/ under q (p_version p :: lit "dist" :: root) = true -> lookup f q <> Some (File c)) ->
    build_wheel metadata entry_points digest pack fname f cwd root p = Ok (f', t) ->
    exists f'' t', build_wheel metadata entry_points digest pack fname f' cwd' root p = Ok (f'', t') /\ forall q, q <> [lit "RECORD"; dist_info_name p] -> lookup t' q = lookup t q.
  Proof.
    intros pack fname f cwd cwd' root p f' t (A & B & _) N F1 F2 X NF H. apply (build_again metadata entry_points digest pack fname f cwd cwd' root p f' t); try assumption; [split; assumption| |split; assumption].
    unfold unlisted. destruct N as [-> | ->]; exact I.
  Qed.
  (** ** C139 *)
  Theorem C139_anywhere_partial : forall f cwd cwd' root p, (forall n, p_readme p <> Some (TFile n)) -> (forall n, p_license p <> Some (TFile n)) -> wheel_of f cwd root p = wheel_of f cwd' root p.
  Proof. intros f cwd cwd' root p A B. unfold wheel_tree. rewrite (info_anywhere metadata entry_points f f cwd cwd' p (conj A B)). reflexivity. Qed.
  (** ** C140 *)
  Theorem C140_sdist_partial : forall pyproject f cwd cwd' root p s t, real_fs f -> (p_packages p = None \/ p_packages p = Some []) ->
    (forall n, p_readme p <> Some (TFile n)) -> (forall n, p_license p <> Some (TFile n)) ->
    sdist_tree metadata entry_points pyproject f cwd root p = Ok s -> wheel_of f cwd root p = Ok t ->
    exists t', wheel_of s cwd' [] p = Ok t' /\ forall q, q <> [lit "RECORD"; dist_info_name p] -> lookup t' q = lookup t q.
  Proof.
    intros pyproject f cwd cwd' root p s t (A & B & _) N F1 F2 S H. apply (sdist_same metadata entry_points digest pyproject f cwd cwd' root p s t); try assumption; [split; assumption| |split; assumption].
    unfold unlisted. destruct N as [-> | ->]; exact I.
  Qed.
End Props.

(** ** Samples and counterexamples *)
Definition meta (p : project) (readme license : str) : res str := Ok (p_name p ++ lit ":" ++ readme).
Definition entries (p : project) : res str := Ok (lit "[console_scripts]").
Definition digest0 (c : str) : str := map (fun x => if is_space x || Ascii.eqb x "=" then "_"%char else x) c.
Definition h0 : hashlib := fun t => if str_eqb t (lit "sha256") then Some digest0 else None.
Definition wheel0 := wheel_tree meta entries digest0.
Definition dirs (l : list (list string)) : fs := map (fun p => (map lit p, Dir)) l.
Definition files (l : list (list string * string)) : fs := map (fun e => (map lit (fst e), File (lit (snd e)))) l.
Definition demo : project := Project (lit "my-demo") (lit "1.0") None None None.
Definition demo_fs : fs := dirs [[]; ["w"]; ["src"; "w"]; ["pkg"; "src"; "w"]; ["sub"; "pkg"; "src"; "w"]; ["__pycache__"; "pkg"; "src"; "w"]]%string ++
  files [(["a.py"; "pkg"; "src"; "w"], "x = 1"); (["b.py"; "sub"; "pkg"; "src"; "w"], "y"); (["a.pyc"; "__pycache__"; "pkg"; "src"; "w"], "cc"); (["README.md"; "w"], "read me"); (["LICENSE.txt"; "w"], "free")]%string.
Lemma real_by : forall f, forallb (fun e => match fst e with [] => match snd e with Dir => true | _ => false end | _ :: p => is_dir f p end) f = true -> is_dir f [] = true ->
  (fix nodup l := match l with [] => true | x :: r => negb (existsb (path_eqb x) r) && nodup r end) (map fst f) = true ->
  forallb (fun e => forallb (fun c => negb (existsb (Ascii.eqb "/") c)) (fst e)) f = true -> real_fs f.
Proof.
  intros f A R N S. split; [apply is_dir_true, R|]. split; [|split].
  - intros c p L. destruct (lookup f (c :: p)) as [n|] eqn:E; [|congruence]. apply lookup_in in E. rewrite forallb_forall in A. apply A in E. cbn in E. apply is_dir_true, E.
  - clear A R S. induction (map fst f) as [|x l IH]; [constructor|]. apply andb_true_iff in N. destruct N as [N M]. constructor; [|apply IH, M]. intro I. apply negb_true_iff in N. assert (existsb (path_eqb x) l = true) by (apply existsb_exists; exists x; split; [exact I|apply path_eqb_refl]). congruence.
  - intros p c L I Q. destruct (lookup f p) as [n|] eqn:E; [|congruence]. apply lookup_in in E. rewrite forallb_forall in S. apply S in E. rewrite forallb_forall in E. apply E in I. apply negb_true_iff in I. assert (existsb (Ascii.eqb "/") c = true) by (apply existsb_exists; exists "/"%char; split; [exact Q|reflexivity]). congruence.
Qed.
Lemma digest0_plain : forall c x, In x (digest0 c) -> is_space x = false /\ x <> "="%char.
Proof.
  intros c x I. apply in_map_iff in I. destruct I as (y & E & _). destruct (is_space y) eqn:S; cbn [orb] in E; [subst x; split; [reflexivity|discriminate]|]. destruct (Ascii.eqb y "=") eqn:Q; [subst x; split; [reflexivity|discriminate]|]. subst y. split; [exact S|]. intros ->. discriminate Q.
Qed.
Example C137_sample : real_fs demo_fs /\ exists t w, wheel0 demo_fs [lit "w"] [lit "w"] demo = Ok t /\ open_wheel t = Ok w /\ verify_records h0 w = Ok tt /\
  w_dist_info w = lit "my_demo-1.0.dist-info" /\ In (lit "pkg/sub/b.py", lit "y") (w_files w) /\ lookup t [lit "__pycache__"; lit "pkg"] = None.
Proof.
  split; [apply real_by; vm_compute; reflexivity|]. eexists. eexists. split; [vm_compute; reflexivity|]. split; [vm_compute; reflexivity|]. split; [vm_compute; reflexivity|]. split; [reflexivity|]. split; [vm_compute; tauto|vm_compute; reflexivity].
Qed.
Lemma demo_packages : forall d, package_dir demo_fs [lit "w"] demo d -> d = [lit "pkg"; lit "src"; lit "w"].
Proof.
  intros d P. assert (D : src_packages demo_fs [lit "w"] (p_packages demo) = Ok [[lit "pkg"; lit "src"; lit "w"]]) by (vm_compute; reflexivity). apply (package_dirs _ _ _ _ D) in P. destruct P as [<-|[]]. reflexivity.
Qed.
Example C137_sample_installs : exists t w site, wheel0 demo_fs [lit "w"] [lit "w"] demo = Ok t /\ open_wheel t = Ok w /\
  install_wheel h0 w [(lit "my_demo-1.0.dist-info/INSTALLER", lit "pkm")] (Site [] []) = Ok site /\ dict_get (lit "pkg/a.py") (st_files site) = Some (lit "x = 1").
Proof.
  destruct C137_sample as (RF & t & w0 & T & _). destruct (C137_installs_partial meta entries digest0 h0 demo_fs [lit "w"] [lit "w"] demo t [(lit "my_demo-1.0.dist-info/INSTALLER", lit "pkm")]) as (w & site & O & S & F & _).
  - exact RF.
  - vm_compute. intuition discriminate.
  - vm_compute. intuition discriminate.
  - reflexivity.
  - exact digest0_plain.
  - intros d P. rewrite (demo_packages d P). vm_compute. reflexivity.
  - intros e [<-|[]]. vm_compute. reflexivity.
  - exact T.
  - exists t, w, site. split; [exact T|]. split; [exact O|]. split; [exact S|]. assert (P : package_dir demo_fs [lit "w"] demo [lit "pkg"; lit "src"; lit "w"]) by (apply pd_src; [left; reflexivity|vm_compute; discriminate|vm_compute; reflexivity]).
    exact (F _ [lit "a.py"] (lit "x = 1") P (fun I => match I with or_introl E => ltac:(discriminate E) | or_intror K => K end) ltac:(discriminate) ltac:(vm_compute; reflexivity)).
Qed.
(** a package directory with such a name hides the one of the wheel: the wheel is built and can not be opened *)
Theorem C137_dist_info_refuted : exists f root p t, real_fs f /\ ~ In "/"%char (p_name p) /\ ~ In "/"%char (p_version p) /\ wheel0 f root root p = Ok t /\ open_wheel t = Err IOErr.
Proof.
  exists (dirs [[]; ["w"]; ["src"; "w"]; ["x.dist-info"; "src"; "w"]]%string), [lit "w"], demo. eexists. split; [apply real_by; vm_compute; reflexivity|]. split; [vm_compute; intuition discriminate|]. split; [vm_compute; intuition discriminate|]. split; [vm_compute; reflexivity|vm_compute; reflexivity].
Qed.
(** *** C138 *)
(** a module that is a single file in src is not in the wheel *)
Theorem C138_modules_refuted : exists f root p t c, real_fs f /\ wheel0 f root root p = Ok t /\ lookup f (lit "tool.py" :: lit "src" :: root) = Some (File c) /\ lookup t [lit "tool.py"] = None.
Proof.
  exists (dirs [[]; ["w"]; ["src"; "w"]]%string ++ files [(["tool.py"; "src"; "w"], "x")]%string), [lit "w"], demo. eexists. eexists. split; [apply real_by; vm_compute; reflexivity|]. split; [vm_compute; reflexivity|]. split; vm_compute; reflexivity.
Qed.
(** without a src directory the results of the first build are in the wheel of the second *)
Definition flat_fs : fs := dirs [[]; ["w"]; ["pkg"; "w"]; [".git"; "w"]]%string ++ files [(["a.py"; "pkg"; "w"], "x"); (["secret"; ".git"; "w"], "s")]%string.
Definition build0 := build_wheel meta entries digest0 (fun _ => lit "zip") (lit "d.whl").
Theorem C138_flat_refuted : exists f root p f1 t1 f2 t2, real_fs f /\ build0 f root root p = Ok (f1, t1) /\ build0 f1 root root p = Ok (f2, t2) /\
  lookup t1 [lit "dist"] = None /\ lookup t2 [lit "d.whl"; lit "1.0"; lit "dist"] = Some (File (lit "zip")) /\
  lookup t1 [lit "secret"; lit ".git"] = Some (File (lit "s")) /\ lookup t1 [lit "pkm"; lit "etc"] = Some Dir.
Proof.
  exists flat_fs, [lit "w"], demo. eexists. eexists. eexists. eexists. split; [apply real_by; vm_compute; reflexivity|]. split; [vm_compute; reflexivity|]. split; [vm_compute; reflexivity|]. repeat split; vm_compute; reflexivity.
Qed.
Example C138_again_sample : exists f1 t1 f2 t2, build0 demo_fs [lit "w"] [lit "w"] demo = Ok (f1, t1) /\ build0 f1 [] [lit "w"] demo = Ok (f2, t2) /\
  lookup f1 [lit "d.whl"; lit "1.0"; lit "dist"; lit "w"] = Some (File (lit "zip")) /\ lookup t2 [lit "a.py"; lit "pkg"] = Some (File (lit "x = 1")).
Proof. eexists. eexists. eexists. eexists. split; [vm_compute; reflexivity|]. split; [vm_compute; reflexivity|]. split; vm_compute; reflexivity. Qed.
(** *** C139 *)
Definition with_readme : project := Project (lit "my-demo") (lit "1.0") None (Some (TFile (lit "README.md"))) None.
Definition with_license : project := Project (lit "my-demo") (lit "1.0") None None (Some (TFile (lit "LICENSE.txt"))).
(** built from elsewhere, the description is silently empty, or the build fails *)
Theorem C139_readme_refuted : exists f root p t t', real_fs f /\ wheel0 f root root p = Ok t /\ wheel0 f [] root p = Ok t' /\
  lookup t [lit "METADATA"; dist_info_name p] = Some (File (lit "my-demo:read me")) /\ lookup t' [lit "METADATA"; dist_info_name p] = Some (File (lit "my-demo:")).
Proof.
  exists demo_fs, [lit "w"], with_readme. eexists. eexists. split; [apply real_by; vm_compute; reflexivity|]. split; [vm_compute; reflexivity|]. split; [vm_compute; reflexivity|]. split; vm_compute; reflexivity.
Qed.
Theorem C139_license_refuted : exists f root p t, real_fs f /\ wheel0 f root root p = Ok t /\ lookup t [lit "LICENSE"; dist_info_name p] = Some (File (lit "free")) /\ wheel0 f [] root p = Err IOErr.
Proof.
  exists demo_fs, [lit "w"], with_license. eexists. split; [apply real_by; vm_compute; reflexivity|]. split; [vm_compute; reflexivity|]. split; vm_compute; reflexivity.
Qed.
Example C139_sample : exists t, wheel0 demo_fs [lit "elsewhere"] [lit "w"] demo = Ok t.
Proof. eexists. vm_compute. reflexivity. Qed.
(** *** C140 *)
Definition toml (p : project) : str := lit "[project]".
Definition sdist0 := sdist_tree meta entries toml.
Example C140_sample : exists s t t', sdist0 demo_fs [lit "w"] [lit "w"] demo = Ok s /\ wheel0 demo_fs [lit "w"] [lit "w"] demo = Ok t /\ wheel0 s [] [] demo = Ok t' /\
  lookup s [lit "a.py"; lit "pkg"; lit "src"] = Some (File (lit "x = 1")) /\ lookup t' [lit "a.py"; lit "pkg"] = Some (File (lit "x = 1")).
Proof. eexists. eexists. eexists. split; [vm_compute; reflexivity|]. split; [vm_compute; reflexivity|]. split; [vm_compute; reflexivity|]. split; vm_compute; reflexivity. Qed.
(** a listed package below another directory is moved to the top of the archive, whose configuration still names the old place *)
Definition nested : project := Project (lit "my-demo") (lit "1.0") (Some [lit "src/pkg"]) None None.
Theorem C140_nested_refuted : exists f root p s t, real_fs f /\ sdist0 f root root p = Ok s /\ wheel0 f root root p = Ok t /\ wheel0 s [] [] p = Err IOErr.
Proof.
  exists demo_fs, [lit "w"], nested. eexists. eexists. split; [apply real_by; vm_compute; reflexivity|]. split; [vm_compute; reflexivity|]. split; [vm_compute; reflexivity|]. vm_compute. reflexivity.
Qed.
(** a license file is not in the archive, so the wheel can not be built from it *)
Theorem C140_license_refuted : exists f root p s t, real_fs f /\ sdist0 f root root p = Ok s /\ wheel0 f root root p = Ok t /\ wheel0 s [] [] p = Err IOErr.
Proof.
  exists demo_fs, [lit "w"], with_license. eexists. eexists. split; [apply real_by; vm_compute; reflexivity|]. split; [vm_compute; reflexivity|]. split; [vm_compute; reflexivity|]. vm_compute. reflexivity.
Qed.
(** a readme file is not either, and the wheel from the archive has no description *)
Theorem C140_readme_refuted : exists f root p s t t', real_fs f /\ sdist0 f root root p = Ok s /\ wheel0 f root root p = Ok t /\ wheel0 s [] [] p = Ok t' /\
  lookup t [lit "METADATA"; dist_info_name p] <> lookup t' [lit "METADATA"; dist_info_name p].
Proof.
  exists demo_fs, [lit "w"], with_readme. eexists. eexists. eexists. split; [apply real_by; vm_compute; reflexivity|]. split; [vm_compute; reflexivity|]. split; [vm_compute; reflexivity|]. split; [vm_compute; reflexivity|]. vm_compute. discriminate.
Qed.
(** ** C141 *)
Lemma py_tag : forall m a rest, forallb is_lower (m_ipt m) = true -> (a < 10)%N -> fst (m_version m) = a -> match rest with [] => True | b :: _ => (b <= snd (m_version m))%N end ->
  exists s, compatibility_score m (lit "py" ++ first_two (a :: rest) ++ lit "-none-any") = Some s.
Proof.
  intros m a rest L T M R. assert (X : exists ds, first_two (a :: rest) = show_N a ++ ds /\ (ds = [] /\ rest = [] \/ exists b r, rest = b :: r /\ ds = show_N b)).
  { unfold first_two. destruct rest as [|b r]; cbn [firstn map concat]; eexists; (split; [reflexivity|]); [left; split; reflexivity|right; exists b, r; split; [reflexivity|apply app_nil_r]]. }
  destruct X as (ds & E & X). assert (D : exists d, show_N a = [d] /\ is_digit d = true /\ read_N [d] = a).
  { assert (a = 0 \/ a = 1 \/ a = 2 \/ a = 3 \/ a = 4 \/ a = 5 \/ a = 6 \/ a = 7 \/ a = 8 \/ a = 9)%N as Y by lia. repeat (destruct Y as [Y|Y]; [subst a; rewrite Y; eexists; split; [vm_compute; reflexivity|split; reflexivity]|]). subst a. rewrite Y. eexists. split; [vm_compute; reflexivity|split; reflexivity]. }
  destruct D as (d & Dd & Dg & Dr). rewrite E, Dd. cbn [app].
  assert (Dig : forall x, In x ds -> is_digit x = true). { destruct X as [[-> _]|(b & r & _ & ->)]; [intros x []|]. pose proof (show_N_digits b) as Y. rewrite forallb_forall in Y. exact Y. }
  assert (NoC : forall c, is_digit c = false -> c <> "p"%char -> c <> "y"%char -> ~ In c (lit "py" ++ d :: ds)).
  { intros c C P Y I. apply in_app_or in I. destruct I as [I|[->|I]]; [|congruence|apply Dig in I; congruence]. vm_compute in I. destruct I as [I|[I|[]]]; congruence. }
  replace (lit "py" ++ d :: ds ++ lit "-none-any") with (single (lit "py" ++ d :: ds) (lit "none") (lit "any")) by (unfold single; rewrite <- app_assoc; reflexivity).
  apply C50_single_tag; [exact L| |].
  - exists (lit "py" ++ d :: ds), (lit "none"), (lit "any"). split; [reflexivity|]. split; [apply NoC; [reflexivity|discriminate|discriminate]|]. split; [vm_compute; intuition discriminate|]. split; [vm_compute; intuition discriminate|].
    split; [|split; left; reflexivity]. rewrite split_on_single; [left; reflexivity|]. apply NoC; [reflexivity|discriminate|discriminate].
  - split; [|split; [left; reflexivity|left; reflexivity]]. exists (lit "py"), (d :: ds). destruct X as [[-> ->]|(b & r & -> & ->)].
    + exists (read_N [d], snd (m_version m)). split; [left; reflexivity|]. split; [reflexivity|]. split; [apply one_digit, Dg|]. cbn [fst snd]. rewrite Dr. split; [symmetry; exact M|lia].
    + exists (read_N [d], read_N (show_N b)). split; [left; reflexivity|]. split; [reflexivity|]. split; [apply digits; [exact Dg|apply show_N_all_digits]|]. cbn [fst snd]. rewrite Dr, read_show_N. split; [symmetry; exact M|exact R].
Qed.
(** a wheel of a project that needs python [a.b] or later is accepted by every interpreter [a.c] with [b <= c], of any implementation *)
Theorem C141_accepted_partial : forall m current v mx i j a b r, forallb is_lower (m_ipt m) = true -> release v = a :: b :: r -> (a < 10)%N ->
  fst (m_version m) = a -> (b <= snd (m_version m))%N ->
  exists tag s, python_tag current (Range (Some v) mx i j) = Ok tag /\ compatibility_score m (tag ++ lit "-none-any") = Some s.
Proof.
  intros m current v mx i j a b r L R T M B. destruct (py_tag m a (b :: r) L T M B) as [s S]. exists (lit "py" ++ first_two (a :: b :: r)), s. split; [cbn [python_tag]; rewrite R; reflexivity|]. rewrite <- app_assoc. exact S.
Qed.
(** without such a bound it is accepted by the interpreters of the major version that built it *)
Theorem C141_unbounded_partial : forall m current req, forallb is_lower (m_ipt m) = true -> (forall a b c d, req <> Range a b c d) -> (current < 10)%N -> fst (m_version m) = current ->
  exists tag s, python_tag current req = Ok tag /\ compatibility_score m (tag ++ lit "-none-any") = Some s.
Proof.
  intros m current req L R T M. destruct (py_tag m current [] L T M I) as [s S]. exists (lit "py" ++ first_two [current]), s. split; [|rewrite <- app_assoc; exact S]. destruct req as [| | | | |a b c d]; try reflexivity. exfalso. exact (R a b c d eq_refl).
Qed.
Definition plain_version (r : list N) : sv := SV r None None None None None.
Example C141_sample : exists tag s, python_tag 3 (Range (Some (plain_version [3; 8]%N)) None true false) = Ok tag /\ tag = lit "py38" /\ compatibility_score linux310 (tag ++ lit "-none-any") = Some s.
Proof. eexists. eexists. split; [vm_compute; reflexivity|]. split; vm_compute; reflexivity. Qed.
(** the tag of a project for python 2.7 and later is not accepted by python 3 *)
Theorem C141_major_refuted : exists req v m tag, allows req (VStd v) = true /\ release v = [fst (m_version m); snd (m_version m)] /\ python_tag 3 req = Ok tag /\ compatibility_score m (tag ++ lit "-none-any") = None.
Proof. exists (Range (Some (plain_version [2; 7]%N)) None true false), (plain_version [3; 10]%N), linux310. eexists. split; [vm_compute; reflexivity|]. split; [reflexivity|]. split; vm_compute; reflexivity. Qed.
(** a project with only an upper bound has no wheel *)
Theorem C141_upper_refuted : exists req v, allows req (VStd v) = true /\ forall current name version, wheel_file_name current name version req = Err AttributeError.
Proof. exists (Range None (Some (plain_version [4]%N)) false false), (plain_version [3; 10]%N). split; [vm_compute; reflexivity|]. reflexivity. Qed.

(** ** C142 *)
(** what is written is read as the same value *)
Theorem C142_round : forall allow v, parse_text_or_file allow (unparse_text_or_file allow v) = Ok v.
Proof. intros [|] [s|s]; reflexivity. Qed.
Example C142_sample : parse_text_or_file true (RTable [(lit "file", lit "README.md")]) = Ok (TFile (lit "README.md")) /\ parse_text_or_file false (RText (lit "MIT")) = Err ValueError.
Proof. split; reflexivity. Qed.
(** a table with the name of a file is the text of the file, when the build runs at the directory of the project *)
Theorem C142_file : forall f root p l n t r, dict_get (lit "text") l = None -> dict_get (lit "file") l = Some n -> parse_text_or_file true (RTable l) = Ok r -> p_readme p = Some r ->
  lookup f (join_path root n) = Some (File t) -> readme_content f root p = Ok t.
Proof. intros f root p l n t r A B C R L. cbn [parse_text_or_file] in C. rewrite A, B in C. injection C as <-. unfold readme_content, read_text. rewrite R, L. unfold exists_at. rewrite L. reflexivity. Qed.
Example C142_file_sample : readme_content demo_fs [lit "w"] with_readme = Ok (lit "read me").
Proof. vm_compute. reflexivity. Qed.
(** [readme = "README.md"], which names the file in the standard, makes the name the description *)
Theorem C142_name_refuted : exists f root n t r, lookup f (join_path root n) = Some (File t) /\ parse_text_or_file true (RText n) = Ok r /\
  forall p, p_readme p = Some r -> readme_content f root p = Ok n /\ n <> t.
Proof.
  exists demo_fs, [lit "w"], (lit "README.md"), (lit "read me"). eexists. split; [vm_compute; reflexivity|]. split; [reflexivity|]. intros p R. split; [unfold readme_content; rewrite R; reflexivity|vm_compute; discriminate].
Qed.

Print Assumptions C137_verifies_partial.
Print Assumptions C137_installs_partial.
Print Assumptions C137_dist_info_refuted.
Print Assumptions C138_contents.
Print Assumptions C138_again_partial.
Print Assumptions C138_modules_refuted.
Print Assumptions C138_flat_refuted.
Print Assumptions C139_anywhere_partial.
Print Assumptions C139_readme_refuted.
Print Assumptions C139_license_refuted.
Print Assumptions C140_sdist_partial.
Print Assumptions C140_nested_refuted.
Print Assumptions C140_license_refuted.
Print Assumptions C140_readme_refuted.
Print Assumptions C141_accepted_partial.
Print Assumptions C141_unbounded_partial.
Print Assumptions C141_major_refuted.
Print Assumptions C141_upper_refuted.
Print Assumptions C142_round.
Print Assumptions C142_file.
Print Assumptions C142_name_refuted.
