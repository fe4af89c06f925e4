(** C131: git packages come from the requested repository.  C132: branches are kept up to date.  C133: a failed clone leaves nothing
    behind.  C134: git urls.  C135: checkouts stay in the workspace.  C136: packages of project groups. *)
From Coq Require Import String Ascii List Bool NArith Arith Lia.
From Verif Require Import Base BaseFacts ParserModel ParserFacts UrlModel HttpProofs FsModel FsFacts CollectionProofs GitModel GitProofs.
Import ListNotations.
Open Scope string_scope.
Open Scope nat_scope.
Open Scope list_scope.
Open Scope bool_scope.

(** ** C131 *)
(** after any requests, a checkout that is handed out holds what git gives for its url and branch, if the directories of the requests
    are not inside each other and empty at first *)
Theorem C131_right_partial : forall remote pull workspace requests, proper_remote remote -> apart workspace requests ->
  forall f, (forall r d u b, In r requests -> aims workspace r d u b -> d <> [] /\ absent f d) ->
  forall l name url f' d, (forall r, In r l -> In r requests) -> In (name, url) requests ->
  fetch remote pull workspace (fetches remote pull workspace f l) name url = (f', Ok d) ->
  exists u b t, aims workspace (name, url) d u b /\ remote u b = Some t /\ holds f' d t.
Proof.
  intros remote pull workspace requests P A f E l name url f' d L I H. assert (F : fine remote workspace requests f) by (intros r d0 u b J M; destruct (E r d0 u b J M) as [X Y]; split; [exact X|left; exact Y]).
  pose proof (fetches_fine remote pull workspace requests A P l f L F) as G. destruct (fetch_fine remote pull workspace requests _ name url A P I G) as [_ K]. rewrite H in K. cbn [fst snd] in K. apply K. reflexivity.
Qed.
Definition sample_tree (s : str) : fs := [([], Dir); ([lit ".git"], Dir); ([lit "HEAD"; lit ".git"], File (lit "ref: refs/heads/main")); ([lit "a.py"], File s)].
Definition sample_remote (u : str) (b : option str) : option fs := if str_eqb u "https://h/none" then None else Some (sample_tree (u ++ match b with Some b => b | None => [] end)).
Lemma sample_layout : forall s, git_layout (sample_tree s).
Proof.
  intro s. split; [reflexivity|]. exists (lit "ref: refs/heads/main"). split; [reflexivity|]. split; [vm_compute; intuition discriminate|]. split; [reflexivity|]. intro p. destruct (lookup (sample_tree s) (p ++ [lit "heads"; lit ".git"])) eqn:E; [|reflexivity].
  apply lookup_in in E. cbn [sample_tree In] in E. repeat destruct E as [E|E]; try contradiction; apply (f_equal fst) in E; cbn [fst] in E; symmetry in E; apply (f_equal (@rev str)) in E; rewrite rev_app_distr in E; cbn [rev app] in E; discriminate.
Qed.
Definition no_pull (f : fs) (d : path) : res fs := Err IOErr.
Example C131_sample : proper_remote sample_remote /\ apart [lit "w"] [(lit "x", lit "https://h/x@dev"); (lit "y", lit "https://h/y")] /\
  lookup (fetches sample_remote no_pull [lit "w"] [([], Dir)] [(lit "y", lit "https://h/y"); (lit "x", lit "https://h/x@dev"); (lit "y", lit "https://h/y")]) [lit "a.py"; lit "dev"; lit "x"; lit "h"; lit "x"; lit "w"] = Some (File (lit "https://h/xdev")).
Proof.
  split; [|split; [|vm_compute; reflexivity]].
  - intros u b t H. unfold sample_remote in H. destruct (str_eqb u "https://h/none"); [discriminate|]. injection H as <-. apply sample_layout.
  - intros a b d u x d' u' x' I J (p & q & G & D & U & X) (p' & q' & G' & D' & U' & X') N. cbn [In] in I, J.
    destruct I as [<-|[<-|[]]]; destruct J as [<-|[<-|[]]]; vm_compute in G, G'; injection G as <- <-; injection G' as <- <-; subst; try (repeat split; reflexivity); vm_compute in N; discriminate.
Qed.
(** REFUTED: a request for a branch makes later requests for the default branch fail *)
Theorem C131_order_refuted : forall remote pull f workspace name u b text text' d t d', git_request text = Ok (u, Some b) -> components b = [b] -> b <> lit ".git" -> b <> lit ".." -> git_request text' = Ok (u, None) ->
  d' = target_dir workspace name u None -> d = b :: d' -> d' <> [] -> absent f d' -> file_above f d' = false -> remote (show_url u) None <> None -> remote (show_url u) (Some b) = Some t ->
  let r := fetch remote pull workspace f name text in snd r = Ok d /\ snd (fetch remote pull workspace (fst r) name text') = Err IOErr.
Proof.
  intros remote pull f workspace name u b text text' d t d' G C NG ND G' D' D NE A FA R R'. cbn zeta. assert (B : exists c b', b = c :: b') by (destruct b; [discriminate|eauto]). destruct B as (c & b' & B).
  assert (J : join_path d' b = d).
  { rewrite join_relative; [rewrite C, D; reflexivity|unfold straight; rewrite C; intros [X|[]]; congruence|]. destruct (starts_with (lit "/") b) eqn:S; [|reflexivity]. apply starts_with_iff in S as (r & S). exfalso.
    assert (L : In b (components b)) by (rewrite C; left; reflexivity). unfold components in L. apply filter_In in L as [L _]. apply (split_on_no_char _ _ _ L). rewrite S. left. reflexivity. }
  assert (T : target_dir workspace name u (Some b) = d) by (rewrite <- J, D'; unfold target_dir; rewrite B; reflexivity).
  assert (TL : tl d = d') by (rewrite D; reflexivity). assert (X : exists_at f d = false) by (apply exists_at_false; rewrite D; apply (A [b])).
  assert (E : fetch remote pull workspace f name text = (graft (make_dirs f d') d t, Ok d)).
  { unfold fetch. rewrite G, T. cbn zeta. rewrite X. unfold clone. rewrite TL, FA. destruct (remote (show_url u) None) as [t0|]; [|congruence]. rewrite B in R' |- *. match goal with |- context [match ?x with Some t' => (graft _ _ t', _) | None => _ end] => replace x with (Some t) by (symmetry; exact R') end. reflexivity. }
  rewrite E. cbn [fst snd]. split; [reflexivity|]. unfold fetch. rewrite G', <- D'. cbn zeta.
  assert (N : under d d' = false) by (destruct (under d d') eqn:U; [apply under_len in U; rewrite D in U; cbn in U; lia|reflexivity]).
  assert (E' : exists_at (graft (make_dirs f d') d t) d' = true).
  { apply exists_at_true. rewrite lookup_graft, N, make_dirs_lookup. destruct (lookup f d'); [discriminate|]. rewrite under_refl. destruct d'; [congruence|discriminate]. }
  rewrite E'. unfold update, is_detached. replace (lookup (graft (make_dirs f d') d t) (lit "HEAD" :: lit ".git" :: d')) with (@None node); [reflexivity|]. symmetry. rewrite lookup_graft.
  replace (under d (lit "HEAD" :: lit ".git" :: d')) with false.
  - rewrite make_dirs_lookup. pose proof (A [lit "HEAD"; lit ".git"]) as Z. cbn [app] in Z. rewrite Z. destruct (under (lit "HEAD" :: lit ".git" :: d') d') eqn:U; [apply under_len in U; cbn in U; lia|reflexivity].
  - symmetry. apply under_false. intros r H. rewrite D in H. destruct r as [|r0 [|r1 r]]; cbn [app] in H.
    + apply (f_equal (@length str)) in H. cbn in H. lia.
    + injection H as _ H. apply NG. symmetry. exact H.
    + apply (f_equal (@length str)) in H. cbn in H. rewrite app_length in H. cbn in H. lia.
Qed.
Example C131_order_sample : let r := fetch sample_remote no_pull [lit "w"] [([], Dir)] "x" "https://h/x@dev" in snd r = Ok [lit "dev"; lit "x"; lit "h"; lit "x"; lit "w"] /\ snd (fetch sample_remote no_pull [lit "w"] (fst r) "x" "https://h/x") = Err IOErr.
Proof. split; vm_compute; reflexivity. Qed.
(** REFUTED: a branch of one repository, another repository and a repository at another port share a directory, so that the second
    request is answered with the files of the first *)
Theorem C131_shared_refuted : exists text text' u b u' b', git_request text = Ok (u, b) /\ git_request text' = Ok (u', b') /\ (show_url u, b) <> (show_url u', b') /\
  forall workspace name, target_dir workspace name u b = target_dir workspace name u' b'.
Proof. exists (lit "https://h/a@b"), (lit "https://h/a/b"). do 4 eexists. split; [vm_compute; reflexivity|]. split; [vm_compute; reflexivity|]. split; [discriminate|]. intros workspace name. reflexivity. Qed.
Example C131_shared_sample : let f := fst (fetch sample_remote no_pull [lit "w"] [([], Dir)] "x" "https://h:1/x") in let r := fetch sample_remote no_pull [lit "w"] f "x" "https://h:2/x" in
  snd r = Ok [lit "x"; lit "h"; lit "x"; lit "w"] /\ lookup (fst r) [lit "a.py"; lit "x"; lit "h"; lit "x"; lit "w"] = Some (File (lit "https://h:1/x")).
Proof. split; vm_compute; reflexivity. Qed.

(** ** C132 *)
(** REFUTED: a checkout is never brought up to date, whatever the repository holds now *)
Theorem C132_stale_refuted : forall remote pull workspace f name url u b, git_request url = Ok (u, b) -> git_layout (tree_at f (target_dir workspace name u b)) ->
  fetch remote pull workspace f name url = (f, Ok (target_dir workspace name u b)).
Proof.
  intros remote pull workspace f name url u b G L. unfold fetch. rewrite G. cbn zeta. rewrite layout_kept by exact L. replace (exists_at f (target_dir workspace name u b)) with true; [reflexivity|]. symmetry. apply exists_at_true. destruct L as [R _]. rewrite lookup_tree_at in R. cbn [app] in R. rewrite R. discriminate.
Qed.
(** a checkout whose HEAD names an entry of .git/heads, which git does not make, would be pulled *)
Theorem C132_pulled : forall remote pull workspace f name url u b head f', git_request url = Ok (u, b) ->
  let d := target_dir workspace name u b in lookup f d = Some Dir -> lookup f (lit "HEAD" :: lit ".git" :: d) = Some (File head) ->
  lookup f (join_path (lit "heads" :: lit ".git" :: d) head) <> None -> pull f d = Ok f' -> fetch remote pull workspace f name url = (f', Ok d).
Proof.
  intros remote pull workspace f name url u b head f' G d D H E P. unfold fetch. rewrite G. cbn zeta. fold d. replace (exists_at f d) with true by (symmetry; apply exists_at_true; rewrite D; discriminate). unfold update, is_detached. rewrite H. apply exists_at_true in E. rewrite E. cbn [negb]. rewrite P. reflexivity.
Qed.
Example C132_pulled_sample : exists f', fetch sample_remote (fun f d => Ok (write f (lit "new" :: d) Dir)) [lit "w"]
  (map (fun p => (map lit p, Dir)) [[]; ["w"]; ["x"; "w"]; ["h"; "x"; "w"]; ["x"; "h"; "x"; "w"]; [".git"; "x"; "h"; "x"; "w"]; ["heads"; ".git"; "x"; "h"; "x"; "w"]; ["main"; "heads"; ".git"; "x"; "h"; "x"; "w"]]%string ++ [(map lit ["HEAD"; ".git"; "x"; "h"; "x"; "w"]%string, File (lit "main"))]) "x" "https://h/x" = (f', Ok (map lit ["x"; "h"; "x"; "w"]%string)) /\ lookup f' (map lit ["new"; "x"; "h"; "x"; "w"]%string) = Some Dir.
Proof. eexists. split; vm_compute; reflexivity. Qed.
Example C132_sample : let f := fst (fetch sample_remote no_pull [lit "w"] [([], Dir)] "x" "https://h/x@dev") in
  fetch (fun _ _ => Some (sample_tree "new")) (fun f d => Ok (graft f d (sample_tree "new"))) [lit "w"] f "x" "https://h/x@dev" = (f, Ok [lit "dev"; lit "x"; lit "h"; lit "x"; lit "w"]).
Proof. vm_compute. reflexivity. Qed.

(** ** C133 *)
(** a request that fails leaves no checkout, and outside of it only directories above it are new *)
Theorem C133_nothing_left : forall remote pull workspace f name url u b f' e, git_request url = Ok (u, b) -> absent f (target_dir workspace name u b) ->
  fetch remote pull workspace f name url = (f', Err e) ->
  absent f' (target_dir workspace name u b) /\
  forall q, lookup f' q = lookup f q \/ lookup f q = None /\ lookup f' q = Some Dir /\ under q (target_dir workspace name u b) = true.
Proof.
  intros remote pull workspace f name url u b f' e G A H. unfold fetch in H. rewrite G in H. cbn zeta in H. set (d := target_dir workspace name u b) in *.
  replace (exists_at f d) with false in H by (symmetry; apply exists_at_false; apply (A [])). destruct (clone_cases remote f (show_url u) b d A) as [[S _]|[S X]]; rewrite S in H; cbn [bind] in H; [discriminate|].
  injection H as H _. rewrite H in X. clear H S. destruct X as [->|[X Y]]; [split; [exact A|left; reflexivity]|]. split; [exact X|]. intro q. destruct (under d q) eqn:U.
  - left. apply under_iff in U as (r & ->). rewrite X, A. reflexivity.
  - rewrite Y by exact U. rewrite make_dirs_lookup. destruct (lookup f q); [left; reflexivity|]. destruct (under q (tl d)) eqn:V; cbn [andb]; [|left; reflexivity]. destruct (path_eqb q []); cbn [negb]; [left; reflexivity|right]. split; [reflexivity|]. split; [reflexivity|].
    apply (under_trans _ (tl d)); [exact V|]. destruct d; [reflexivity|apply under_cons].
Qed.
Example C133_sample : let r := fetch sample_remote no_pull [lit "w"] [([], Dir)] "x" "https://h/none" in snd r = Err IOErr /\ lookup (fst r) [lit "none"; lit "h"; lit "x"; lit "w"] = None /\ lookup (fst r) [lit "h"; lit "x"; lit "w"] = Some Dir.
Proof. repeat split; vm_compute; reflexivity. Qed.

(** ** C134 *)
(** what holds: of a url without an at sign, the part behind the at sign is the branch, and the url that is cloned is read back as it was *)
Theorem C134_url_partial : forall u b, wf_url u -> ~ In "@"%char (show_url u) -> ~ In "@"%char b ->
  git_request (show_url u ++ lit "@" ++ b) = Ok (u, Some b) /\ git_request (show_url u) = Ok (u, None).
Proof.
  intros u b W N B. unfold git_request. cbn [lit app list_ascii_of_string]. rewrite split_on_app by exact N. rewrite (split_on_single "@" b) by exact B. rewrite (split_on_single "@" (show_url u)) by exact N. rewrite url_round by exact W. split; reflexivity.
Qed.
(** REFUTED: other schemes than http and https get the port 443 *)
Theorem C134_port_refuted : exists url u, url = lit "ssh://host/x" /\ git_request url = Ok (u, None) /\ show_url u = lit "ssh://host:443/x".
Proof. do 2 eexists. split; [reflexivity|]. split; vm_compute; reflexivity. Qed.
(** REFUTED: the name of a user is taken for the server, and the server for the branch *)
Theorem C134_user_refuted : exists url u, url = lit "https://user@host/x" /\ git_request url = Ok (u, Some (lit "host/x")) /\ show_url u = lit "https://user" /\ git_request (url ++ lit "@dev") = Err ValueError.
Proof. do 2 eexists. split; [reflexivity|]. split; [|split]; vm_compute; reflexivity. Qed.
(** REFUTED: urls and branches are put in small letters *)
Theorem C134_case_refuted : (forall txt, forallb (fun c => negb (is_upper c)) (snd (url_version txt)) = true) /\ url_version "git+https://h/Lib@Main" = (Some (lit "git"), lit "https://h/lib@main").
Proof.
  split; [|vm_compute; reflexivity]. intro txt. assert (L : forallb (fun c => negb (is_upper c)) (lower txt) = true) by (unfold lower; rewrite forallb_forall; intros c I; apply in_map_iff in I as (x & <- & _); by_char x).
  unfold url_version. destruct (span is_word (lower txt)) as [[|c a] [|d r]] eqn:S; try exact L. assert (D : lower txt = (c :: a) ++ d :: r) by (pose proof (span_spec is_word (lower txt)) as Z; rewrite S in Z; apply Z). assert (Q : forallb (fun c => negb (is_upper c)) r = true) by (rewrite D, forallb_app in L; apply andb_true_iff in L as [_ L]; cbn [forallb] in L; apply andb_true_iff in L; apply L).
  destruct d as [[|] [|] [|] [|] [|] [|] [|] [|]]; try exact L; exact Q.
Qed.

(** ** C135 *)
(** a checkout is in the directory of its package, if no component is ".." and the branch does not start with a slash *)
Theorem C135_inside_partial : forall workspace name u b, wf_url u -> straight (u_host u) -> straight (lstrip_slash (u_path u)) -> (forall x, b = Some x -> straight x /\ starts_with (lit "/") x = false) ->
  under (name :: workspace) (target_dir workspace name u b) = true.
Proof.
  intros workspace name u b W H P B. unfold target_dir. assert (HR : starts_with (lit "/") (u_host u) = false).
  { destruct (u_host u) as [|c h] eqn:E; [reflexivity|]. pose proof (w_host u W) as K. rewrite E in K. cbn [forallb] in K. apply andb_true_iff in K as [K _]. apply andb_true_iff in K as [K _]. destruct (starts_with (lit "/") (c :: h)) eqn:S; [|reflexivity]. apply starts_with_iff in S as (r & S). injection S as -> _. vm_compute in K. discriminate. }
  rewrite (join_relative _ (u_host u) H HR), (join_relative _ (lstrip_slash (u_path u)) P (lstrip_relative _)). destruct b as [[|c b]|].
  - rewrite app_assoc. apply under_app.
  - destruct (B _ eq_refl) as [S R]. rewrite join_relative by assumption. rewrite !app_assoc. apply under_app.
  - rewrite app_assoc. apply under_app.
Qed.
Example C135_sample : exists u, git_request "https://h/group/lib.git@v1" = Ok (u, Some (lit "v1")) /\ target_dir [lit "w"] "lib" u (Some (lit "v1")) = [lit "v1"; lit "lib.git"; lit "group"; lit "h"; lit "lib"; lit "w"].
Proof. eexists. split; [vm_compute; reflexivity|vm_compute; reflexivity]. Qed.
(** REFUTED: a branch can name any directory *)
Theorem C135_outside_refuted : exists url url' u u', git_request url = Ok (u, Some (lit "/home/user/thesis")) /\ target_dir [lit "w"] "x" u (Some (lit "/home/user/thesis")) = [lit "thesis"; lit "user"; lit "home"] /\
  git_request url' = Ok (u', Some (lit "../../../../thesis")) /\ target_dir [lit "w"] "x" u' (Some (lit "../../../../thesis")) = [lit "thesis"].
Proof. exists (lit "https://h/x@/home/user/thesis"), (lit "https://h/x@../../../../thesis"). do 2 eexists. split; [vm_compute; reflexivity|]. split; [vm_compute; reflexivity|]. split; [vm_compute; reflexivity|]. vm_compute. reflexivity. Qed.

(** ** C136 *)
(** REFUTED: no package of a project group is ever found *)
Theorem C136_group_refuted : forall remote pull projects load workspace f name url d, snd (fetch remote pull workspace f name url) = Ok d ->
  exists_at (fst (fetch remote pull workspace f name url)) (lit "pyproject-group.toml" :: d) = true ->
  forall l, snd (do_match remote pull projects load workspace f name url) <> Ok l.
Proof.
  intros remote pull projects load workspace f name url d F G l. unfold do_match. cbn [snd]. rewrite F. cbn [bind]. rewrite G. destruct (projects _ d) as [ps|]; [|discriminate]. cbn [bind]. destruct (filter (str_eqb name) ps) as [|x [|y r]]; discriminate.
Qed.
Example C136_sample : let remote := fun _ _ => Some (([lit "pyproject-group.toml"], File (lit "children = ['lib']")) :: sample_tree "a") in
  snd (do_match remote no_pull (fun _ _ => Ok [lit "lib"; lit "other"]) (fun _ _ => Err IOErr) [lit "w"] [([], Dir)] "lib" "https://h/x") = Err AttributeError /\
  snd (do_match sample_remote no_pull (fun _ _ => Err IOErr) (fun _ _ => Ok (lit "lib")) [lit "w"] [([], Dir)] "lib" "https://h/x") = Ok [lit "lib"].
Proof. split; vm_compute; reflexivity. Qed.

Print Assumptions C131_right_partial.
Print Assumptions C131_order_refuted.
Print Assumptions C131_shared_refuted.
Print Assumptions C132_stale_refuted.
Print Assumptions C133_nothing_left.
Print Assumptions C134_url_partial.
Print Assumptions C134_port_refuted.
Print Assumptions C134_user_refuted.
Print Assumptions C134_case_refuted.
Print Assumptions C135_inside_partial.
Print Assumptions C135_outside_refuted.
Print Assumptions C136_group_refuted.
Print Assumptions C132_pulled.
