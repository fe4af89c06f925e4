(** Proofs about packages on the own disk. *)
From Coq Require Import String Ascii List Bool NArith Arith Lia.
From Verif Require Import Base BaseFacts ParserModel ParserFacts NamesModel NamesProofs VersionModel VersionSpec VersionParserModel VersionParserProofs VersionParse VersionParseProofs
  SpecifierModel SpecParseProofs DependencyModel UrlModel FsModel FsFacts LocalModel.
From Verif Require SharedModel SharedProofs ArtifactModel IndexModel IndexProofs GitModel GitProofs ProjectModel.
Import ListNotations.
Open Scope string_scope.
Open Scope nat_scope.
Open Scope list_scope.
Open Scope bool_scope.

(** ** A version in front of ".tar.gz" *)
Definition T : str := lit ".tar.gz".
Lemma dev_A : forall n b, dprev b -> exists b', read_dev (PS b (lit ".dev" ++ show_N n ++ T)) = (Some n, PS b' T).
Proof.
  intros n b Hb. unfold read_dev. unfold peek_prev. cbn [prev]. unfold dprev in Hb. rewrite Hb.
  unfold skip_any, separators. cbn [match_any].
  change (lit ".dev" ++ show_N n ++ T) with (lit "." ++ (lit "dev" ++ (show_N n ++ T))).
  rewrite pmatch_app, pmatch_app, opt_number_show by reflexivity. eexists. reflexivity.
Qed.
Lemma dev_B : forall n b, exists b', read_dev (PS ("."%char :: b) (lit "dev" ++ show_N n ++ T)) = (Some n, PS b' T).
Proof.
  intros n b. unfold read_dev, peek_prev. cbn [prev hd_error].
  change (opt_test is_digit (Some "."%char)) with false. cbn iota.
  rewrite pmatch_app, opt_number_show by reflexivity. eexists. reflexivity.
Qed.
Lemma dev_none : forall b, dprev b -> read_dev (PS b T) = (None, PS ("."%char :: b) (lit "tar.gz")).
Proof.
  intros b Hb. unfold read_dev. unfold peek_prev. cbn [prev]. unfold dprev in Hb. rewrite Hb. reflexivity.
Qed.
Definition settled (s : pstate) : Prop := (exists b, s = PS b T) \/ exists b, s = PS b (lit "tar.gz").
Lemma tail_dot_A : forall po de b, dprev b -> exists s, settled s /\
  (let '(p, s1) := read_post (PS b (t_post po ++ t_dev de ++ T)) in let '(d, s2) := read_dev s1 in (p, d, s2)) = (po, de, s).
Proof.
  intros [po|] [de|] b Hb; cbn [t_post t_dev]; rewrite <- ?app_assoc; cbn [app].
  - destruct (read_post_some_A po b (lit ".dev" ++ show_N de ++ T) Hb eq_refl) as (b' & E & Hb'). rewrite E.
    destruct (dev_A de b' Hb') as (b2 & E2). rewrite E2. eexists. split; [left; eauto|reflexivity].
  - destruct (read_post_some_A po b T Hb eq_refl) as (b' & E & Hb'). rewrite E, (dev_none b' Hb'). eexists. split; [right; eauto|reflexivity].
  - rewrite read_post_none_dev_A by auto. destruct (dev_B de b) as (b2 & E2). rewrite E2. eexists. split; [left; eauto|reflexivity].
  - assert (E : read_post (PS b T) = (None, PS ("."%char :: b) (lit "tar.gz"))).
    { unfold read_post, peek_prev. cbn [prev]. unfold dprev in Hb. rewrite Hb. reflexivity. }
    rewrite E. eexists. split; [right; eauto|reflexivity].
Qed.
Lemma tail_dot_B : forall po de b, exists s, settled s /\
  (let '(p, s1) := read_post (undot (PS b (t_post po ++ t_dev de ++ T))) in let '(d, s2) := read_dev s1 in (p, d, s2)) = (po, de, s).
Proof.
  intros [po|] [de|] b; cbn [t_post t_dev]; rewrite <- ?app_assoc; cbn [app].
  - change (undot (PS b (lit ".post" ++ show_N po ++ lit ".dev" ++ show_N de ++ T))) with (PS ("."%char :: b) (lit "post" ++ show_N po ++ lit ".dev" ++ show_N de ++ T)).
    destruct (read_post_some_B po b (lit ".dev" ++ show_N de ++ T) eq_refl) as (b' & E & Hb'). rewrite E.
    destruct (dev_A de b' Hb') as (b2 & E2). rewrite E2. eexists. split; [left; eauto|reflexivity].
  - change (undot (PS b (lit ".post" ++ show_N po ++ T))) with (PS ("."%char :: b) (lit "post" ++ show_N po ++ T)).
    destruct (read_post_some_B po b T eq_refl) as (b' & E & Hb'). rewrite E, (dev_none b' Hb'). eexists. split; [right; eauto|reflexivity].
  - change (undot (PS b (lit ".dev" ++ show_N de ++ T))) with (PS ("."%char :: b) (lit "dev" ++ show_N de ++ T)).
    rewrite read_post_none_dev_B. destruct (dev_B de b) as (b2 & E2). rewrite E2. eexists. split; [left; eauto|reflexivity].
  - exists (PS ("."%char :: b) (lit "tar.gz")). split; [right; eauto|reflexivity].
Qed.
Lemma read_version_tar : forall v b, wf_sv v -> local_label v = None -> exists s, read_version (PS b (sv_str v ++ T)) = Ok (v, s).
Proof.
  intros v b [Hrel Hpre] Hloc. destruct (release v) as [|n ns] eqn:ER; [contradiction|].
  rewrite (sv_str_eq v n ns ER), Hloc. cbn [t_local]. rewrite <- !app_assoc. cbn [app].
  set (B := t_pre (pre_release v) ++ t_post (post_release v) ++ t_dev (dev_release v) ++ T).
  set (E := match epoch v with Some e => show_N e ++ lit "!" | None => [] end).
  assert (HT : (forall w, starts_with ("."%char :: w) B = false) \/ (exists c r', B = "."%char :: c :: r' /\ is_digit c = false)).
  { unfold B. destruct (pre_release v) as [[t m]|] eqn:P.
    - left. intro w. destruct (Hpre t m eq_refl) as [<-|[<-|[<-|[]]]]; reflexivity.
    - right. destruct (post_release v); [do 2 eexists; split; reflexivity|]. destruct (dev_release v); do 2 eexists; split; reflexivity. }
  assert (HD : head_not is_digit B).
  { unfold B. destruct (pre_release v) as [[t m]|] eqn:P; [destruct (Hpre t m eq_refl) as [<-|[<-|[<-|[]]]]; reflexivity|].
    destruct (post_release v); [reflexivity|]. destruct (dev_release v); reflexivity. }
  assert (HB : starts_with (lit "!") B = false).
  { unfold B. destruct (pre_release v) as [[t m]|] eqn:P; [destruct (Hpre t m eq_refl) as [<-|[<-|[<-|[]]]]; reflexivity|].
    destruct (post_release v); [reflexivity|]. destruct (dev_release v); reflexivity. }
  assert (HH : exists d l, E ++ show_N n ++ t_rel ns ++ B = d :: l /\ is_digit d = true).
  { unfold E. destruct (epoch v) as [e|].
    - destruct (show_N_cons e) as (d & ds & -> & Hd & _). simpl. eauto.
    - destruct (show_N_cons n) as (d & ds & -> & Hd & _). simpl. eauto. }
  unfold read_version.
  assert (W : match_ws true (PS b (E ++ show_N n ++ t_rel ns ++ B)) = PS b (E ++ show_N n ++ t_rel ns ++ B)).
  { destruct HH as (d & l & -> & Hd). apply match_ws_nospace. apply digit_not_space. exact Hd. }
  rewrite W. unfold pmatch_ws.
  assert (NM : forall x, is_digit x = false -> pmatch [x] (PS b (E ++ show_N n ++ t_rel ns ++ B)) = None).
  { intros x Hx. apply pmatch_fail. cbn [rest]. destruct HH as (d & l & -> & Hd). apply starts_with_digit; auto. }
  change (lit "(") with ["("%char]. change (lit "'") with ["'"%char]. change (lit """") with [""""%char].
  rewrite !NM by reflexivity.
  unfold skip at 1. change (lit "v") with ["v"%char]. rewrite NM by reflexivity.
  destruct (epoch_release_ok (epoch v) n ns B b HT HD HB) as (b1 & E1 & Hb1). fold E in E1. rewrite E1. cbn [bind].
  assert (G : exists s, settled s /\ (let '(pre, s6) := read_pre (undot (PS b1 B)) in let '(post, s7) := read_post s6 in let '(dev, s8) := read_dev s7 in (pre, post, dev, s8))
     = (pre_release v, post_release v, dev_release v, s)).
  { unfold B. destruct (pre_release v) as [[t m]|] eqn:P.
    - assert (U : undot (PS b1 (t_pre (Some (t, m)) ++ t_post (post_release v) ++ t_dev (dev_release v) ++ T)) = PS b1 (t ++ show_N m ++ (t_post (post_release v) ++ t_dev (dev_release v) ++ T))).
      { cbn [t_pre]. rewrite <- app_assoc. destruct (Hpre t m eq_refl) as [<-|[<-|[<-|[]]]]; reflexivity. }
      rewrite U.
      assert (HD3 : head_not is_digit (t_post (post_release v) ++ t_dev (dev_release v) ++ T)) by (destruct (post_release v); [reflexivity|]; destruct (dev_release v); reflexivity).
      destruct (read_pre_some t m b1 _ (Hpre t m eq_refl) HD3) as (b2 & E2 & Hb2). rewrite E2.
      destruct (tail_dot_A (post_release v) (dev_release v) b2 Hb2) as (s & Hs & E3). exists s. split; auto.
      destruct (read_post (PS b2 (t_post (post_release v) ++ t_dev (dev_release v) ++ T))) as [p s1]. destruct (read_dev s1) as [d s2]. injection E3 as -> -> ->. reflexivity.
    - cbn [t_pre app]. destruct (tail_dot_B (post_release v) (dev_release v) b1) as (s & Hs & E3). exists s. split; auto.
      rewrite read_pre_none_gen.
      + destruct (read_post (undot (PS b1 (t_post (post_release v) ++ t_dev (dev_release v) ++ T)))) as [p s1]. destruct (read_dev s1) as [d s2]. injection E3 as -> -> ->. reflexivity.
      + destruct (post_release v) as [po|]; [|destruct (dev_release v) as [de|]]; cbn [t_post t_dev]; rewrite <- ?app_assoc; cbn [app];
        intros x Hx; simpl in Hx; repeat (destruct Hx as [<-|Hx]; [reflexivity|]); contradiction. }
  destruct G as (s & Hs & G).
  destruct (read_pre (undot (PS b1 B))) as [pre s6]. destruct (read_post s6) as [post s7]. destruct (read_dev s7) as [dev s8].
  injection G as -> -> -> ->.
  assert (L : read_local s = (None, s)) by (destruct Hs as [(b2 & ->)|(b2 & ->)]; reflexivity).
  rewrite L. cbn [bind].
  assert (ESV : SV (n :: ns) (epoch v) (pre_release v) (post_release v) (dev_release v) None = v).
  { rewrite <- ER, <- Hloc. destruct v; reflexivity. }
  rewrite ESV. eexists. reflexivity.
Qed.
Lemma parse_version_tar : forall v, wf_sv v -> local_label v = None -> parse_version (sv_str v ++ lit ".tar.gz") = Ok (VStd v).
Proof.
  intros v Hw Hl. assert (LW : label_wf v) by (intros l H; congruence).
  assert (C : forallb vchar (sv_str v ++ T) = true) by (rewrite forallb_app, sv_str_vchar by auto; reflexivity).
  assert (CC : contains (lit "://") (sv_str v ++ T) = false) by exact (contains_vchar _ (lit "//") C).
  unfold parse_version. change (lit ".tar.gz") with T. rewrite (lower_vchar _ C). cbv zeta. rewrite CC.
  destruct (read_version_tar v [] Hw Hl) as (s & E). unfold pinit. rewrite E. reflexivity.
Qed.

(** ** Urls of files *)
Definition no_line_end (t : str) : Prop := ~ In "010"%char t.
Lemma span_all : forall f (s : str), forallb f s = true -> span f s = (s, []).
Proof. induction s as [|c s IH]; [reflexivity|]. cbn. intro H. apply andb_true_iff in H. destruct H as [-> H]. rewrite (IH H). reflexivity. Qed.
Lemma lower_no_line_end : forall t, no_line_end t -> no_line_end (lower t).
Proof.
  intros t H I. apply in_map_iff in I. destruct I as (c & E & I). apply H. replace "010"%char with c; [exact I|].
  revert E. clear. destruct c as [[] [] [] [] [] [] [] []]; intro E; first [reflexivity | discriminate E].
Qed.
Lemma file_url_version : forall t v, no_line_end t -> parse_url_version (lit "file://" ++ t) = Ok v -> exists s, v = VUrl (lit "file://" ++ lower t) None s.
Proof.
  intros t v H E. unfold parse_url_version in E. rewrite lower_app in E. change (lower (lit "file://")) with (lit "file://") in E.
  assert (S : split_protocol (lit "file://" ++ lower t) = (None, lit "file://" ++ lower t)).
  { unfold split_protocol.
    change (span is_word (lit "file://" ++ lower t)) with (let '(a, b) := span is_word (lit "://" ++ lower t) in ("f"%char :: "i"%char :: "l"%char :: "e"%char :: a, b)).
    change (span is_word (lit "://" ++ lower t)) with (@nil ascii, lit "://" ++ lower t). cbv iota beta zeta.
    change (lit "://" ++ lower t) with (":"%char :: (lit "//" ++ lower t)) at 1. cbv iota.
    rewrite span_all; [reflexivity|]. apply forallb_forall. intros c I. apply in_app_or in I. destruct I as [I|I].
    - repeat (destruct I as [<-|I]; [reflexivity|]). contradiction.
    - destruct (Ascii.eqb_spec c "010"); [|reflexivity]. subst c. exfalso. exact (lower_no_line_end t H I). }
  rewrite S in E. destruct (url_parse (lit "file://" ++ lower t)) as [p|e]; [|discriminate]. cbn [bind] in E. injection E as <-. eauto.
Qed.
Lemma without_prefix_app : forall p s, without_prefix (p ++ s) p = s.
Proof.
  intros p s. unfold without_prefix. rewrite (proj2 (starts_with_iff p (p ++ s))) by (exists s; reflexivity). rewrite skipn_app, skipn_all, Nat.sub_diag. reflexivity.
Qed.
Lemma absolute_place : forall cwd t, starts_with (lit "/") t = true -> ~ In (lit "..") (GitModel.components t) -> GitModel.join_path cwd t = rev (GitModel.components t).
Proof.
  intros cwd t A D. unfold GitModel.join_path. rewrite A, GitProofs.descend_straight by exact D. apply app_nil_r.
Qed.

(** ** Dictionaries of packages *)
Definition entries (d : list (str * list package)) (k : str) : list package := match dict_get k d with Some l => l | None => [] end.
Lemma add_entries : forall d p k, entries (add_package d p) k = if str_eqb k (name_of p) then entries d k ++ [p] else entries d k.
Proof.
  intros d p k. unfold entries, add_package. destruct (str_eqb k (name_of p)) eqn:E.
  - apply str_eqb_eq in E. subst k. rewrite dict_get_set_same. reflexivity.
  - rewrite dict_get_set_other; [reflexivity|]. intro X. subst k. rewrite str_eqb_refl in E. discriminate.
Qed.
Lemma add_all : forall l d k, entries (fold_left add_package l d) k = entries d k ++ filter (fun p => str_eqb k (name_of p)) l.
Proof.
  induction l as [|p l IH]; intros d k; [cbn; rewrite app_nil_r; reflexivity|]. cbn [fold_left filter]. rewrite IH, add_entries.
  destruct (str_eqb k (name_of p)); [rewrite <- app_assoc; reflexivity|reflexivity].
Qed.
(** the distributions among the names of a directory *)
Fixpoint distributions (f : fs) (dir : path) (names : list str) : res (list package) :=
  match names with
  | [] => Ok []
  | n :: r => if is_distribution f (n :: dir) then do p <- package_from (n :: dir) n; do ps <- distributions f dir r; Ok (p :: ps) else distributions f dir r
  end.
Lemma add_distributions_all : forall f dir names d, add_distributions f dir names d = do l <- distributions f dir names; Ok (fold_left add_package l d).
Proof.
  induction names as [|n r IH]; intro d; [reflexivity|]. cbn. destruct (is_distribution f (n :: dir)); [|apply IH].
  destruct (package_from (n :: dir) n) as [p|e]; [|reflexivity]. cbn [bind]. rewrite IH. destruct (distributions f dir r); reflexivity.
Qed.
Lemma package_place : forall file n p, package_from file n = Ok p -> place_of p = file /\ from_dist_name n = Ok (descriptor_of p) /\ forall dir d c, p <> Project dir d c.
Proof.
  intros file n p H. unfold package_from in H. destruct (from_dist_name n) as [d|e] eqn:E; [|discriminate]. cbn [bind] in H. injection H as <-.
  destruct (ArtifactModel.ends_with _ n); (split; [reflexivity|split; [reflexivity|intros; discriminate]]).
Qed.
Lemma distributions_places : forall f dir names l, distributions f dir names = Ok l -> map place_of l = map (fun n => n :: dir) (filter (fun n => is_distribution f (n :: dir)) names).
Proof.
  induction names as [|n r IH]; intros l H; cbn in H; [injection H as <-; reflexivity|]. cbn [filter]. destruct (is_distribution f (n :: dir)); [|exact (IH l H)].
  destruct (package_from (n :: dir) n) as [p|e] eqn:P; [|discriminate]. cbn [bind] in H. destruct (distributions f dir r) as [ps|e] eqn:D; [|discriminate]. cbn [bind] in H. injection H as <-.
  cbn [map]. rewrite (proj1 (package_place _ _ _ P)), (IH ps eq_refl). reflexivity.
Qed.
Lemma distributions_in : forall f dir names l p, distributions f dir names = Ok l -> In p l -> exists n, In n names /\ is_distribution f (n :: dir) = true /\ package_from (n :: dir) n = Ok p.
Proof.
  induction names as [|n r IH]; intros l p H I; cbn in H; [injection H as <-; contradiction|]. destruct (is_distribution f (n :: dir)) eqn:B.
  - destruct (package_from (n :: dir) n) as [q|e] eqn:P; [|discriminate]. cbn [bind] in H. destruct (distributions f dir r) as [ps|e] eqn:D; [|discriminate]. cbn [bind] in H. injection H as <-.
    destruct I as [<-|I]; [exists n; split; [left; reflexivity|split; [exact B|exact P]]|]. destruct (IH ps p eq_refl I) as (m & M & R). exists m. split; [right; exact M|exact R].
  - destruct (IH l p H I) as (m & M & R). exists m. split; [right; exact M|exact R].
Qed.
Lemma distributions_has : forall f dir names l n, distributions f dir names = Ok l -> In n names -> is_distribution f (n :: dir) = true -> exists p, In p l /\ package_from (n :: dir) n = Ok p.
Proof.
  induction names as [|m r IH]; intros l n H I B; [contradiction|]. cbn in H. destruct I as [->|I].
  - rewrite B in H. destruct (package_from (n :: dir) n) as [q|e] eqn:P; [|discriminate]. cbn [bind] in H. destruct (distributions f dir r) as [ps|e] eqn:D; [|discriminate]. cbn [bind] in H. injection H as <-.
    exists q. split; [left; reflexivity|reflexivity].
  - destruct (is_distribution f (m :: dir)); [|exact (IH l n H I B)]. destruct (package_from (m :: dir) m) as [q|e] eqn:P; [|discriminate]. cbn [bind] in H. destruct (distributions f dir r) as [ps|e] eqn:D; [|discriminate].
    cbn [bind] in H. injection H as <-. destruct (IH ps n eq_refl I B) as (p & Ip & Pp). exists p. split; [right; exact Ip|exact Pp].
Qed.
Lemma distributions_ok : forall f dir names, (forall n, In n names -> is_distribution f (n :: dir) = true -> exists d, from_dist_name n = Ok d) -> exists l, distributions f dir names = Ok l.
Proof.
  induction names as [|n r IH]; intro H; [exists []; reflexivity|]. cbn. destruct IH as (l & L); [intros m I; apply H; right; exact I|]. destruct (is_distribution f (n :: dir)) eqn:B; [|eauto].
  destruct (H n (or_introl eq_refl) B) as (d & D). unfold package_from. rewrite D, L. cbn [bind]. eauto.
Qed.

Lemma ends_with_app : forall x s, ArtifactModel.ends_with x s = true <-> exists b, s = b ++ x.
Proof.
  intros x s. unfold ArtifactModel.ends_with. rewrite starts_with_iff. split.
  - intros (r & E). exists (rev r). rewrite <- (rev_involutive s), E, rev_app_distr, rev_involutive. reflexivity.
  - intros (b & ->). exists (rev b). rewrite rev_app_distr. reflexivity.
Qed.
