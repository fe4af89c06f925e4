From Coq Require Import String Ascii List Bool NArith Arith Lia.
From Verif Require Import Base BaseFacts ParserModel ParserFacts VersionModel VersionSpec VersionParserModel
  VersionParserProofs UrlModel VersionParse.
Import ListNotations.
Open Scope string_scope.
Open Scope nat_scope.
Open Scope list_scope.
Open Scope bool_scope.

(** every parser failure is a ValueError *)
Lemma read_digits_err : forall s e, read_digits s = Err e -> e = ValueError.
Proof. intros s e. unfold read_digits. destruct (take_while is_digit s) as [[|] ?]; congruence. Qed.
Lemma read_epoch_release_err : forall s e, read_epoch_release s = Err e -> e = ValueError.
Proof.
  intros s e. unfold read_epoch_release. destruct (read_digits s) as [[n s1]|e1] eqn:E; cbn [bind].
  - destruct (pmatch (lit "!") s1).
    + destruct (read_digits p) as [[n2 s3]|e2] eqn:E2; cbn [bind].
      * destruct (read_release (length (rest s3)) s3). discriminate.
      * intro H. injection H as <-. eapply read_digits_err; eauto.
    + destruct (read_release (length (rest s1)) s1). discriminate.
  - intro H. injection H as <-. eapply read_digits_err; eauto.
Qed.
Lemma match_or_err_err : forall w s e, match_or_err w s = Err e -> e = ValueError.
Proof. intros w s e. unfold match_or_err. destruct (pmatch w s); congruence. Qed.
Lemma read_version_err : forall s e, read_version s = Err e -> e = ValueError.
Proof.
  intros s e. unfold read_version.
  destruct (match pmatch_ws (lit "(") (match_ws true s) with Some (_, s') => (true, s') | None => (false, match_ws true s) end) as [br s2].
  destruct (match pmatch_ws (lit "'") s2 with
    | Some (t, s') => (Some t, s')
    | None => match pmatch_ws (lit """") s2 with Some (t, s') => (Some t, s') | None => (None, s2) end end) as [q s3].
  destruct (read_epoch_release (skip (lit "v") s3)) as [[[ep rel] s5]|e1] eqn:E1; cbn [bind].
  - destruct (read_pre s5) as [pre s6]. destruct (read_post s6) as [post s7]. destruct (read_dev s7) as [dev s8].
    destruct (read_local s8) as [loc s9].
    set (s11 := match_ws true (if opt_is "." (peek_prev s9) then back1 s9 else s9)).
    destruct (match q with Some q0 => match_or_err q0 s11 | None => Ok s11 end) as [s12|e2] eqn:E2; cbn [bind].
    + destruct (if br then match_or_err (lit ")") s12 else Ok s12) as [s13|e3] eqn:E3; cbn [bind]; [discriminate|].
      destruct br; [|discriminate]. intro H. injection H as <-. eapply match_or_err_err; eauto.
    + destruct q; [|discriminate]. intro H. injection H as <-. eapply match_or_err_err; eauto.
  - intro H. injection H as <-. eapply read_epoch_release_err; eauto.
Qed.
Lemma urlsplit_err : forall u e, urlsplit u = Err e -> e = ValueError.
Proof.
  intros u e. unfold urlsplit. destruct (split_scheme (url_clean u)) as [sc u1]. destruct (split_netloc u1) as [nl u2].
  destruct (xorb (str_has "[" nl) (str_has "]" nl)); [congruence|].
  destruct (split_once "#" u2) as [u3 fr]. destruct (split_once "?" u3) as [pa qu]. discriminate.
Qed.
Lemma url_parse_err : forall u e, url_parse u = Err e -> e = ValueError.
Proof.
  intros u e. unfold url_parse. destruct (urlsplit u) as [[[[[sc nl] pa] qu] fr]|e1] eqn:E; cbn [bind].
  - destruct (str_has ":" nl); [|discriminate].
    destruct (split_on ":" nl) as [|h [|p [|]]]; try congruence. destruct (all_digits p); congruence.
  - intro H. injection H as <-. eapply urlsplit_err; eauto.
Qed.
Lemma parse_version_total : forall t, exists v, parse_version t = Ok v.
Proof.
  intro t. unfold parse_version. destruct (contains (lit "://") (lower t)).
  - unfold parse_url_version. destruct (split_protocol (lower (lower t))) as [repo u].
    destruct (url_parse u) as [p|e] eqn:E; cbn [bind]; eauto. apply url_parse_err in E. subst. eauto.
  - destruct (read_version (pinit (lower t))) as [[v s]|e] eqn:E; cbn [bind]; eauto.
    apply read_version_err in E. subst. eauto.
Qed.

(** the characters of a printed version *)
Definition vchar (c : ascii) : bool := is_digit c || is_lower c || existsb (Ascii.eqb c) ["."; "+"; "!"]%char.
Lemma digit_vchar : forall c, is_digit c = true -> vchar c = true.
Proof. intros c H. unfold vchar. rewrite H. reflexivity. Qed.
Lemma show_vchar : forall n, forallb vchar (show_N n) = true.
Proof.
  intro n. apply forallb_forall. intros c Hc. apply digit_vchar.
  pose proof (show_N_digits n) as D. rewrite forallb_forall in D. auto.
Qed.
Lemma t_rel_vchar : forall ns, forallb vchar (t_rel ns) = true.
Proof.
  unfold t_rel. induction ns as [|n ns IH]; simpl; auto. rewrite forallb_app, show_vchar, IH. reflexivity.
Qed.
Lemma sv_str_vchar : forall v, wf_sv v -> label_wf v -> forallb vchar (sv_str v) = true.
Proof.
  intros v [Hr Hp] Hl. destruct (release v) as [|n ns] eqn:ER; [contradiction|].
  rewrite (sv_str_eq v n ns ER), !forallb_app, show_vchar, t_rel_vchar.
  assert (E1 : forallb vchar match epoch v with Some e => show_N e ++ lit "!" | None => [] end = true).
  { destruct (epoch v); auto. rewrite forallb_app, show_vchar. reflexivity. }
  assert (E2 : forallb vchar (t_pre (pre_release v)) = true).
  { unfold t_pre. destruct (pre_release v) as [[t m]|]; auto. rewrite forallb_app, show_vchar, andb_true_r.
    destruct (Hp t m eq_refl) as [<-|[<-|[<-|[]]]]; reflexivity. }
  assert (E3 : forallb vchar (t_post (post_release v)) = true).
  { unfold t_post. destruct (post_release v); auto. rewrite forallb_app, show_vchar. reflexivity. }
  assert (E4 : forallb vchar (t_dev (dev_release v)) = true).
  { unfold t_dev. destruct (dev_release v); auto. rewrite forallb_app, show_vchar. reflexivity. }
  assert (E5 : forallb vchar (t_local (local_label v)) = true).
  { unfold t_local. unfold label_wf in Hl. destruct (local_label v) as [l|]; auto. specialize (Hl l eq_refl).
    cbn [forallb]. change (vchar "+") with true. cbn [andb]. apply forallb_forall. intros c Hc.
    rewrite forallb_forall in Hl. specialize (Hl c Hc).
    unfold label_char_ok in Hl. unfold vchar. cbn [existsb]. destruct (is_digit c), (is_lower c), (Ascii.eqb c "."); try reflexivity; discriminate. }
  rewrite E1, E2, E3, E4, E5. reflexivity.
Qed.
Lemma vchar_lower : forall c, vchar c = true -> lower_char c = c.
Proof. intros [[] [] [] [] [] [] [] []] H; try reflexivity; discriminate. Qed.
Lemma lower_vchar : forall s, forallb vchar s = true -> lower s = s.
Proof.
  intros s H. unfold lower. rewrite <- (map_id s) at 2. apply map_ext_in. intros c Hc. apply vchar_lower.
  rewrite forallb_forall in H. auto.
Qed.
Lemma contains_vchar : forall s w, forallb vchar s = true -> contains (":"%char :: w) s = false.
Proof.
  induction s as [|c s IH]; intros w H; simpl; auto.
  simpl in H. apply andb_true_iff in H as [H1 H2]. rewrite (IH w H2), orb_false_r.
  destruct (Ascii.eqb_spec ":" c); auto. subst. discriminate.
Qed.

Lemma parse_sv_str : forall v t, wf_sv v -> label_wf v -> lower t = sv_str v -> parse_version t = Ok (VStd v).
Proof.
  intros v t Hw Hl Ht. unfold parse_version. rewrite Ht.
  rewrite (contains_vchar _ (lit "//")) by (apply sv_str_vchar; auto).
  destruct (read_version_str v [] [] Hw Hl eq_refl) as (b & E). rewrite app_nil_r in E.
  unfold pinit. rewrite E. reflexivity.
Qed.
