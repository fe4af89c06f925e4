(** Proofs about parsing specifiers. *)
From Coq Require Import String Ascii List Bool NArith Arith Lia Permutation.
From Verif Require Import Base BaseFacts OrderFacts ParserModel ParserFacts VersionModel VersionSpec VersionProofs
  VersionParserModel VersionParserProofs VersionParse VersionParseProofs
  SpecifierModel SpecifierSpec SpecRange SpecifierProofs SpecUnion SpecInverse SpecParse SpecParseSpec.
Import ListNotations.
Open Scope string_scope.
Open Scope nat_scope.
Open Scope list_scope.
Open Scope bool_scope.

(** ** a version followed by [.*] *)
Lemma read_version_star : forall v b r, wf_sv v ->
  pre_release v = None -> post_release v = None -> dev_release v = None -> local_label v = None ->
  exists b', read_version (PS b (sv_str v ++ lit ".*" ++ r)) = Ok (v, PS b' (lit ".*" ++ r)).
Proof.
  intros v b r [Hrel _] Hpre Hpost Hdev Hlab. destruct (release v) as [|n ns] eqn:ER; [contradiction|].
  rewrite (sv_str_eq v n ns ER), Hpre, Hpost, Hdev, Hlab. cbn [t_pre t_post t_dev t_local]. rewrite !app_nil_r.
  rewrite <- !app_assoc.
  set (T := lit ".*" ++ r).
  set (E := match epoch v with Some e => show_N e ++ lit "!" | None => [] end).
  assert (HH : exists d l, E ++ show_N n ++ t_rel ns ++ T = d :: l /\ is_digit d = true).
  { unfold E. destruct (epoch v) as [e|].
    - destruct (show_N_cons e) as (d & ds & -> & Hd & _). simpl. eauto.
    - destruct (show_N_cons n) as (d & ds & -> & Hd & _). simpl. eauto. }
  unfold read_version.
  assert (W : match_ws true (PS b (E ++ show_N n ++ t_rel ns ++ T)) = PS b (E ++ show_N n ++ t_rel ns ++ T)).
  { destruct HH as (d & l & -> & Hd). apply match_ws_nospace. apply digit_not_space. exact Hd. }
  rewrite W. unfold pmatch_ws.
  assert (NM : forall x, is_digit x = false -> pmatch [x] (PS b (E ++ show_N n ++ t_rel ns ++ T)) = None).
  { intros x Hx. apply pmatch_fail. cbn [rest]. destruct HH as (d & l & -> & Hd). apply starts_with_digit; auto. }
  change (lit "(") with ["("%char]. change (lit "'") with ["'"%char]. change (lit """") with [""""%char].
  rewrite !NM by reflexivity.
  unfold skip at 1. change (lit "v") with ["v"%char]. rewrite NM by reflexivity.
  destruct (epoch_release_ok (epoch v) n ns T b) as (b1 & E1 & Hb1).
  { right. exists "*"%char, r. split; reflexivity. }
  { reflexivity. }
  { reflexivity. }
  fold E in E1. rewrite E1. cbn [bind].
  change (undot (PS b1 T)) with (PS ("."%char :: b1) ("*"%char :: r)).
  assert (A1 : read_pre (PS ("."%char :: b1) ("*"%char :: r)) = (None, PS ("."%char :: b1) ("*"%char :: r))) by reflexivity.
  assert (A2 : read_post (PS ("."%char :: b1) ("*"%char :: r)) = (None, PS ("."%char :: b1) ("*"%char :: r))) by reflexivity.
  assert (A3 : read_dev (PS ("."%char :: b1) ("*"%char :: r)) = (None, PS ("."%char :: b1) ("*"%char :: r))) by reflexivity.
  assert (A4 : read_local (PS ("."%char :: b1) ("*"%char :: r)) = (None, PS ("."%char :: b1) ("*"%char :: r))) by reflexivity.
  rewrite A1. cbn iota. rewrite A2. cbn iota. rewrite A3. cbn iota. rewrite A4. cbn iota.
  unfold peek_prev. cbn [prev hd_error]. change (opt_is "."%char (Some "."%char)) with true. cbn iota.
  unfold back1. cbn [prev rest bind]. rewrite !match_ws_nospace by reflexivity.
  exists b1. f_equal. f_equal. destruct v; cbn in *. subst. reflexivity.
Qed.

(** ** next release numbers *)
Lemma release_bumped : forall v w p x r s, release v = p ++ x :: r -> release w = p ++ (x + 1)%N :: s -> ep v = ep w ->
  sv_ltb v w = true.
Proof.
  intros v w p x r s Hv Hw E. apply sv_ltb_release; [exact E|]. exists (length p). unfold rel_at. rewrite Hv, Hw. split.
  - rewrite !app_nth2, Nat.sub_diag by lia. cbn [nth]. lia.
  - intros j Hj. rewrite !app_nth1 by lia. reflexivity.
Qed.

(** ** one clause *)
Definition good (o : cop) (v : sv) (s : spec) : Prop :=
  (o <> Ne -> deny_free s) /\ (o <> NeStar -> union_free s) /\
  forall w, candidate w -> (allows s (VStd w) = true <-> clause_holds (o, v) w).

(** the object a clause is read as *)
Definition exact (o : cop) (v : sv) (s : spec) : Prop :=
  match o with
  | Ge => s = Range (Some v) None true false
  | Gt => s = Range (Some v) None false false
  | Le => s = Range None (Some v) false true
  | Lt => s = Range None (Some v) false false
  | Eq => s = Match (VStd v) true
  | Ne => s = Match (VStd v) false
  | Compat => forall rel, bump_compat (release v) = Ok rel -> s = Range (Some v) (Some (SV rel (epoch v) None None None None)) true false
  | EqStar | NeStar => True
  end.

Lemma plain_label_wf : forall v, plain v -> label_wf v.
Proof. intros v (_ & H & _) l E. congruence. Qed.
Lemma plain_left_over : forall v r, plain v -> left_over v r = rest (match_ws true (PS [] r)).
Proof. intros v r (_ & H & _). unfold left_over, ends_with_dot. rewrite H. reflexivity. Qed.
Lemma range_uf : forall mn mx i j, wf_interval (mn, mx, i, j) -> union_free (Range mn mx i j).
Proof. intros. exact H. Qed.
Lemma good_range : forall o v mn mx i j, wf_interval (mn, mx, i, j) ->
  (forall w, candidate w -> (inside (mn, mx, i, j) w <-> clause_holds (o, v) w)) -> good o v (Range mn mx i j).
Proof.
  intros o v mn mx i j W H. split; [intros _; exact W|]. split; [intros _; exact W|].
  intros w C. cbn [allows]. rewrite range_allows_in by assumption. rewrite in_rng_spec. apply H. exact C.
Qed.
Lemma inside_lo : forall v i w, inside (Some v, None, i, false) w <-> (sv_ltb v w = true \/ (i = true /\ same_version v w)).
Proof.
  intros v i w. unfold inside. split.
  - intros [H _]. apply H. reflexivity.
  - intros H. split; [intros m E; injection E as <-; exact H|discriminate].
Qed.
Lemma inside_hi : forall v j w, inside (None, Some v, false, j) w <-> (sv_ltb w v = true \/ (j = true /\ same_version w v)).
Proof.
  intros v i w. unfold inside. split.
  - intros [_ H]. apply H. reflexivity.
  - intros H. split; [discriminate|intros m E; injection E as <-; exact H].
Qed.
Lemma inside_both : forall v u i j w, inside (Some v, Some u, i, j) w <->
  ((sv_ltb v w = true \/ (i = true /\ same_version v w)) /\ (sv_ltb w u = true \/ (j = true /\ same_version w u))).
Proof.
  intros v u i j w. unfold inside. split.
  - intros [H1 H2]. auto.
  - intros [H1 H2]. split; intros m E; injection E as <-; assumption.
Qed.

Lemma series_range : forall v p x, plain v -> release v = p ++ [x] ->
  pre_release v = None -> post_release v = None -> dev_release v = None ->
  let u := SV (p ++ [(x + 1)%N]) (epoch v) None None None None in
  wf_interval (Some v, Some u, true, false) /\ forall w, inside (Some v, Some u, true, false) w <-> in_series v w.
Proof.
  intros v p x P R H1 H2 H3 u.
  assert (Pu : plain u). { split; [destruct p; discriminate|]. split; [reflexivity|]. destruct P as (_ & _ & P). exact P. }
  split.
  - split; [left; discriminate|]. split; [discriminate|]. split; [discriminate|]. split; [intros m E; injection E as <-; exact P|].
    split; [intros m E; injection E as <-; exact Pu|]. intros a b Ea Eb. injection Ea as <-. injection Eb as <-.
    eapply release_bumped; [exact R|reflexivity|reflexivity].
  - intro w. rewrite inside_both. unfold in_series, at_least. split.
    + intros [A B]. exists p, x. split; [exact R|]. split; [tauto|]. destruct B as [B|[B _]]; [exact B|discriminate].
    + intros (p' & x' & R' & A & B). rewrite R in R'. apply app_inj_tail in R'. destruct R' as [<- <-]. tauto.
Qed.
Lemma compat_range : forall v p x y, plain v -> release v = p ++ [x; y] ->
  let u := SV (p ++ [(x + 1)%N; 0%N]) (epoch v) None None None None in
  wf_interval (Some v, Some u, true, false) /\ forall w, inside (Some v, Some u, true, false) w <-> compatible v w.
Proof.
  intros v p x y P R u.
  assert (Pu : plain u). { split; [destruct p; discriminate|]. split; [reflexivity|]. destruct P as (_ & _ & P). exact P. }
  split.
  - split; [left; discriminate|]. split; [discriminate|]. split; [discriminate|]. split; [intros m E; injection E as <-; exact P|].
    split; [intros m E; injection E as <-; exact Pu|]. intros a b Ea Eb. injection Ea as <-. injection Eb as <-.
    eapply release_bumped; [exact R|reflexivity|reflexivity].
  - intro w. rewrite inside_both. unfold compatible, at_least. split.
    + intros [A B]. exists p, x, y. split; [exact R|]. split; [tauto|]. destruct B as [B|[B _]]; [exact B|discriminate].
    + intros (p' & x' & y' & R' & A & B). rewrite R in R'.
      change (p ++ [x; y]) with (p ++ [x] ++ [y]) in R'. change (p' ++ [x'; y']) with (p' ++ [x'] ++ [y']) in R'.
      rewrite !app_assoc in R'. apply app_inj_tail in R'. destruct R' as [R' <-]. apply app_inj_tail in R'. destruct R' as [<- <-]. tauto.
Qed.

Lemma create_wf : forall m n i j, wf_interval (Some m, Some n, i, j) -> create_range (Some m) (Some n) i j = Ok (Range (Some m) (Some n) i j).
Proof.
  intros m n i j (_ & _ & _ & _ & _ & W). specialize (W _ _ eq_refl eq_refl). unfold create_range, opt_sv_eqb. cbn [opt_eqb].
  assert (sv_eqb m n = false) as ->. { destruct (sv_eqb m n) eqn:E; [|reflexivity]. destruct (spo_sv_eq_lt _ _ E W). }
  unfold mk_range. cbn [andb is_none]. rewrite !andb_false_r, W. reflexivity.
Qed.

Definition ends_clause (r : str) : Prop := r = [] \/ (exists r', r = ","%char :: r') \/ (exists r', r = ";"%char :: r').
Lemma ends_comma : forall r, ends_clause (","%char :: r).
Proof. intros r. right. left. now exists r. Qed.
Lemma ends_clause_stops : forall r, ends_clause r -> stops r.
Proof. intros r [->|[[r' ->]|[r' ->]]]; reflexivity. Qed.
Lemma ends_clause_ws : forall b r, ends_clause r -> match_ws true (PS b r) = PS b r.
Proof. intros b r [->|[[r' ->]|[r' ->]]]; [reflexivity|apply match_ws_nospace; reflexivity|apply match_ws_nospace; reflexivity]. Qed.
(** there may be a blank behind the operator *)
Definition gap (w : str) : Prop := w = [] \/ w = [" "%char].
Lemma sv_str_head : forall v r, wf_sv v -> exists d l, sv_str v ++ r = d :: l /\ is_digit d = true.
Proof.
  intros v r [H _]. destruct (release v) as [|n ns] eqn:E; [contradiction|]. rewrite (sv_str_eq v n ns E).
  destruct (epoch v) as [e|].
  - destruct (show_N_cons e) as (d & ds & -> & Hd & _). simpl. eauto.
  - destruct (show_N_cons n) as (d & ds & -> & Hd & _). simpl. eauto.
Qed.
Lemma ws_sv : forall w v b r, gap w -> wf_sv v -> match_ws true (PS b (w ++ sv_str v ++ r)) = PS (rev w ++ b) (sv_str v ++ r).
Proof.
  intros w v b r G H. destruct (sv_str_head v r H) as (d & l & -> & D). apply digit_not_space in D.
  destruct G as [-> | ->]; cbn [app rev].
  - apply match_ws_nospace. exact D.
  - unfold match_ws. change (" "%char :: d :: l) with ([" "%char] ++ d :: l).
    rewrite take_while_app; [reflexivity|reflexivity|]. unfold head_not. cbn. rewrite andb_false_r. exact D.
Qed.
Lemma read_plain : forall w v b r, gap w -> wf_sv v -> plain v -> ends_clause r ->
  exists b', read_version (match_ws true (PS b (w ++ sv_str v ++ r))) = Ok (v, PS b' r).
Proof.
  intros w v b r G W P E. rewrite ws_sv by assumption.
  destruct (read_version_str v (rev w ++ b) r W (plain_label_wf v P) (ends_clause_stops r E)) as [b' H].
  rewrite plain_left_over in H by exact P. rewrite (ends_clause_ws [] r E) in H. exists b'. exact H.
Qed.
Lemma no_eqs : forall w v r, gap w -> wf_sv v -> starts_with (lit "=") (w ++ sv_str v ++ r) = false.
Proof.
  intros w v r G W. destruct (sv_str_head v r W) as (d & l & -> & D). destruct G as [-> | ->]; [|reflexivity].
  apply starts_with_digit; [exact D|reflexivity].
Qed.
Lemma no_star : forall b r, ends_clause r -> pmatch ".*" (PS b r) = None.
Proof. intros b r [->|[[r' ->]|[r' ->]]]; reflexivity. Qed.

Lemma snoc_of : forall (l : list N), l <> [] -> exists p x, l = p ++ [x].
Proof. intros l H. destruct (exists_last H) as (p & x & E). eauto. Qed.

Lemma read_single_gap : forall u o v b w r, gap w -> clause_ok (o, v) -> ends_clause r ->
  exists s b', read_single u (PS b (cop_text o ++ w ++ sv_str v ++ (if starred o then lit ".*" else []) ++ r)) = Ok (s, PS b' r) /\ good o v s /\ exact o v s.
Proof.
  intros u o v b w r G (W & P & HC & HS) E.
  assert (Pn : forall x0, plain x0 -> plain x0) by auto.
  assert (NE : forall k l, pmatch (lit "===") (PS k (lit "==" ++ w ++ sv_str v ++ l)) = None).
  { intros k l. apply pmatch_fail. cbn [rest]. pose proof (no_eqs w v l G W) as H. cbn in *. exact H. }
  unfold read_single.
  assert (WS : match_ws true (PS b (cop_text o ++ w ++ sv_str v ++ (if starred o then lit ".*" else []) ++ r))
    = PS b (cop_text o ++ w ++ sv_str v ++ (if starred o then lit ".*" else []) ++ r)).
  { destruct o; apply match_ws_nospace; reflexivity. }
  rewrite WS.
  assert (F1 : pmatch (lit "*") (PS b (cop_text o ++ w ++ sv_str v ++ (if starred o then lit ".*" else []) ++ r)) = None) by (destruct o; reflexivity).
  assert (F2 : pmatch (lit "@") (PS b (cop_text o ++ w ++ sv_str v ++ (if starred o then lit ".*" else []) ++ r)) = None) by (destruct o; reflexivity).
  rewrite F1, F2. clear F1 F2 WS.
  assert (PL : forall k l, match_any [lit ">="; lit ">"; lit "<="; lit "<"] (PS k (lit ">" ++ w ++ sv_str v ++ l)) = Some (lit ">", PS (">"%char :: k) (w ++ sv_str v ++ l))).
  { intros k l. cbn [match_any]. rewrite pmatch_fail; [reflexivity|]. pose proof (no_eqs w v l G W) as H. cbn in *. exact H. }
  assert (PS' : forall k l, match_any [lit ">="; lit ">"; lit "<="; lit "<"] (PS k (lit "<" ++ w ++ sv_str v ++ l)) = Some (lit "<", PS ("<"%char :: k) (w ++ sv_str v ++ l))).
  { intros k l. cbn [match_any]. rewrite !pmatch_fail by reflexivity. rewrite pmatch_fail; [reflexivity|]. pose proof (no_eqs w v l G W) as H. cbn in *. exact H. }
  destruct o; cbn [cop_text starred] in *; cbn [app].
  - (* >= *)
    rewrite pmatch_fail by reflexivity. cbn [match_any]. rewrite !(pmatch_fail (lit "==")), !(pmatch_fail (lit "!=")), (pmatch_fail (lit "~=")) by reflexivity.
    rewrite pmatch_app. destruct (read_plain w v (rev (lit ">=") ++ b) r G W P E) as [b' ->]. cbn [bind].
    unfold skip. rewrite no_star by exact E. cbn. eexists. exists b'. split; [reflexivity|]. split; [|cbn [exact]; first [reflexivity | exact I | intros rel Hrel; congruence]].
    apply good_range; [apply wf_lower; exact P|]. intros x0 C. rewrite inside_lo. cbn. unfold at_least. tauto.
  - rewrite pmatch_fail by reflexivity.
    assert (M : match_any [lit "=="; lit "!="] (PS b (lit ">" ++ w ++ sv_str v ++ r)) = None) by reflexivity. rewrite M.
    rewrite (pmatch_fail (lit "~=")) by reflexivity.
    rewrite PL. destruct (read_plain w v (">"%char :: b) r G W P E) as [b' ->]. cbn [bind].
    unfold skip. rewrite no_star by exact E. cbn. eexists. exists b'. split; [reflexivity|]. split; [|cbn [exact]; first [reflexivity | exact I | intros rel Hrel; congruence]].
    apply good_range; [apply wf_lower; exact P|]. intros x0 C. rewrite inside_lo. cbn. intuition discriminate.
  - rewrite pmatch_fail by reflexivity. cbn [match_any]. rewrite !(pmatch_fail (lit "==")), !(pmatch_fail (lit "!=")), (pmatch_fail (lit "~=")), !(pmatch_fail (lit ">=")), (pmatch_fail (lit ">")) by reflexivity.
    rewrite pmatch_app. destruct (read_plain w v (rev (lit "<=") ++ b) r G W P E) as [b' ->]. cbn [bind].
    unfold skip. rewrite no_star by exact E. cbn. eexists. exists b'. split; [reflexivity|]. split; [|cbn [exact]; first [reflexivity | exact I | intros rel Hrel; congruence]].
    apply good_range; [apply wf_upper; exact P|]. intros x0 C. rewrite inside_hi. cbn. unfold at_most. tauto.
  - rewrite pmatch_fail by reflexivity.
    assert (M : match_any [lit "=="; lit "!="] (PS b (lit "<" ++ w ++ sv_str v ++ r)) = None) by reflexivity. rewrite M.
    rewrite (pmatch_fail (lit "~=")) by reflexivity.
    rewrite PS'. destruct (read_plain w v ("<"%char :: b) r G W P E) as [b' ->]. cbn [bind].
    unfold skip. rewrite no_star by exact E. cbn. eexists. exists b'. split; [reflexivity|]. split; [|cbn [exact]; first [reflexivity | exact I | intros rel Hrel; congruence]].
    apply good_range; [apply wf_upper; exact P|]. intros x0 C. rewrite inside_hi. cbn. intuition discriminate.
  - (* == *)
    rewrite NE. cbn [match_any]. rewrite pmatch_app. destruct (read_plain w v (rev (lit "==") ++ b) r G W P E) as [b' ->]. cbn [bind].
    rewrite no_star by exact E. unfold create_range, opt_sv_eqb. cbn [opt_eqb]. rewrite (spo_refl _ _ spo_sv).
    cbn. eexists. exists b'. split; [reflexivity|]. split; [|cbn [exact]; first [reflexivity | exact I | intros rel Hrel; congruence]]. split; [intros _; exact P|]. split; [intros _; exact P|].
    intros x0 C. cbn [allows clause_holds]. rewrite match_allows_plain by (exact P || apply C). rewrite <- sv_eqb_spec. tauto.
  - (* != *)
    rewrite pmatch_fail by reflexivity. cbn [match_any]. rewrite (pmatch_fail (lit "==")) by reflexivity.
    rewrite pmatch_app. destruct (read_plain w v (rev (lit "!=") ++ b) r G W P E) as [b' ->]. cbn [bind].
    rewrite no_star by exact E. unfold create_range, opt_sv_eqb. cbn [opt_eqb]. rewrite (spo_refl _ _ spo_sv).
    cbn. eexists. exists b'. split; [reflexivity|]. split; [|cbn [exact]; first [reflexivity | exact I | intros rel Hrel; congruence]]. split; [congruence|]. split; [intros _; exact P|].
    intros x0 C. cbn [allows clause_holds]. rewrite match_allows_plain by (exact P || apply C). rewrite <- sv_eqb_spec.
    destruct (sv_eqb v x0); intuition discriminate.
  - (* ~= *)
    rewrite pmatch_fail by reflexivity. cbn [match_any]. rewrite !(pmatch_fail (lit "==")), !(pmatch_fail (lit "!=")) by reflexivity.
    rewrite pmatch_app. destruct (read_plain w v (rev (lit "~=") ++ b) r G W P E) as [b' ->]. cbn [bind].
    specialize (HC eq_refl).
    assert (X : exists p x y, release v = p ++ [x; y]).
    { destruct (snoc_of (release v)) as (q & y & Rq); [destruct (release v); [cbn in HC; lia|discriminate]|].
      rewrite Rq, app_length in HC. cbn in HC. destruct (snoc_of q) as (p & x & ->); [destruct q; [cbn in HC; lia|discriminate]|].
      exists p, x, y. rewrite Rq, <- app_assoc. reflexivity. }
    destruct X as (p & x & y & R).
    assert ((length (release v) =? 1) = false) as ->. { apply Nat.eqb_neq. lia. }
    destruct (compat_range v p x y P R) as [Wf In].
    assert (BC : bump_compat (release v) = Ok (p ++ [(x + 1)%N; 0%N])).
    { unfold bump_compat. rewrite R, rev_app_distr. cbn [rev app]. rewrite rev_involutive. reflexivity. }
    rewrite BC. cbn [bind]. rewrite create_wf by exact Wf. cbn [bind]. eexists. exists b'. split; [reflexivity|]. split; [|cbn [exact]; first [reflexivity | exact I | intros rel Hrel; congruence]].
    apply good_range; [exact Wf|]. intros x0 C. apply In.
  - (* == .* *)
    specialize (HS eq_refl). destruct HS as (H1 & H2 & H3).
    rewrite NE. cbn [match_any]. rewrite pmatch_app, ws_sv by assumption.
    destruct (read_version_star v (rev w ++ rev (lit "==") ++ b) r W H1 H2 H3 (proj1 (proj2 P))) as [b' ->]. cbn [bind].
    rewrite pmatch_app.
    destruct (snoc_of (release v) (proj1 P)) as (p & x & R).
    assert (BL : bump_last (release v) = Ok (p ++ [(x + 1)%N])).
    { unfold bump_last. rewrite R, rev_app_distr. cbn [rev app]. rewrite rev_involutive. reflexivity. }
    rewrite BL. cbn [bind]. unfold with_release. rewrite H1, H2, H3, (proj1 (proj2 P)).
    destruct (series_range v p x P R H1 H2 H3) as [Wf In]. rewrite create_wf by exact Wf. cbn. eexists. eexists. split; [reflexivity|]. split; [|cbn [exact]; first [reflexivity | exact I | intros rel Hrel; congruence]].
    apply good_range; [exact Wf|]. intros x0 C. apply In.
  - specialize (HS eq_refl). destruct HS as (H1 & H2 & H3).
    rewrite pmatch_fail by reflexivity. cbn [match_any]. rewrite (pmatch_fail (lit "==")) by reflexivity. rewrite pmatch_app, ws_sv by assumption.
    destruct (read_version_star v (rev w ++ rev (lit "!=") ++ b) r W H1 H2 H3 (proj1 (proj2 P))) as [b' ->]. cbn [bind].
    rewrite pmatch_app.
    destruct (snoc_of (release v) (proj1 P)) as (p & x & R).
    assert (BL : bump_last (release v) = Ok (p ++ [(x + 1)%N])).
    { unfold bump_last. rewrite R, rev_app_distr. cbn [rev app]. rewrite rev_involutive. reflexivity. }
    rewrite BL. cbn [bind]. unfold with_release. rewrite H1, H2, H3, (proj1 (proj2 P)).
    destruct (series_range v p x P R H1 H2 H3) as [Wf In]. rewrite create_wf by exact Wf. cbn [bind].
    destruct (inverse_range _ _ _ _ Wf) as (s & Es & Ds & Vs). change (str_eqb (lit "!=") (lit "!=")) with true. cbn iota. rewrite Es. cbn [bind].
    eexists. eexists. split; [reflexivity|]. split; [|cbn [exact]; first [reflexivity | exact I | intros rel Hrel; congruence]]. split; [intros _; exact Ds|]. split; [congruence|].
    intros x0 C. rewrite (Vs x0 C). cbn [clause_holds]. rewrite <- In. cbn [allows]. rewrite range_allows_in by assumption.
    rewrite <- in_rng_spec. destruct (in_rng _ x0); intuition discriminate.
Qed.
Lemma read_single_clause : forall u o v b r, clause_ok (o, v) -> ends_clause r ->
  exists s b', read_single u (PS b (clause_text (o, v) ++ r)) = Ok (s, PS b' r) /\ good o v s /\ exact o v s.
Proof.
  intros u o v b r O E. unfold clause_text. cbn [fst snd]. rewrite <- !app_assoc.
  exact (read_single_gap u o v b [] r (or_introl eq_refl) O E).
Qed.

(** ** clause lists *)
Lemma ws_space : forall b c t, is_space c = false -> match_ws true (PS b (" "%char :: c :: t)) = PS (" "%char :: b) (c :: t).
Proof.
  intros b c t H. unfold match_ws. change (" "%char :: c :: t) with ([" "%char] ++ c :: t).
  rewrite take_while_app; [reflexivity|reflexivity|]. unfold head_not. cbn. rewrite andb_false_r. exact H.
Qed.
Lemma clause_text_head : forall c, exists d l, clause_text c = d :: l /\ is_space d = false.
Proof. intros [[] v]; unfold clause_text; cbn; eauto. Qed.
Lemma read_single_space : forall u b c r, 
  read_single u (PS b (" "%char :: clause_text c ++ r)) = read_single u (PS (" "%char :: b) (clause_text c ++ r)).
Proof.
  intros u b c r. destruct (clause_text_head c) as (d & l & -> & H). unfold read_single. cbn [app].
  rewrite ws_space by exact H. rewrite match_ws_nospace by exact H. reflexivity.
Qed.

Lemma read_loop_clauses : forall u (K : spec -> Prop) (N : clause -> Prop),
  (forall a b, K a -> K b -> exists r, intersect_with a b = Ok r /\ K r /\
     forall v, candidate v -> (allows r (VStd v) = true <-> allows a (VStd v) = true /\ allows b (VStd v) = true)) ->
  (forall o v s, N (o, v) -> good o v s -> K s) ->
  forall cs f acc b lead, lead = [] \/ lead = [" "%char] -> Forall clause_ok cs -> Forall N cs -> length cs <= f -> cs <> [] -> K acc ->
  exists r b', read_loop u f false acc (PS b (lead ++ clauses_text cs)) = Ok (r, b') /\ K r /\
    forall v, candidate v -> (allows r (VStd v) = true <-> allows acc (VStd v) = true /\ Forall (fun c => clause_holds c v) cs).
Proof.
  intros u K N HI HK. induction cs as [|[o v] cs IH]; intros f acc b lead HL HO HN HF NE HA; [congruence|].
  inversion HO as [|? ? O1 O2]; subst. inversion HN as [|? ? N1 N2]; subst.
  set (tail := match cs with [] => [] | _ => lit ", " ++ clauses_text cs end).
  assert (TX : clauses_text (((o, v) : clause) :: cs) = clause_text (o, v) ++ tail).
  { unfold clauses_text, tail. destruct cs; cbn [map join]; [rewrite app_nil_r|]; reflexivity. }
  assert (EC : ends_clause tail). { unfold tail. destruct cs; [left; reflexivity|apply ends_comma]. }
  rewrite TX.
  assert (RS : exists s b', read_single u (PS b (lead ++ clause_text (o, v) ++ tail)) = Ok (s, PS b' tail) /\ good o v s /\ exact o v s).
  { destruct HL as [-> | ->].
    - apply read_single_clause; assumption.
    - cbn [app]. rewrite read_single_space. apply read_single_clause; assumption. }
  destruct RS as (s & b1 & Es & Gs & _).
  destruct (HI acc s HA (HK _ _ _ N1 Gs)) as (r1 & E1 & K1 & V1).
  assert (NEm : not_empty (PS b (lead ++ clause_text (o, v) ++ tail)) = true).
  { destruct (clause_text_head (o, v)) as (d & l & -> & _). destruct HL as [-> | ->]; reflexivity. }
  destruct f as [|f]; [cbn in HF; lia|]. cbn [length] in HF.
  cbn [read_loop]. rewrite NEm. cbn [negb]. rewrite Es. cbn [bind]. rewrite E1. cbn [bind].
  rewrite (ends_clause_ws _ _ EC).
  destruct cs as [|c2 cs'].
  - unfold tail. cbn [pmatch rest]. change (pmatch (lit ",") (PS b1 [])) with (@None pstate). cbn [not_empty rest].
    exists r1, (PS b1 []). split; [destruct f; reflexivity|]. split; [exact K1|]. intros w C. rewrite (V1 w C).
    destruct Gs as (_ & _ & G). rewrite (G w C). split.
    + intros [A B]. split; [exact A|]. constructor; [exact B|constructor].
    + intros [A B]. split; [exact A|]. inversion B; assumption.
  - unfold tail. change (lit ", " ++ clauses_text (c2 :: cs')) with (lit "," ++ [" "%char] ++ clauses_text (c2 :: cs')).
    rewrite pmatch_app.
    destruct (IH f r1 (rev (lit ",") ++ b1) [" "%char] (or_intror eq_refl) O2 N2) as (r & b' & E & Kr & V); [lia|discriminate|exact K1|].
    exists r, b'. split; [exact E|]. split; [exact Kr|]. intros w C. rewrite (V w C), (V1 w C).
    destruct Gs as (_ & _ & G). rewrite (G w C). split.
    + intros [[A B] D]. split; [exact A|]. constructor; assumption.
    + intros [A D]. inversion D; subst. auto.
Qed.

Lemma lower_app : forall a b, lower (a ++ b) = lower a ++ lower b.
Proof. intros. apply map_app. Qed.
Lemma lower_clause : forall c, clause_ok c -> lower (clause_text c) = clause_text c.
Proof.
  intros [o v] (W & P & _). unfold clause_text. cbn [fst snd]. rewrite !lower_app.
  rewrite (lower_vchar _ (sv_str_vchar v W (plain_label_wf v P))). destruct o; reflexivity.
Qed.
Lemma lower_clauses : forall cs, Forall clause_ok cs -> lower (clauses_text cs) = clauses_text cs.
Proof.
  induction cs as [|c cs IH]; intro H; [reflexivity|]. inversion H as [|? ? H1 H2]; subst. unfold clauses_text in *.
  destruct cs as [|c2 cs]; [cbn [map join]; apply lower_clause; exact H1|].
  change (join (lit ", ") (map clause_text (c :: c2 :: cs))) with (clause_text c ++ lit ", " ++ join (lit ", ") (map clause_text (c2 :: cs))).
  rewrite !lower_app, (lower_clause c H1), (IH H2). reflexivity.
Qed.
Lemma clauses_length : forall cs, length cs <= length (clauses_text cs).
Proof.
  induction cs as [|c cs IH]; [cbn; lia|]. unfold clauses_text in *. destruct (clause_text_head c) as (d & l & E & _).
  destruct cs as [|c2 cs]; [cbn [map join]; rewrite E; cbn; lia|].
  change (join (lit ", ") (map clause_text (c :: c2 :: cs))) with (clause_text c ++ lit ", " ++ join (lit ", ") (map clause_text (c2 :: cs))).
  rewrite !app_length, E. cbn [length] in *. lia.
Qed.

Lemma parse_clauses : forall u cs, cs <> [] -> Forall clause_ok cs -> Forall no_ne cs \/ Forall no_nestar cs ->
  exists s, parse_specifier u (clauses_text cs) = Ok s /\
    (Forall no_ne cs -> deny_free s) /\ (Forall no_nestar cs -> union_free s) /\
    forall v, candidate v -> (allows s (VStd v) = true <-> Forall (fun c => clause_holds c v) cs).
Proof.
  intros u cs NE O H. unfold parse_specifier, read_specifier, pinit. rewrite lower_clauses by exact O.
  assert (HD : exists d l, clauses_text cs = d :: l /\ is_space d = false /\ Ascii.eqb "("%char d = false).
  { destruct cs as [|[o v] cs]; [congruence|]. unfold clauses_text. destruct cs; cbn [map join]; destruct o; cbn; eauto. }
  destruct HD as (d & l & HD & SP & PA).
  assert (W : match_ws true (PS [] (clauses_text cs)) = PS [] (clauses_text cs)) by (rewrite HD; apply match_ws_nospace; exact SP).
  rewrite W. rewrite pmatch_fail by (rewrite HD; cbn; rewrite PA; reflexivity). cbn [rest].
  assert (D : Forall no_ne cs -> exists s b', read_loop u (S (length (clauses_text cs))) false AllowAll (PS [] (clauses_text cs)) = Ok (s, b') /\
     deny_free s /\ forall v, candidate v -> (allows s (VStd v) = true <-> Forall (fun c => clause_holds c v) cs)).
  { intro Hn. destruct (read_loop_clauses u deny_free no_ne) with (cs := cs) (f := S (length (clauses_text cs))) (acc := AllowAll) (b := @nil ascii) (lead := @nil ascii) as (s & b' & E & K & V); auto.
    - intros a b Ha Hb. destruct (intersect_correct a b (or_introl (conj Ha Hb))) as (r & E & D & _ & V). exists r. auto.
    - intros o v s Hn' (G & _). apply G. exact Hn'.
    - pose proof (clauses_length cs). lia.
    - exact I.
    - exists s, b'. split; [exact E|]. split; [exact K|]. intros v C. rewrite (V v C). cbn. tauto. }
  assert (U : Forall no_nestar cs -> exists s b', read_loop u (S (length (clauses_text cs))) false AllowAll (PS [] (clauses_text cs)) = Ok (s, b') /\
     union_free s /\ forall v, candidate v -> (allows s (VStd v) = true <-> Forall (fun c => clause_holds c v) cs)).
  { intro Hn. destruct (read_loop_clauses u union_free no_nestar) with (cs := cs) (f := S (length (clauses_text cs))) (acc := AllowAll) (b := @nil ascii) (lead := @nil ascii) as (s & b' & E & K & V); auto.
    - intros a b Ha Hb. destruct (intersect_correct a b (or_intror (conj Ha Hb))) as (r & E & _ & D1 & V). exists r. auto.
    - intros o v s Hn' (_ & G & _). apply G. exact Hn'.
    - pose proof (clauses_length cs). lia.
    - exact I.
    - exists s, b'. split; [exact E|]. split; [exact K|]. intros v C. rewrite (V v C). cbn. tauto. }
  destruct H as [H|H].
  - destruct (D H) as (s & b' & E & K & V). rewrite E. exists s. split; [reflexivity|]. split; [auto|]. split; [|exact V].
    intro H'. destruct (U H') as (s' & b'' & E' & K' & _). rewrite E in E'. injection E' as -> _. exact K'.
  - destruct (U H) as (s & b' & E & K & V). rewrite E. exists s. split; [reflexivity|]. split; [|split; [auto|exact V]].
    intro H'. destruct (D H') as (s' & b'' & E' & K' & _). rewrite E in E'. injection E' as -> _. exact K'.
Qed.

(** ** printing then parsing *)
(** what may follow a specifier: nothing, or the semicolon before a marker *)
Definition tail (r : str) : Prop := r = [] \/ exists r', r = ";"%char :: r'.
Lemma tail_ends : forall r, tail r -> ends_clause r.
Proof. intros r [->|[r' ->]]; [now left|]. right. right. now exists r'. Qed.
Lemma loop_tail : forall u f acc b r, tail r ->
  (let s2 := match_ws true (PS b r) in
   match pmatch "," s2 with
   | Some s3 => read_loop u f false acc s3
   | None => if not_empty s2 then if negb false then Ok (acc, s2) else match pmatch ")" s2 with Some s3 => Ok (acc, s3) | None => Err ValueError end
             else read_loop u f false acc s2
   end) = Ok (acc, PS b r).
Proof.
  intros u f acc b r T. cbv zeta. rewrite ends_clause_ws by now apply tail_ends.
  destruct T as [->|[r' ->]]; [|reflexivity]. destruct f; reflexivity.
Qed.
Lemma read_loop_one : forall u o v b f r, clause_ok (o, v) -> tail r -> exists s b',
  read_loop u (S f) false AllowAll (PS b (clause_text (o, v) ++ r)) = Ok (s, PS b' r) /\ exact o v s.
Proof.
  intros u o v b f r O T. destruct (read_single_clause u o v b r O (tail_ends r T)) as (s & b' & E & _ & X).
  exists s, b'. split; [|exact X].
  assert (NEm : not_empty (PS b (clause_text (o, v) ++ r)) = true).
  { destruct (clause_text_head (o, v)) as (d & l & -> & _). reflexivity. }
  cbn [read_loop]. rewrite NEm. cbn [negb]. rewrite E. cbn [bind].
  change (intersect_with AllowAll s) with (@Ok spec s). cbn [bind]. exact (loop_tail u f s b' r T).
Qed.
Lemma read_loop_two : forall u o v o' v' b f r, clause_ok (o, v) -> clause_ok (o', v') -> tail r -> exists s s' b',
  read_loop u (S (S f)) false AllowAll (PS b (clause_text (o, v) ++ lit ", " ++ clause_text (o', v') ++ r))
  = (do x <- intersect_with s s'; Ok (x, PS b' r)) /\ exact o v s /\ exact o' v' s'.
Proof.
  intros u o v o' v' b f r O O' T.
  destruct (read_single_clause u o v b (lit ", " ++ clause_text (o', v') ++ r) O) as (s & b1 & E & _ & X); [apply ends_comma|].
  destruct (read_single_clause u o' v' (" "%char :: rev (lit ",") ++ b1) r O' (tail_ends r T)) as (s' & b' & E' & _ & X').
  exists s, s', b'. split; [|split; assumption].
  assert (NEm : not_empty (PS b (clause_text (o, v) ++ lit ", " ++ clause_text (o', v') ++ r)) = true).
  { destruct (clause_text_head (o, v)) as (d & l & -> & _). reflexivity. }
  cbn [read_loop]. rewrite NEm. cbn [negb]. rewrite E. cbn [bind].
  change (intersect_with AllowAll s) with (@Ok spec s). cbn [bind].
  rewrite (ends_clause_ws b1 (lit ", " ++ clause_text (o', v') ++ r)) by apply ends_comma.
  change (lit ", " ++ clause_text (o', v') ++ r) with (lit "," ++ " "%char :: clause_text (o', v') ++ r). rewrite pmatch_app.
  cbn [not_empty rest negb]. rewrite read_single_space, E'. cbn [bind].
  destruct (intersect_with s s') as [x|e]; [|reflexivity]. cbn [bind]. exact (loop_tail u f x b' r T).
Qed.
Lemma spec_loop : forall u b t, (exists d l, t = d :: l /\ is_space d = false /\ Ascii.eqb "("%char d = false) ->
  read_specifier u (PS b t) = read_loop u (S (length t)) false AllowAll (PS b t).
Proof.
  intros u b t (d & l & -> & SP & PA). unfold read_specifier.
  rewrite match_ws_nospace by exact SP. rewrite pmatch_fail by (cbn; rewrite PA; reflexivity). reflexivity.
Qed.
Lemma clause_head2 : forall c r, exists d l, clause_text c ++ r = d :: l /\ is_space d = false /\ Ascii.eqb "("%char d = false.
Proof. intros [[] v] r; unfold clause_text; cbn; eauto. Qed.

Lemma inter_halves : forall m n i j, wf_interval (Some m, Some n, i, j) ->
  intersect_with (Range (Some m) None i false) (Range None (Some n) false j) = Ok (Range (Some m) (Some n) i j).
Proof.
  intros m n i j W. pose proof (create_wf m n i j W) as CW. unfold intersect_with.
  destruct (fuel_ge (Range (Some m) None i false) (Range None (Some n) false j)) as [f ->].
  cbn [intersect spec_eqb]. rewrite !andb_false_r. cbn [andb].
  unfold range_intersect, range_ltb. cbn [opt_sv_eqb opt_eqb]. rewrite !andb_false_r. cbn [andb is_some is_none negb].
  unfold range_intersect_ordered. cbn [opt_sv_eqb opt_eqb].
  destruct W as (_ & _ & _ & _ & _ & LT). specialize (LT _ _ eq_refl eq_refl). rewrite LT. exact CW.
Qed.
Lemma list_eqb_N : forall a b, list_eqb N.eqb a b = true <-> a = b.
Proof.
  induction a as [|x a IH]; intros [|y b]; cbn; try (split; [discriminate|intro H; discriminate H]); [tauto|].
  rewrite andb_true_iff, N.eqb_eq, IH. split; [intros [-> ->]; reflexivity|intro H; injection H; auto].
Qed.

Lemma print_read : forall u s b r, printable s -> tail r -> exists b', read_specifier u (PS b (spec_str s ++ r)) = Ok (s, PS b' r).
Proof.
  intros u s b r H T. revert H.
  assert (ONE : forall o v s, clause_ok (o, v) -> (forall s', exact o v s' -> s' = s) -> exists b', read_specifier u (PS b (clause_text (o, v) ++ r)) = Ok (s, PS b' r)).
  { intros o v s0 O X. rewrite spec_loop by apply clause_head2.
    destruct (read_loop_one u o v b (length (clause_text (o, v) ++ r)) r O T) as (s' & b' & -> & E). exists b'. rewrite (X s' E). reflexivity. }
  destruct s as [| |l|bl s|v al|mn mx i j]; intro H; try contradiction.
  - exists ("*"%char :: b). change (spec_str AllowAll ++ r) with ("*"%char :: r).
    rewrite spec_loop by (eexists _, _; repeat split). set (f := length ("*"%char :: r)). cbn [read_loop]. change (not_empty (PS b ("*"%char :: r))) with true. cbn [negb].
    assert (E : read_single u (PS b ("*"%char :: r)) = Ok (AllowAll, PS ("*"%char :: b) r)).
    { unfold read_single. rewrite match_ws_nospace by reflexivity. change ("*"%char :: r) with (lit "*" ++ r). rewrite pmatch_app. reflexivity. }
    rewrite E. cbn [bind]. change (intersect_with AllowAll AllowAll) with (@Ok spec AllowAll). cbn [bind]. exact (loop_tail u f AllowAll _ r T).
  - destruct v as [| |v]; try contradiction. destruct H as [W P]. cbn [spec_str match_str version_str].
    destruct al.
    + replace (lit "==" ++ sv_str v) with (clause_text (Eq, v)); [|unfold clause_text; cbn [fst snd starred cop_text]; rewrite app_nil_r; reflexivity].
      apply ONE; [|auto]. repeat split; try apply W; try apply P; discriminate.
    + replace (lit "!=" ++ sv_str v) with (clause_text (Ne, v)); [|unfold clause_text; cbn [fst snd starred cop_text]; rewrite app_nil_r; reflexivity].
      apply ONE; [|auto]. repeat split; try apply W; try apply P; discriminate.
  - destruct H as (W & W1 & W2 & C). destruct (wf_opt_plain _ _ _ _ W) as [P1 P2]. cbn [spec_str].
    assert (OK : forall o v, wf_sv v -> plain v -> starred o = false -> o <> Compat -> clause_ok (o, v)).
    { intros o v A B S N. split; [exact A|]. split; [exact B|]. split; [congruence|]. rewrite S. discriminate. }
    assert (TX : forall o v, starred o = false -> clause_text (o, v) = cop_text o ++ sv_str v).
    { intros o v S. unfold clause_text. cbn [fst snd]. rewrite S, app_nil_r. reflexivity. }
    unfold range_str.
    destruct mn as [m|], mx as [n|].
    + specialize (W1 _ eq_refl). specialize (W2 _ eq_refl). specialize (P1 _ eq_refl). specialize (P2 _ eq_refl).
      assert (TWO : exists b', read_specifier u (PS b (((lit ">" ++ (if i then lit "=" else []) ++ sv_str m) ++ lit ", " ++ lit "<" ++ (if j then lit "=" else []) ++ sv_str n) ++ r))
         = Ok (Range (Some m) (Some n) i j, PS b' r)).
      { set (o := if i then Ge else Gt). set (o' := if j then Le else Lt).
        assert (So : starred o = false) by (destruct i; reflexivity). assert (So' : starred o' = false) by (destruct j; reflexivity).
        replace ((lit ">" ++ (if i then lit "=" else []) ++ sv_str m) ++ lit ", " ++ lit "<" ++ (if j then lit "=" else []) ++ sv_str n)
          with (clause_text (o, m) ++ lit ", " ++ clause_text (o', n)).
        2: { rewrite !TX by assumption. subst o o'. destruct i, j; reflexivity. }
        assert (Ko : clause_ok (o, m)) by (apply OK; try assumption; destruct i; discriminate).
        assert (Ko' : clause_ok (o', n)) by (apply OK; try assumption; destruct j; discriminate).
        rewrite <- !app_assoc, spec_loop by apply clause_head2.
        set (t := clause_text (o, m) ++ lit ", " ++ clause_text (o', n) ++ r).
        destruct (read_loop_two u o m o' n b (length (List.tl t)) r Ko Ko' T) as (s & s' & b' & E & X & X'). fold t in E.
        destruct (clause_head2 (o, m) (lit ", " ++ clause_text (o', n) ++ r)) as (d & l & E1 & _). fold t in E1.
        assert (LEN : length t = S (length (List.tl t))) by (rewrite E1; reflexivity).
        rewrite LEN, E. exists b'.
        assert (S1 : s = Range (Some m) None i false) by (subst o; destruct i; exact X).
        assert (S2 : s' = Range None (Some n) false j) by (subst o'; destruct j; exact X').
        rewrite S1, S2, inter_halves by exact W. reflexivity. }
      assert (NN : lit ">" ++ (if i then lit "=" else []) ++ sv_str m <> []) by discriminate.
      destruct (i && negb j && compat_release m n) eqn:CM.
      * rewrite !andb_true_iff in CM. destruct CM as [[-> CJ] CR]. apply negb_true_iff in CJ. subst j. unfold compat_release in CR.
        assert (X : exists p x y, release m = p ++ [x; y] /\ release n = p ++ [(x + 1)%N; 0%N]).
        { destruct (rev (release m)) as [|y [|x p]] eqn:RV; try discriminate. apply list_eqb_N in CR.
          exists (rev p), x, y. split; [|exact CR]. rewrite <- (rev_involutive (release m)), RV. cbn [rev]. rewrite <- app_assoc. reflexivity. }
        destruct X as (p & x & y & Rm & Rn). specialize (C m n eq_refl eq_refl eq_refl eq_refl p x y Rm Rn).
        replace (lit "~=" ++ sv_str m) with (clause_text (Compat, m)); [|rewrite TX by reflexivity; reflexivity].
        apply ONE.
        -- split; [exact W1|]. split; [exact P1|]. split; [intros _; rewrite Rm, app_length; cbn; lia|discriminate].
        -- intros s' X. cbn [exact] in X. rewrite C. apply X. unfold bump_compat. rewrite Rm, rev_app_distr. cbn [rev app]. rewrite rev_involutive. reflexivity.
      * destruct (lit ">" ++ (if i then lit "=" else []) ++ sv_str m) eqn:TT; [congruence|exact TWO].
    + specialize (W1 _ eq_refl). specialize (P1 _ eq_refl).
      assert (j = false) as ->. { destruct j; [|reflexivity]. destruct W as (_ & _ & A & _). destruct (A eq_refl eq_refl). }
      destruct i.
      * replace (lit ">" ++ lit "=" ++ sv_str m) with (clause_text (Ge, m)) by (rewrite TX by reflexivity; reflexivity).
        apply ONE; [apply OK; try assumption; (reflexivity || discriminate)|auto].
      * replace (lit ">" ++ [] ++ sv_str m) with (clause_text (Gt, m)) by (rewrite TX by reflexivity; reflexivity).
        apply ONE; [apply OK; try assumption; (reflexivity || discriminate)|auto].
    + specialize (W2 _ eq_refl). specialize (P2 _ eq_refl).
      assert (i = false) as ->. { destruct i; [|reflexivity]. destruct W as (_ & A & _). destruct (A eq_refl eq_refl). }
      destruct j.
      * replace (lit "<" ++ lit "=" ++ sv_str n) with (clause_text (Le, n)) by (rewrite TX by reflexivity; reflexivity).
        apply ONE; [apply OK; try assumption; (reflexivity || discriminate)|auto].
      * replace (lit "<" ++ [] ++ sv_str n) with (clause_text (Lt, n)) by (rewrite TX by reflexivity; reflexivity).
        apply ONE; [apply OK; try assumption; (reflexivity || discriminate)|auto].
    + destruct W as ([A|A] & _); congruence.
Qed.
Lemma spec_tail_space : forall u b t, (exists d l, t = d :: l /\ is_space d = false /\ Ascii.eqb "("%char d = false) ->
  read_specifier u (PS b (" "%char :: t)) = read_specifier u (PS (" "%char :: b) t).
Proof.
  intros u b t (d & l & -> & SP & PA). unfold read_specifier. rewrite ws_space by exact SP. now rewrite match_ws_nospace.
Qed.
Lemma printable_head : forall s r, printable s -> exists d l, spec_str s ++ r = d :: l /\ is_space d = false /\ Ascii.eqb "("%char d = false.
Proof.
  intros [| |l|bl s|v al|mn mx i j] r H; try contradiction; cbn [spec_str].
  - eexists _, _. repeat split.
  - destruct v as [| |v]; try contradiction. destruct al; eexists _, _; repeat split.
  - destruct H as (W & _). unfold range_str. destruct mn as [m|], mx as [n|].
    + destruct (i && negb j && compat_release m n); [eexists _, _; repeat split|].
      cbn [app lit list_ascii_of_string]. eexists _, _; repeat split.
    + eexists _, _; repeat split.
    + eexists _, _; repeat split.
    + destruct W as ([A|A] & _); congruence.
Qed.
Lemma lower_sv : forall v, wf_sv v -> plain v -> lower (sv_str v) = sv_str v.
Proof. intros v W P. apply lower_vchar. apply sv_str_vchar; [exact W|now apply plain_label_wf]. Qed.
Lemma lower_spec : forall s, printable s -> lower (spec_str s) = spec_str s.
Proof.
  intros [| |l|bl s|v al|mn mx i j] H; try contradiction; cbn [spec_str].
  - reflexivity.
  - destruct v as [| |v]; try contradiction. destruct H as [W P]. unfold match_str, version_str. destruct al; rewrite lower_app, lower_sv by assumption; reflexivity.
  - destruct H as (W & W1 & W2 & C). destruct (wf_opt_plain _ _ _ _ W) as [P1 P2].
    unfold range_str. destruct mn as [m|], mx as [n|].
    + destruct (i && negb j && compat_release m n); [rewrite lower_app, lower_sv by auto; reflexivity|].
      pose proof (lower_sv m (W1 _ eq_refl) (P1 _ eq_refl)) as L1. pose proof (lower_sv n (W2 _ eq_refl) (P2 _ eq_refl)) as L2. unfold lower in *.
      destruct i, j; cbn [app lit list_ascii_of_string map]; repeat (rewrite map_app; cbn [app map]); rewrite L1, L2; reflexivity.
    + rewrite !lower_app, !lower_sv by auto. destruct i; reflexivity.
    + rewrite !lower_app, !lower_sv by auto. destruct j; reflexivity.
    + destruct W as ([A|A] & _); congruence.
Qed.
Lemma print_parse : forall u s, printable s -> parse_specifier u (spec_str s) = Ok s.
Proof.
  intros u s H. unfold parse_specifier, pinit. rewrite lower_spec by exact H.
  destruct (print_read u s [] [] H (or_introl eq_refl)) as (b' & E). rewrite app_nil_r in E. rewrite E. reflexivity.
Qed.
(** one clause with a blank behind the operator *)
Lemma parse_gap : forall u o v w, gap w -> clause_ok (o, v) -> exists s,
  parse_specifier u (cop_text o ++ w ++ sv_str v ++ (if starred o then lit ".*" else [])) = Ok s /\ good o v s.
Proof.
  intros u o v w G O. set (t := cop_text o ++ w ++ sv_str v ++ (if starred o then lit ".*" else [])).
  assert (L : lower t = t).
  { destruct O as (W & P & _). unfold t. rewrite !lower_app, (lower_sv v W P).
    destruct G as [-> | ->], o; reflexivity. }
  assert (H : exists d l, t = d :: l /\ is_space d = false /\ Ascii.eqb "("%char d = false) by (unfold t; destruct o; cbn; eauto).
  unfold parse_specifier, pinit. rewrite L, spec_loop by exact H. destruct H as (d & l & E & _).
  destruct (read_single_gap u o v [] w [] G O (or_introl eq_refl)) as (s & b' & R & Gs & _). rewrite app_nil_r in R. fold t in R.
  exists s. split; [|exact Gs].
  assert (RL : read_loop u (S (length t)) false AllowAll (PS [] t) = Ok (s, PS b' [])); [|now rewrite RL].
  cbn [read_loop]. assert (NE : not_empty (PS [] t) = true) by (rewrite E; reflexivity). rewrite NE. cbn [negb]. rewrite R. cbn [bind].
  change (intersect_with AllowAll s) with (@Ok spec s). cbn [bind].
  exact (loop_tail u (length t) s b' [] (or_introl eq_refl)).
Qed.
