(** Spellings of a version: the letter v, separators, and other names of the parts. *)
From Coq Require Import String Ascii List Bool NArith Arith Lia.
From Verif Require Import Base BaseFacts ParserModel ParserFacts VersionModel VersionSpec VersionParserModel
  VersionParserProofs UrlModel VersionParse VersionParseProofs.
Import ListNotations.
Open Scope string_scope.
Open Scope nat_scope.
Open Scope list_scope.
Open Scope bool_scope.

(** a text after the release that is read as [pre], [post], [dev] to its end *)
Definition tail_reads (T : str) (pre : option (str * N)) (post dev : option N) : Prop :=
  ((forall w, starts_with ("."%char :: w) T = false) \/ (exists c r', T = "."%char :: c :: r' /\ is_digit c = false)) /\
  head_not is_digit T /\ starts_with (lit "!") T = false /\ forallb (fun c => vchar c || Ascii.eqb c "-"%char || Ascii.eqb c "_"%char) T = true /\
  forall b1, dprev b1 -> exists b2, dprev b2 /\
    (let '(p, s6) := read_pre (undot (PS b1 T)) in
     let '(po, s7) := read_post s6 in
     let '(d, s8) := read_dev s7 in (p, po, d, s8)) = (pre, post, dev, PS b2 []).

Lemma read_version_tail : forall pfx n ns T pre post dev, In pfx [[]; lit "v"] -> tail_reads T pre post dev ->
  exists s, read_version (pinit (pfx ++ show_N n ++ t_rel ns ++ T)) = Ok (SV (n :: ns) None pre post dev None, s).
Proof.
  intros pfx n ns T pre post dev P (HT & HD & HB & _ & HS).
  unfold read_version, pinit.
  assert (exists c l, pfx ++ show_N n ++ t_rel ns ++ T = c :: l /\ (is_digit c = true \/ c = "v"%char)) as (c & l & EC & Hc).
  { destruct P as [<-|[<-|[]]]; [|do 2 eexists; split; [reflexivity|right; reflexivity]]. cbn [app]. destruct (show_N_cons n) as (d & ds & -> & Hd & _). cbn [app]. eauto. }
  assert (match_ws true (PS [] (pfx ++ show_N n ++ t_rel ns ++ T)) = PS [] (pfx ++ show_N n ++ t_rel ns ++ T)) as W.
  { rewrite EC. apply match_ws_nospace. destruct Hc as [Hc|Hc]; [apply digit_not_space, Hc | subst; reflexivity]. }
  rewrite W. unfold pmatch_ws.
  assert (forall x, is_digit x = false -> x <> "v"%char -> pmatch [x] (PS [] (pfx ++ show_N n ++ t_rel ns ++ T)) = None) as NM.
  { intros x Hx Vx. apply pmatch_fail. cbn [rest]. rewrite EC. destruct Hc as [Hc|Hc]; [apply starts_with_digit; auto|]. subst c.
    cbn [starts_with]. replace (Ascii.eqb x "v") with false; [reflexivity|]. symmetry. apply Ascii.eqb_neq. exact Vx. }
  change (lit "(") with ["("%char]. change (lit "'") with ["'"%char]. change (lit """") with [""""%char].
  rewrite !NM by (reflexivity || discriminate).
  assert (exists b, skip (lit "v") (PS [] (pfx ++ show_N n ++ t_rel ns ++ T)) = PS b (show_N n ++ t_rel ns ++ T)) as (b & SK).
  { destruct P as [<-|[<-|[]]].
    - cbn [app]. exists []. apply skip_fail. cbn [rest]. destruct (show_N_cons n) as (d & ds & -> & Hd & _). cbn [app]. apply starts_with_digit; auto.
    - unfold skip. rewrite pmatch_app. eexists. reflexivity. }
  rewrite SK. destruct (epoch_release_ok None n ns T b HT HD HB) as (b1 & E1 & Hb1). cbn [app] in E1. rewrite E1. cbn [bind].
  destruct (HS b1 Hb1) as (b2 & Hb2 & E2).
  destruct (read_pre (undot (PS b1 T))) as [p s6]. destruct (read_post s6) as [po s7]. destruct (read_dev s7) as [d s8].
  injection E2 as -> -> -> ->. cbn [read_local]. unfold read_local. rewrite pmatch_fail by reflexivity.
  unfold peek_prev. cbn [prev]. rewrite (dprev_digit_not b2 "."%char) by auto. cbn [bind]. eexists. reflexivity.
Qed.

Definition spelled (c : ascii) : bool := vchar c || Ascii.eqb c "-"%char || Ascii.eqb c "_"%char.
Lemma spelled_lower : forall s, forallb spelled s = true -> lower s = s.
Proof.
  intros s H. unfold lower. rewrite <- (map_id s) at 2. apply map_ext_in. intros c Hc. rewrite forallb_forall in H. specialize (H c Hc).
  revert H. destruct c as [[] [] [] [] [] [] [] []]; intro H; try reflexivity; discriminate.
Qed.
Lemma contains_spelled : forall s w, forallb spelled s = true -> contains (":"%char :: w) s = false.
Proof.
  induction s as [|c s IH]; intros w H; auto. cbn [forallb] in H. apply andb_true_iff in H. destruct H as [H1 H2].
  cbn [contains starts_with]. rewrite (IH w H2), orb_false_r. destruct (Ascii.eqb_spec ":" c); auto. subst. discriminate.
Qed.
Lemma vchar_spelled : forall s, forallb vchar s = true -> forallb spelled s = true.
Proof. intros s H. rewrite forallb_forall in *. intros c I. unfold spelled. rewrite (H c I). reflexivity. Qed.
Lemma parse_tail : forall t pfx n ns T pre post dev, In pfx [[]; lit "v"] -> tail_reads T pre post dev ->
  lower t = pfx ++ join (lit ".") (map show_N (n :: ns)) ++ T ->
  parse_version t = Ok (VStd (SV (n :: ns) None pre post dev None)).
Proof.
  intros t pfx n ns T pre post dev P R E. unfold parse_version. rewrite E.
  replace (pfx ++ join (lit ".") (map show_N (n :: ns)) ++ T) with (pfx ++ show_N n ++ t_rel ns ++ T)
    by (rewrite join_t_rel; f_equal; rewrite <- app_assoc; reflexivity).
  assert (forallb spelled (pfx ++ show_N n ++ t_rel ns ++ T) = true) as SP.
  { destruct R as (_ & _ & _ & VT & _). rewrite !forallb_app. rewrite (vchar_spelled _ (show_vchar n)), (vchar_spelled _ (t_rel_vchar ns)).
    replace (forallb spelled pfx) with true by (destruct P as [<-|[<-|[]]]; reflexivity). cbn [andb]. exact VT. }
  rewrite (contains_spelled _ (lit "//")) by exact SP.
  destruct (read_version_tail pfx n ns T pre post dev P R) as (s & ->). reflexivity.
Qed.

(** ** The tails *)
Lemma skip_num : forall b k, skip_any separators (PS b (show_N k)) = PS b (show_N k).
Proof.
  intros b k. apply skip_any_fail. cbn [rest]. destruct (show_N_cons k) as (d & ds & -> & Hd & _).
  intros x Hx. cbn in Hx. destruct Hx as [<-|[<-|[<-|[]]]]; apply starts_with_digit; auto.
Qed.
Lemma skip_sep_num : forall b sep k, In sep [[]; lit "."; lit "-"; lit "_"] ->
  skip_any separators (PS b (sep ++ show_N k)) = PS (rev sep ++ b) (show_N k).
Proof.
  intros b sep k [<-|[<-|[<-|[<-|[]]]]]; [apply skip_num| | |]; unfold skip_any, separators; cbn [match_any];
    [rewrite pmatch_app | rewrite (pmatch_fail (lit ".")) by reflexivity; rewrite pmatch_app
     | rewrite (pmatch_fail (lit ".")), (pmatch_fail (lit "-")) by reflexivity; rewrite pmatch_app]; reflexivity.
Qed.
Lemma opt_number_end : forall k b, opt_number (PS b (show_N k)) = (k, PS (rev (show_N k) ++ b) []).
Proof. intros k b. rewrite <- (app_nil_r (show_N k)) at 1. apply opt_number_show. reflexivity. Qed.
Lemma show_spelled : forall k, forallb spelled (show_N k) = true.
Proof. intro k. apply vchar_spelled, show_vchar. Qed.
Lemma ends : plus_or_stop [].
Proof. left. reflexivity. Qed.

Definition pre_spellings : list (str * str) := [(lit "a", lit "a"); (lit "b", lit "b"); (lit "rc", lit "rc"); (lit "c", lit "rc")].
Lemma pre_tail : forall dot tag norm sep k, In dot [[]; lit "."] -> In (tag, norm) pre_spellings -> In sep [[]; lit "."; lit "-"; lit "_"] ->
  tail_reads (dot ++ tag ++ sep ++ show_N k) (Some (norm, k)) None None.
Proof.
  intros dot tag norm sep k Hd Ht Hs.
  assert (forall b, exists b', dprev b' /\ read_pre (PS b (tag ++ sep ++ show_N k)) = (Some (norm, k), PS b' [])) as R.
  { intro b. unfold read_pre.
    assert (match_any pre_keys (PS b (tag ++ sep ++ show_N k)) = Some (tag, PS (rev tag ++ b) (sep ++ show_N k)) /\ opt_or (dict_get tag pre_normalizer) [] = norm) as [M1 M2].
    { destruct Ht as [E|[E|[E|[E|[]]]]]; injection E as <- <-; (split; [|reflexivity]); unfold pre_keys, pre_normalizer; cbn [map fst match_any].
      - rewrite pmatch_app. reflexivity.
      - rewrite (pmatch_fail (lit "a")) by reflexivity. rewrite pmatch_app. reflexivity.
      - rewrite (pmatch_fail (lit "a")), (pmatch_fail (lit "b")) by reflexivity. rewrite pmatch_app. reflexivity.
      - rewrite (pmatch_fail (lit "a")), (pmatch_fail (lit "b")), (pmatch_fail (lit "rc")) by reflexivity. rewrite pmatch_app. reflexivity. }
    rewrite M1, M2, skip_sep_num, opt_number_end by exact Hs. eexists. split; [apply dprev_show | reflexivity]. }
  unfold tail_reads. split; [|split; [|split; [|split]]].
  - destruct Hd as [<-|[<-|[]]].
    + left. intro w. destruct Ht as [E|[E|[E|[E|[]]]]]; injection E as <- <-; reflexivity.
    + right. destruct Ht as [E|[E|[E|[E|[]]]]]; injection E as <- <-; do 2 eexists; (split; [reflexivity|reflexivity]).
  - destruct Hd as [<-|[<-|[]]]; [|reflexivity]. destruct Ht as [E|[E|[E|[E|[]]]]]; injection E as <- <-; reflexivity.
  - destruct Hd as [<-|[<-|[]]]; [|reflexivity]. destruct Ht as [E|[E|[E|[E|[]]]]]; injection E as <- <-; reflexivity.
  - change (forallb spelled (dot ++ tag ++ sep ++ show_N k) = true). rewrite !forallb_app, show_spelled.
    destruct Hd as [<-|[<-|[]]], Ht as [E|[E|[E|[E|[]]]]]; injection E as <- <-; destruct Hs as [<-|[<-|[<-|[<-|[]]]]]; reflexivity.
  - intros b1 Hb1.
    assert (exists b, undot (PS b1 (dot ++ tag ++ sep ++ show_N k)) = PS b (tag ++ sep ++ show_N k)) as (b & ->).
    { destruct Hd as [<-|[<-|[]]]; [|eexists; reflexivity]. exists b1. destruct Ht as [E|[E|[E|[E|[]]]]]; injection E as <- <-; reflexivity. }
    destruct (R b) as (b2 & Hb2 & ->). rewrite (read_post_none b2 [] Hb2 ends), (read_dev_none b2 [] ends). eauto.
Qed.

Lemma num_starts : forall x w k, is_digit x = false -> starts_with (x :: w) (show_N k) = false.
Proof. intros x w k H. destruct (show_N_cons k) as (d & ds & -> & Hd & _). cbn [starts_with]. rewrite digit_neq; auto. Qed.
Lemma post_word : forall w h k b, In w [lit "post"; lit "r"] -> In h [[]; lit "-"] ->
  exists b', dprev b' /\
    match match_any [lit "post"; lit "r"; lit "rev"] (PS b (w ++ h ++ show_N k)) with
    | Some (_, s2) => let '(n, s3) := opt_number (skip "-" s2) in (Some n, s3)
    | None => (None, PS b (w ++ h ++ show_N k))
    end = (Some k, PS b' []).
Proof.
  intros w h k b Hw Hh.
  assert (match_any [lit "post"; lit "r"; lit "rev"] (PS b (w ++ h ++ show_N k)) = Some (w, PS (rev w ++ b) (h ++ show_N k))) as M.
  { destruct Hw as [<-|[<-|[]]]; cbn [match_any]; [|rewrite (pmatch_fail (lit "post")) by reflexivity]; rewrite pmatch_app; reflexivity. }
  rewrite M.
  assert (exists b', skip (lit "-") (PS (rev w ++ b) (h ++ show_N k)) = PS b' (show_N k)) as (b' & ->).
  { destruct Hh as [<-|[<-|[]]].
    - eexists. apply skip_fail. cbn [rest app]. apply num_starts. reflexivity.
    - unfold skip. rewrite pmatch_app. eexists. reflexivity. }
  rewrite opt_number_end. eexists. split; [apply dprev_show|reflexivity].
Qed.
Lemma r_number : forall h k, In h [[]; lit "-"] -> starts_with (lit "rc") (lit "r" ++ h ++ show_N k) = false.
Proof.
  intros h k [<-|[<-|[]]]; [|reflexivity]. cbn [app]. change (starts_with (lit "c") (show_N k) = false). apply num_starts. reflexivity.
Qed.
Lemma no_pre_word : forall w h k, In w [lit "post"; lit "r"] -> In h [[]; lit "-"] ->
  forall x, In x pre_keys -> starts_with x (w ++ h ++ show_N k) = false.
Proof.
  intros w h k [<-|[<-|[]]] Hh x Hx; cbn in Hx.
  - repeat (destruct Hx as [<-|Hx]; [reflexivity|]). destruct Hx.
  - repeat (destruct Hx as [<-|Hx]; [reflexivity || apply r_number, Hh|]). destruct Hx.
Qed.
Lemma post_tail : forall sep w h k, In sep [[]; lit "."; lit "-"; lit "_"] -> In w [lit "post"; lit "r"] -> In h [[]; lit "-"] ->
  tail_reads (sep ++ w ++ h ++ show_N k) None (Some k) None.
Proof.
  intros sep w h k Hs Hw Hh. unfold tail_reads. split; [|split; [|split; [|split]]].
  - destruct Hs as [<-|[<-|[<-|[<-|[]]]]]; [left; intro x; destruct Hw as [<-|[<-|[]]]; reflexivity| |left; intro x; reflexivity|left; intro x; reflexivity].
    right. destruct Hw as [<-|[<-|[]]]; do 2 eexists; (split; [reflexivity|reflexivity]).
  - destruct Hs as [<-|[<-|[<-|[<-|[]]]]]; try reflexivity. destruct Hw as [<-|[<-|[]]]; reflexivity.
  - destruct Hs as [<-|[<-|[<-|[<-|[]]]]]; try reflexivity. destruct Hw as [<-|[<-|[]]]; reflexivity.
  - change (forallb spelled (sep ++ w ++ h ++ show_N k) = true). rewrite !forallb_app, show_spelled.
    destruct Hs as [<-|[<-|[<-|[<-|[]]]]], Hw as [<-|[<-|[]]], Hh as [<-|[<-|[]]]; reflexivity.
  - intros b1 Hb1.
    assert (exists b2, dprev b2 /\ read_post (snd (read_pre (undot (PS b1 (sep ++ w ++ h ++ show_N k))))) = (Some k, PS b2 []) /\
              fst (read_pre (undot (PS b1 (sep ++ w ++ h ++ show_N k)))) = None) as (b2 & Hb2 & E & E0).
    { pose proof Hb1 as D. unfold dprev in D.
      destruct Hs as [<-|[<-|[<-|[<-|[]]]]].
      - assert (undot (PS b1 ([] ++ w ++ h ++ show_N k)) = PS b1 (w ++ h ++ show_N k)) as -> by (destruct Hw as [<-|[<-|[]]]; reflexivity).
        rewrite read_pre_none_gen by (apply no_pre_word; assumption). cbn [fst snd].
        destruct (post_word w h k b1 Hw Hh) as (b2 & Hb2 & E). exists b2. split; [exact Hb2|]. split; [|reflexivity].
        unfold read_post, peek_prev. cbn [prev]. rewrite D. cbn [orb]. rewrite skip_any_fail.
        + destruct (match_any _ _) as [[x s2]|]; [exact E|discriminate E].
        + cbn [rest]. intros x Hx. destruct Hx as [<-|[<-|[<-|[]]]], Hw as [<-|[<-|[]]]; reflexivity.
      - change (undot (PS b1 (lit "." ++ w ++ h ++ show_N k))) with (PS ("."%char :: b1) (w ++ h ++ show_N k)).
        rewrite read_pre_none_gen by (apply no_pre_word; assumption). cbn [fst snd].
        destruct (post_word w h k ("."%char :: b1) Hw Hh) as (b2 & Hb2 & E). exists b2. split; [exact Hb2|]. split; [|reflexivity].
        unfold read_post, peek_prev. cbn [prev hd_error].
        change (opt_test is_digit (Some "."%char) || opt_test is_pre_key_char (Some "."%char)) with false. cbn iota.
        destruct (match_any _ _) as [[x s2]|]; [exact E|discriminate E].
      - change (undot (PS b1 (lit "-" ++ w ++ h ++ show_N k))) with (PS b1 (lit "-" ++ w ++ h ++ show_N k)).
        rewrite read_pre_none_gen by (intros x Hx; cbn in Hx; repeat (destruct Hx as [<-|Hx]; [reflexivity|]); destruct Hx). cbn [fst snd].
        destruct (post_word w h k (rev (lit "-") ++ b1) Hw Hh) as (b2 & Hb2 & E). exists b2. split; [exact Hb2|]. split; [|reflexivity].
        unfold read_post, peek_prev. cbn [prev]. rewrite D. cbn [orb].
        assert (skip_any separators (PS b1 (lit "-" ++ w ++ h ++ show_N k)) = PS (rev (lit "-") ++ b1) (w ++ h ++ show_N k)) as ->.
        { unfold skip_any, separators. cbn [match_any]. rewrite (pmatch_fail (lit ".")) by reflexivity. rewrite pmatch_app. reflexivity. }
        destruct (match_any _ _) as [[x s2]|]; [exact E|discriminate E].
      - change (undot (PS b1 (lit "_" ++ w ++ h ++ show_N k))) with (PS b1 (lit "_" ++ w ++ h ++ show_N k)).
        rewrite read_pre_none_gen by (intros x Hx; cbn in Hx; repeat (destruct Hx as [<-|Hx]; [reflexivity|]); destruct Hx). cbn [fst snd].
        destruct (post_word w h k (rev (lit "_") ++ b1) Hw Hh) as (b2 & Hb2 & E). exists b2. split; [exact Hb2|]. split; [|reflexivity].
        unfold read_post, peek_prev. cbn [prev]. rewrite D. cbn [orb].
        assert (skip_any separators (PS b1 (lit "_" ++ w ++ h ++ show_N k)) = PS (rev (lit "_") ++ b1) (w ++ h ++ show_N k)) as ->.
        { unfold skip_any, separators. cbn [match_any]. rewrite (pmatch_fail (lit ".")), (pmatch_fail (lit "-")) by reflexivity. rewrite pmatch_app. reflexivity. }
        destruct (match_any _ _) as [[x s2]|]; [exact E|discriminate E]. }
    exists b2. split; [exact Hb2|]. destruct (read_pre _) as [p s6]. cbn [fst snd] in E, E0. rewrite E, (read_dev_none b2 [] ends), E0. reflexivity.
Qed.
(** [1.0-1] *)
Lemma dash_tail : forall k, tail_reads (lit "-" ++ show_N k) None (Some k) None.
Proof.
  intro k. unfold tail_reads. split; [left; intro w; reflexivity|]. split; [reflexivity|]. split; [reflexivity|]. split.
  - change (forallb spelled (lit "-" ++ show_N k) = true). rewrite forallb_app, show_spelled. reflexivity.
  - intros b1 Hb1. pose proof Hb1 as D. unfold dprev in D.
    change (undot (PS b1 (lit "-" ++ show_N k))) with (PS b1 (lit "-" ++ show_N k)).
    rewrite read_pre_none_gen by (intros x Hx; cbn in Hx; repeat (destruct Hx as [<-|Hx]; [reflexivity|]); destruct Hx).
    unfold read_post, peek_prev. cbn [prev]. rewrite D. cbn [orb].
    assert (skip_any separators (PS b1 (lit "-" ++ show_N k)) = PS (rev (lit "-") ++ b1) (show_N k)) as ->.
    { unfold skip_any, separators. cbn [match_any]. rewrite (pmatch_fail (lit ".")) by reflexivity. rewrite pmatch_app. reflexivity. }
    cbn [match_any]. rewrite !pmatch_fail by (cbn [rest]; apply num_starts; reflexivity).
    assert (opt_test is_digit (peek (PS (rev (lit "-") ++ b1) (show_N k))) = true) as ->.
    { unfold peek. cbn [rest]. destruct (show_N_cons k) as (d & ds & -> & Hd & _). exact Hd. }
    change (opt_is "-"%char (hd_error (prev (PS (rev (lit "-") ++ b1) (show_N k))))) with true. cbn [andb].
    rewrite skip_fail by (cbn [rest]; apply num_starts; reflexivity). rewrite opt_number_end, (read_dev_none _ [] ends).
    eexists. split; [apply dprev_show|reflexivity].
Qed.
Lemma dev_tail : forall sep k, In sep [[]; lit "."; lit "-"; lit "_"] -> tail_reads (sep ++ lit "dev" ++ show_N k) None None (Some k).
Proof.
  intros sep k Hs. unfold tail_reads. split; [|split; [|split; [|split]]].
  - destruct Hs as [<-|[<-|[<-|[<-|[]]]]]; try (left; intro x; reflexivity). right. do 2 eexists. split; reflexivity.
  - destruct Hs as [<-|[<-|[<-|[<-|[]]]]]; reflexivity.
  - destruct Hs as [<-|[<-|[<-|[<-|[]]]]]; reflexivity.
  - change (forallb spelled (sep ++ lit "dev" ++ show_N k) = true). rewrite !forallb_app, show_spelled.
    destruct Hs as [<-|[<-|[<-|[<-|[]]]]]; reflexivity.
  - intros b1 Hb1. pose proof Hb1 as D. unfold dprev in D.
    assert (forall b, exists b2, dprev b2 /\ match pmatch "dev" (PS b (lit "dev" ++ show_N k)) with
              | Some s2 => let '(n, s3) := opt_number s2 in (Some n, s3) | None => (None, PS b (lit "dev" ++ show_N k)) end = (Some k, PS b2 [])) as W.
    { intro b. rewrite pmatch_app, opt_number_end. eexists. split; [apply dprev_show|reflexivity]. }
    destruct Hs as [<-|[<-|[<-|[<-|[]]]]].
    + change (undot (PS b1 ([] ++ lit "dev" ++ show_N k))) with (PS b1 (lit "dev" ++ show_N k)).
      rewrite read_pre_none_gen by (intros x Hx; cbn in Hx; repeat (destruct Hx as [<-|Hx]; [reflexivity|]); destruct Hx).
      assert (forall b, skip_any separators (PS b (lit "dev" ++ show_N k)) = PS b (lit "dev" ++ show_N k)) as SK.
      { intro b. apply skip_any_fail. intros x Hx. destruct Hx as [<-|[<-|[<-|[]]]]; reflexivity. }
      unfold read_post, peek_prev. cbn [prev]. rewrite D. cbn [orb]. rewrite SK. cbn [match_any]. rewrite !pmatch_fail by reflexivity.
      cbn [prev]. rewrite (dprev_dash b1 Hb1). cbn [andb]. unfold read_dev, peek_prev. cbn [prev]. rewrite D, SK.
      destruct (W b1) as (b2 & Hb2 & E). exists b2. split; [exact Hb2|]. destruct (pmatch _ _) as [s2|]; [|discriminate E].
      destruct (opt_number s2) as [n s3]. injection E as -> ->. reflexivity.
    + change (undot (PS b1 (lit "." ++ lit "dev" ++ show_N k))) with (PS ("."%char :: b1) (lit "dev" ++ show_N k)).
      rewrite read_pre_none_gen by (intros x Hx; cbn in Hx; repeat (destruct Hx as [<-|Hx]; [reflexivity|]); destruct Hx).
      rewrite read_post_none_dev_B. unfold read_dev, peek_prev. cbn [prev hd_error]. change (opt_test is_digit (Some "."%char)) with false. cbn iota.
      destruct (W ("."%char :: b1)) as (b2 & Hb2 & E). exists b2. split; [exact Hb2|]. destruct (pmatch _ _) as [s2|]; [|discriminate E].
      destruct (opt_number s2) as [n s3]. injection E as -> ->. reflexivity.
    + change (undot (PS b1 (lit "-" ++ lit "dev" ++ show_N k))) with (PS b1 (lit "-" ++ lit "dev" ++ show_N k)).
      rewrite read_pre_none_gen by (intros x Hx; cbn in Hx; repeat (destruct Hx as [<-|Hx]; [reflexivity|]); destruct Hx).
      unfold read_post, peek_prev. cbn [prev]. rewrite D. cbn [orb].
      assert (skip_any separators (PS b1 (lit "-" ++ lit "dev" ++ show_N k)) = PS ("-"%char :: b1) (lit "dev" ++ show_N k)) as ->.
      { unfold skip_any, separators. cbn [match_any]. rewrite (pmatch_fail (lit ".")) by reflexivity. rewrite pmatch_app. reflexivity. }
      cbn [match_any]. rewrite !pmatch_fail by reflexivity. cbn [prev hd_error]. unfold peek. cbn [rest].
      change (opt_is "-"%char (Some "-"%char) && opt_test is_digit (hd_error (lit "dev" ++ show_N k))) with false. cbn iota.
      unfold read_dev, peek_prev. cbn [prev hd_error]. change (opt_test is_digit (Some "-"%char)) with false. cbn iota.
      destruct (W ("-"%char :: b1)) as (b2 & Hb2 & E). exists b2. split; [exact Hb2|]. destruct (pmatch _ _) as [s2|]; [|discriminate E].
      destruct (opt_number s2) as [n s3]. injection E as -> ->. reflexivity.
    + change (undot (PS b1 (lit "_" ++ lit "dev" ++ show_N k))) with (PS b1 (lit "_" ++ lit "dev" ++ show_N k)).
      rewrite read_pre_none_gen by (intros x Hx; cbn in Hx; repeat (destruct Hx as [<-|Hx]; [reflexivity|]); destruct Hx).
      unfold read_post, peek_prev. cbn [prev]. rewrite D. cbn [orb].
      assert (skip_any separators (PS b1 (lit "_" ++ lit "dev" ++ show_N k)) = PS ("_"%char :: b1) (lit "dev" ++ show_N k)) as ->.
      { unfold skip_any, separators. cbn [match_any]. rewrite (pmatch_fail (lit ".")), (pmatch_fail (lit "-")) by reflexivity. rewrite pmatch_app. reflexivity. }
      cbn [match_any]. rewrite !pmatch_fail by reflexivity. cbn [prev hd_error].
      change (opt_is "-"%char (Some "_"%char)) with false. cbn [andb].
      unfold read_dev, peek_prev. cbn [prev hd_error]. change (opt_test is_digit (Some "_"%char)) with false. cbn iota.
      destruct (W ("_"%char :: b1)) as (b2 & Hb2 & E). exists b2. split; [exact Hb2|]. destruct (pmatch _ _) as [s2|]; [|discriminate E].
      destruct (opt_number s2) as [n s3]. injection E as -> ->. reflexivity.
Qed.
