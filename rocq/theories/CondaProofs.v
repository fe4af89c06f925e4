(** Lemmas about conda channels. *)
From Coq Require Import String Ascii List Bool NArith Arith Lia Permutation.
From Verif Require Import Base BaseFacts OrderFacts NamesModel VersionModel VersionSpec VersionParse VersionProofs VersionPep440 VersionProps SpecifierModel SpecifierSpec
  SpecParse SpecParseSpec SpecParseProofs SpecifierProofs SpecifierProps TagsModel TagsSpec TagsProofs CollectionModel CollectionProofs IndexModel IndexProofs LocalModel CondaModel.
Import ListNotations.
Open Scope string_scope.
Open Scope nat_scope.
Open Scope list_scope.
Open Scope bool_scope.

Lemma key_eqb_eq : forall a b, key_eqb a b = true <-> a = b.
Proof.
  intros [a1 a2] [b1 b2]. unfold key_eqb. cbn [fst snd]. rewrite andb_true_iff, !str_eqb_eq. split; [intros [-> ->]; reflexivity|].
  intro H. injection H as <- <-. auto.
Qed.

(** the entries of one version *)
Definition entries (r : repodata) (name version : str) : list artifact :=
  filter (fun a => str_eqb (i_name (snd a)) name && str_eqb (i_version (snd a)) version) (r_packages r).
Lemma in_channel : forall r p, In p (channel_packages r) <->
  cp_artifacts p = entries r (cp_name p) (cp_version p) /\ cp_artifacts p <> [].
Proof.
  intros r [n v l]. unfold channel_packages. rewrite in_map_iff. cbn [cp_name cp_version cp_artifacts]. split.
  - intros ([[n' v'] g] & E & I). cbn [fst snd] in E. injection E as <- <- <-.
    apply (groupby_in key_eqb key_eqb_eq) in I. destruct I as [-> I]. split; [reflexivity|]. intro N.
    apply in_map_iff in I. destruct I as (a & Ea & Ia). assert (X : In a (having key_eqb (fun a => (i_name (snd a), i_version (snd a))) (n', v') (r_packages r))).
    { apply filter_In. split; [exact Ia|]. apply key_eqb_eq, Ea. }
    unfold having in N. unfold having in X. cbn beta in N, X. setoid_rewrite N in X. destruct X.
  - intros [E N]. exists ((n, v), l). split; [reflexivity|]. apply (groupby_in key_eqb key_eqb_eq). split; [exact E|].
    destruct l as [|a l]; [contradiction|]. assert (I : In a (entries r n v)) by (rewrite <- E; left; reflexivity).
    apply filter_In in I. destruct I as [I K]. apply in_map_iff. exists a. split; [|exact I]. apply key_eqb_eq. exact K.
Qed.
Lemma in_general : forall r name p, In p (general_package r name) <->
  cp_name p = name /\ cp_artifacts p = entries r name (cp_version p) /\ cp_artifacts p <> [].
Proof.
  intros r name p. unfold general_package. rewrite filter_In, in_channel, str_eqb_eq. split.
  - intros [[A B] C]. subst name. auto.
  - intros (A & B & C). subst name. auto.
Qed.
Lemma channel_once : forall r, NoDup (map (fun p => (cp_name p, cp_version p)) (channel_packages r)).
Proof.
  intro r. unfold channel_packages. rewrite map_map. cbn [cp_name cp_version].
  erewrite map_ext; [exact (groupby_nodup key_eqb key_eqb_eq _ (r_packages r))|]. intros [[n v] g]. reflexivity.
Qed.

Lemma package_version_ok : forall p v, package_version p = Ok v -> parse_version (cp_version p) = Ok v.
Proof.
  intros p v H. unfold package_version, bind in H. destruct (parse_version (cp_version p)) as [w|]; [|discriminate].
  destruct (make_descriptor _ _); [|discriminate]. congruence.
Qed.
Lemma filter_version_in : forall f l out, filter_version f l = Ok out ->
  forall v p, In (v, p) out <-> In p l /\ package_version p = Ok v /\ f v = true.
Proof.
  induction l as [|q l IH]; intros out H v p; cbn [filter_version] in H.
  - injection H as <-. cbn. tauto.
  - unfold bind in H. destruct (package_version q) as [w|] eqn:W; [|discriminate]. destruct (filter_version f l) as [rest|]; [|discriminate].
    injection H as <-. specialize (IH _ eq_refl v p). destruct (f w) eqn:F.
    + cbn [In]. rewrite IH. split.
      * intros [E|(A & B & C)]; [injection E as <- <-; auto|auto].
      * intros ([<-|A] & B & C); [left; congruence|auto].
    + rewrite IH. cbn [In]. split; [tauto|]. intros ([<-|A] & B & C); [congruence|auto].
Qed.
Lemma filter_version_sub : forall f l out, filter_version f l = Ok out -> exists keep, map snd out = filter keep l.
Proof.
  intros f l out H. exists (fun p => match package_version p with Ok v => f v | Err _ => false end). revert out H.
  induction l as [|q l IH]; intros out H; cbn [filter_version] in H; [injection H as <-; reflexivity|].
  unfold bind in H. destruct (package_version q) as [w|] eqn:W; [|discriminate]. destruct (filter_version f l) as [rest|]; [|discriminate].
  injection H as <-. cbn [filter]. rewrite W, <- (IH _ eq_refl). destruct (f w); reflexivity.
Qed.
Lemma nodup_filter : forall {A B} (g : A -> B) keep l, NoDup (map g l) -> NoDup (map g (filter keep l)).
Proof.
  intros A B g keep l H. induction l as [|x l IH]; [exact H|]. cbn in H. inversion H as [|? ? N H2]; subst. cbn [filter]. destruct (keep x); [|auto].
  cbn [map]. constructor; [|auto]. intro I. apply N. apply in_map_iff in I. destruct I as (y & E & I). apply filter_In in I. apply in_map_iff. exists y. tauto.
Qed.

(** ** version requirements *)
Lemma plain_lt : forall a b, let v := sv_plain a in let w := sv_plain b in sv_ltb v w = true <-> rel_lt v w.
Proof.
  intros a b v w. rewrite sv_ltb_key. unfold rel_lt, rel_at. cbn [release v w sv_plain].
  destruct (pub_eqb v w) eqn:E.
  - assert (R : rel_eqb a b = true).
    { unfold pub_eqb, lex_eqb, pub_key in E. cbn [fst snd] in E. rewrite !andb_true_iff in E. tauto. }
    split; intro H; [vm_compute in H; discriminate|]. destruct H as (i & H & _). rewrite (proj1 (rel_eqb_nth a b) R i) in H. lia.
  - rewrite <- rel_ltb_nth. unfold pub_ltb, lex_ltb, pub_key. cbn [fst snd]. unfold pub_eqb, lex_eqb, pub_key in E. cbn [fst snd] in E.
    change (ep v) with 0%N in *. change (ep w) with 0%N in *. cbn in E |- *. change (release v) with a in *. change (release w) with b in *.
    destruct (rel_eqb a b) eqn:R; [cbn in E; discriminate|]. cbn. rewrite ?orb_false_r. reflexivity.
Qed.
Lemma same_plain : forall a b, same_version (sv_plain a) (sv_plain b) <-> forall i, nth i a 0%N = nth i b 0%N.
Proof.
  intros a b. unfold same_version, same_public, rel_at. cbn. split; [tauto|]. intro H. split; [|reflexivity]. repeat split; auto.
Qed.
(** the release numbers begin with those of [x] *)
Definition begins (x r : list N) : Prop := forall i n, nth_error x i = Some n -> nth i r 0%N = n.
Lemma first_difference : forall k (f g : nat -> N), (forall i, i < k -> f i = g i) \/
  exists i, i < k /\ f i <> g i /\ forall j, j < i -> f j = g j.
Proof.
  induction k as [|k IH]; intros f g; [left; lia|]. destruct (IH f g) as [A|(i & L & D & A)].
  - destruct (N.eq_dec (f k) (g k)) as [E|E].
    + left. intros i L. destruct (Nat.eq_dec i k) as [->|]; [exact E|apply A; lia].
    + right. exists k. split; [lia|]. auto.
  - right. exists i. split; [lia|]. auto.
Qed.
Lemma series_begins : forall x r, x <> [] -> (SpecParseSpec.compatible (sv_plain (x ++ [0%N])) (sv_plain r) <-> begins x r).
Proof.
  intros x r X. destruct (snoc_of x X) as (p & y & ->).
  assert (L : length (p ++ [y]) = S (length p)) by (rewrite app_length; cbn; lia).
  assert (NX : forall i, i < S (length p) -> nth i ((p ++ [y]) ++ [0%N]) 0%N = nth i (p ++ [y]) 0%N) by (intros i H; apply app_nth1; lia).
  assert (NH : forall i, i < length p -> nth i (p ++ [(y + 1)%N; 0%N]) 0%N = nth i (p ++ [y]) 0%N) by (intros i H; rewrite !app_nth1 by lia; reflexivity).
  assert (NY : nth (length p) (p ++ [y]) 0%N = y) by (rewrite app_nth2, Nat.sub_diag by lia; reflexivity).
  assert (NY1 : nth (length p) (p ++ [(y + 1)%N; 0%N]) 0%N = (y + 1)%N) by (rewrite app_nth2, Nat.sub_diag by lia; reflexivity).
  assert (NZ : forall i, length p < i -> nth i (p ++ [(y + 1)%N; 0%N]) 0%N = 0%N).
  { intros i H. rewrite app_nth2 by lia. destruct (i - length p) as [|[|[|k]]] eqn:E; [lia|reflexivity|reflexivity|reflexivity]. }
  assert (NZ2 : forall i, length p < i -> nth i ((p ++ [y]) ++ [0%N]) 0%N = 0%N).
  { intros i H. rewrite app_nth2 by lia. rewrite L. destruct (i - S (length p)) as [|[|k]]; reflexivity. }
  unfold SpecParseSpec.compatible. split.
  - intros (p' & x' & y' & R & A & B). assert (p' = p /\ x' = y /\ y' = 0%N) as (-> & -> & ->).
    { cbn in R. change [x'; y'] with ([x'] ++ [y']) in R. rewrite !app_assoc in R. apply app_inj_tail in R. destruct R as [R ->].
      apply app_inj_tail in R. destruct R as [-> ->]. auto. }
    change (epoch (sv_plain ((p ++ [y]) ++ [0%N]))) with (@None N) in B. fold (sv_plain (p ++ [(y + 1)%N; 0%N])) in B.
    apply plain_lt in B. destruct B as (k & B & C). unfold rel_at in *. cbn [release sv_plain] in *.
    destruct (first_difference (S (length p)) (fun i => nth i r 0%N) (fun i => nth i (p ++ [y]) 0%N)) as [E|(i & Li & D & E)].
    + intros i n H. rewrite E; [apply nth_error_nth; exact H|]. rewrite <- L. apply nth_error_Some. congruence.
    + exfalso. destruct (N.lt_ge_cases (nth i r 0%N) (nth i (p ++ [y]) 0%N)) as [G|G].
      * assert (S1 : sv_ltb (sv_plain r) (sv_plain ((p ++ [y]) ++ [0%N])) = true).
        { apply plain_lt. exists i. unfold rel_at. cbn [release sv_plain]. split; [rewrite NX by lia; exact G|]. intros j Hj. rewrite NX by lia. apply E, Hj. }
        destruct A as [A|A].
        -- pose proof (C01_transitive (VStd _) (VStd _) (VStd _) S1 A) as T. rewrite C01_irreflexive in T. discriminate.
        -- apply plain_lt in S1. destruct S1 as (j & S1 & _). unfold rel_at in S1. cbn [release sv_plain] in S1. rewrite (proj1 (same_plain _ _) A j) in S1. lia.
      * assert (G2 : (nth i (p ++ [y]) 0 < nth i r 0)%N) by lia. destruct (Nat.lt_trichotomy k i) as [K|[K|K]].
        -- pose proof (E k K) as E1. rewrite E1 in B. rewrite NH in B by lia. lia.
        -- subst k. destruct (Nat.eq_dec i (length p)) as [Ei|Ei].
           ++ rewrite Ei in *. rewrite NY1 in B. rewrite NY in G2. lia.
           ++ rewrite NH in B by lia. lia.
        -- pose proof (C i K) as C1. destruct (Nat.eq_dec i (length p)) as [Ei|Ei].
           ++ rewrite Ei in *. rewrite NZ in B by lia. lia.
           ++ rewrite NH in C1 by lia. lia.
  - intro B. assert (BN : forall i, i < S (length p) -> nth i r 0%N = nth i (p ++ [y]) 0%N).
    { intros i Hi. apply B. apply nth_error_nth'. lia. }
    exists p, y, 0%N. split; [cbn; rewrite <- app_assoc; reflexivity|]. split.
    + unfold at_least. rewrite same_plain, plain_lt.
      destruct (first_difference (S (length r) + S (S (length p))) (fun i => nth i r 0%N) (fun i => nth i ((p ++ [y]) ++ [0%N]) 0%N)) as [E|(i & Li & D & E)].
      * right. intro i. destruct (Nat.lt_ge_cases i (S (length r) + S (S (length p)))) as [H|H]; [symmetry; apply E, H|].
        rewrite !nth_overflow; [reflexivity|lia|rewrite app_length, L; cbn; lia].
      * left. exists i. unfold rel_at. cbn [release sv_plain]. split; [|intros j Hj; symmetry; apply E, Hj].
        destruct (Nat.lt_ge_cases i (S (length p))) as [H|H]; [exfalso; apply D; rewrite NX by lia; apply BN, H|]. rewrite NZ2 in * by lia. lia.
    + change (epoch (sv_plain ((p ++ [y]) ++ [0%N]))) with (@None N). fold (sv_plain (p ++ [(y + 1)%N; 0%N])). apply plain_lt.
      exists (length p). unfold rel_at. cbn [release sv_plain]. split; [rewrite BN, NY, NY1 by lia; lia|]. intros j Hj. rewrite BN, NH by lia. reflexivity.
Qed.

(** the text of release numbers *)
Definition dotted (x : list N) : str := join (lit ".") (map show_N x).
Lemma sv_str_plain : forall x, sv_str (sv_plain x) = dotted x.
Proof. intro x. unfold sv_str, dotted. cbn [sv_plain epoch release pre_release post_release dev_release local_label app]. rewrite app_nil_r. reflexivity. Qed.
Lemma join_snoc : forall sep (l : list str) x, l <> [] -> join sep (l ++ [x]) = join sep l ++ sep ++ x.
Proof.
  intros sep l x. induction l as [|a l IH]; [intros []; reflexivity|]. intros _. destruct l as [|b l]; [reflexivity|].
  change ((a :: b :: l) ++ [x]) with (a :: (b :: l) ++ [x]). cbn [join]. destruct ((b :: l) ++ [x]) as [|c k] eqn:E; [discriminate|].
  rewrite IH by discriminate. rewrite <- !app_assoc. reflexivity.
Qed.
Lemma dotted_zero : forall x, x <> [] -> dotted (x ++ [0%N]) = dotted x ++ lit ".0".
Proof. intros x X. unfold dotted. rewrite map_app. cbn [map]. rewrite join_snoc; [reflexivity|]. destruct x; [contradiction|discriminate]. Qed.
Lemma dotted_head : forall x, x <> [] -> exists d l, dotted x = d :: l /\ is_digit d = true.
Proof.
  intros x X. destruct (sv_str_head (sv_plain x) []) as (d & l & E & D); [split; [exact X|discriminate]|].
  exists d, l. rewrite app_nil_r, sv_str_plain in E. auto.
Qed.
Lemma parse_star : forall u x, x <> [] -> exists s, parse_conda_spec u (dotted x ++ lit ".*") = Ok s /\
  forall v, candidate v -> (allows s (VStd v) = true <-> SpecParseSpec.compatible (sv_plain (x ++ [0%N])) v).
Proof.
  intros u x X. assert (W : wf_sv (sv_plain (x ++ [0%N]))) by (split; [cbn; destruct x; discriminate|discriminate]).
  destruct (C13_clauses_partial u [(Compat, sv_plain (x ++ [0%N]))]) as (s & E & V).
  - discriminate.
  - constructor; [|constructor]. split; [exact W|]. split; [apply plain_vs; destruct x; discriminate|]. split; [|discriminate].
    intros _. cbn. rewrite app_length. destruct x; [contradiction|cbn; lia].
  - left. constructor; [discriminate|constructor].
  - exists s. split.
    + destruct (dotted_head x X) as (d & l & D1 & D2). unfold parse_conda_spec. rewrite D1. cbn [app].
      assert (H0 : existsb (Ascii.eqb d) (lit "><=!~") = false).
      { destruct (existsb _ _) eqn:Q; [|reflexivity]. apply existsb_exists in Q. destruct Q as (c & I & Q). apply Ascii.eqb_eq in Q. subst c. cbn in I.
        repeat (destruct I as [I|I]; [subst d; vm_compute in D2; discriminate|]). destruct I. }
      rewrite H0. assert (H1 : str_eqb (d :: l ++ lit ".*") "*" = false).
      { destruct (str_eqb _ _) eqn:Q; [|reflexivity]. apply str_eqb_eq in Q. apply (f_equal (hd d)) in Q. cbn in Q. subst d. vm_compute in D2. discriminate. }
      rewrite H1. change (d :: l ++ lit ".*") with ((d :: l) ++ lit ".*"). rewrite <- D1.
      assert (H2 : ends_with (lit ".*") (dotted x ++ lit ".*") = true) by (apply ends_with_iff; exists (dotted x); reflexivity).
      rewrite H2. rewrite app_length. change (length (lit ".*")) with 2. rewrite Nat.add_sub.
      rewrite firstn_app, Nat.sub_diag, firstn_all. cbn [firstn]. rewrite app_nil_r.
      unfold clauses_text, clause_text in E. cbn [map join fst snd cop_text starred] in E. rewrite app_nil_r, sv_str_plain, dotted_zero in E by exact X. exact E.
    + intros v C. rewrite (V v C). split; [intro F; inversion F; assumption|]. intro F. constructor; [exact F|constructor].
Qed.

Lemma all_ok_length : forall {A B} (f : A -> res B) l out, all_ok f l = Ok out -> length out = length l.
Proof.
  induction l as [|x l IH]; intros out H; cbn in H; [injection H as <-; reflexivity|]. unfold bind in H.
  destruct (f x); [|discriminate]. destruct (all_ok f l) as [k|]; [|discriminate]. injection H as <-. cbn. rewrite (IH _ eq_refl). reflexivity.
Qed.
Lemma all_ok_forall2 : forall {A B} (f : A -> res B) l out, all_ok f l = Ok out <-> Forall2 (fun x y => f x = Ok y) l out.
Proof.
  induction l as [|x l IH]; intro out; cbn.
  - split; [intro H; injection H as <-; constructor|intro H; inversion H; reflexivity].
  - unfold bind. split.
    + intro H. destruct (f x) as [y|] eqn:F; [|discriminate]. destruct (all_ok f l) as [k|]; [|discriminate]. injection H as <-. constructor; [exact F|apply IH; reflexivity].
    + intro H. inversion H as [|? y ? k F G]; subst. rewrite F. apply IH in G. rewrite G. reflexivity.
Qed.
Lemma all_ok_in : forall {A B} (f : A -> res B) l out, all_ok f l = Ok out -> forall y, In y out <-> exists x, In x l /\ f x = Ok y.
Proof.
  intros A B f l out H y. apply all_ok_forall2 in H. induction H as [|x z l out F G IH]; cbn; [firstorder|]. rewrite IH. split.
  - intros [<-|(w & I & E)]; [exists x; auto|exists w; auto].
  - intros (w & [<-|I] & E); [left; congruence|right; exists w; auto].
Qed.
Lemma union_allows : forall l u v, mk_union l = Ok u -> (allows u v = true <-> exists s, In s l /\ allows s v = true).
Proof.
  intros l u v H. unfold mk_union in H. destruct (length l <=? 1); [discriminate|]. destruct (existsb _ l); [discriminate|]. injection H as <-.
  cbn [allows]. rewrite existsb_exists. split; intros (s & I & A); exists s; (split; [|exact A]);
    [apply (Permutation_in _ (sort_by_perm _ spec_lt l)), I|apply (Permutation_in _ (Permutation_sym (sort_by_perm _ spec_lt l))), I].
Qed.
Lemma split_pipe : forall options, options <> [] -> (forall o, In o options -> ~ In "|"%char o) -> split_on "|" (join (lit "|") options) = options.
Proof. intros options N H. exact (split_join "|"%char options N H). Qed.

(** ** builds *)
(** the text [s] is built like the pattern [p], in which a star stands for anything *)
Inductive pattern : str -> str -> Prop :=
| PEnd : pattern [] []
| PStar : forall p a s, pattern p s -> pattern ("*"%char :: p) (a ++ s)
| PChar : forall c p s, c <> "*"%char -> pattern p s -> pattern (c :: p) (c :: s).
Lemma build_match_star : forall p s, build_match ("*"%char :: p) s = true <-> exists a b, s = a ++ b /\ build_match p b = true.
Proof.
  intros p s. induction s as [|c s IH].
  - cbn. rewrite orb_false_r. split.
    + intro H. exists [], []. auto.
    + intros (a & b & E & H). symmetry in E. apply app_eq_nil in E. destruct E as [-> ->]. exact H.
  - change (build_match ("*"%char :: p) (c :: s)) with (build_match p (c :: s) || build_match ("*"%char :: p) s).
    rewrite orb_true_iff, IH. split.
    + intros [H|(a & b & -> & H)]; [exists [], (c :: s); auto|exists (c :: a), b; auto].
    + intros ([|d a] & b & E & H); [left; cbn in E; subst b; exact H|right]. injection E as <- ->. exists a, b. auto.
Qed.
Lemma build_match_pattern : forall p s, build_match p s = true <-> exists a b, s = a ++ b /\ pattern p a.
Proof.
  induction p as [|c p IH]; intro s.
  - cbn. split; [intros _; exists [], s; split; [reflexivity|constructor]|reflexivity].
  - destruct (Ascii.eqb_spec c "*"%char) as [->|C].
    + rewrite build_match_star. split.
      * intros (a & b & -> & H). apply IH in H. destruct H as (x & y & -> & P). exists (a ++ x), y. rewrite app_assoc. split; [reflexivity|constructor; exact P].
      * intros (x & y & -> & P). inversion P as [|? a s' P'|? ? ? N]; subst; [|congruence]. exists a, (s' ++ y). rewrite app_assoc. split; [reflexivity|].
        apply IH. exists s', y. auto.
    + cbn [build_match]. assert (E : Ascii.eqb c "*" = false) by (apply Ascii.eqb_neq; exact C). rewrite E. destruct s as [|d s].
      * split; [discriminate|]. intros (a & b & X & P). symmetry in X. apply app_eq_nil in X. destruct X as [-> _]. inversion P; subst; congruence.
      * rewrite andb_true_iff, IH. split.
        -- intros [X (a & b & -> & P)]. apply Ascii.eqb_eq in X. subst d. exists (c :: a), b. split; [reflexivity|constructor; assumption].
        -- intros (a & b & X & P). inversion P as [|? ? ? P' |? ? a' N P']; subst; [congruence|]. injection X as -> ->.
           split; [apply Ascii.eqb_refl|]. exists a', b. auto.
Qed.

(** ** the best artifact *)
Lemma good_score : forall m tag s, compatibility_score m tag = Some s -> good s.
Proof.
  intros m tag s H. unfold compatibility_score in H. destruct (split_on "-" tag) as [|x [|y [|z [|]]]]; try discriminate.
  destruct (best m (expand x y z) None) as [r|] eqn:B; [|discriminate]. subst r. destruct (best_ok m _ None (Some s) Logic.I B) as [G _]. exact G.
Qed.
Lemma list_eqb_refl_frac : forall a, list_eqb frac_eqb a a = true.
Proof. induction a as [|x a IH]; [reflexivity|]. cbn. unfold frac_eqb. rewrite N.eqb_refl. exact IH. Qed.
Lemma eq_lt_left : forall a b c, good a -> good b -> good c -> list_eqb frac_eqb a b = true -> score_ltb a c = score_ltb b c.
Proof.
  induction a as [|x a IH]; intros b c GA GB GC H; destruct b as [|y b]; try discriminate; [reflexivity|]. cbn in H. apply andb_true_iff in H. destruct H as [H1 H2].
  destruct c as [|z c]; [reflexivity|]. cbn [score_ltb]. inversion GA as [|? ? XA GA2]. inversion GB as [|? ? XB GB2]. inversion GC as [|? ? XC GC2]. subst.
  rewrite (IH b c) by assumption. unfold frac_eqb, frac_ltb in *. apply N.eqb_eq in H1.
  assert (E : (fst x * snd z =? fst z * snd x)%N = (fst y * snd z =? fst z * snd y)%N).
  { apply eq_iff_eq_true. rewrite !N.eqb_eq. split; nia. }
  assert (L : (fst x * snd z <? fst z * snd x)%N = (fst y * snd z <? fst z * snd y)%N).
  { apply eq_iff_eq_true. rewrite !N.ltb_lt. split; nia. }
  rewrite E, L. reflexivity.
Qed.
Lemma eq_sym_frac : forall a b, list_eqb frac_eqb a b = list_eqb frac_eqb b a.
Proof. induction a as [|x a IH]; intros [|y b]; try reflexivity. cbn. rewrite IH. unfold frac_eqb. rewrite (N.eqb_sym (fst x * snd y)). reflexivity. Qed.
Lemma score_total : forall a b, score_ltb a b = false -> score_ltb b a = false -> list_eqb frac_eqb a b = true.
Proof.
  induction a as [|x a IH]; intros [|y b] H1 H2; try discriminate; [reflexivity|]. cbn [score_ltb list_eqb] in *.
  assert (E : frac_eqb y x = frac_eqb x y) by (unfold frac_eqb; apply N.eqb_sym). rewrite E in H2. destruct (frac_eqb x y) eqn:Q.
  - cbn. apply IH; assumption.
  - exfalso. unfold frac_eqb, frac_ltb in *. apply N.eqb_neq in Q. apply N.ltb_ge in H1. apply N.ltb_ge in H2. lia.
Qed.
Lemma eq_trans_frac : forall a b c, good a -> good b -> good c -> list_eqb frac_eqb a b = true -> list_eqb frac_eqb b c = true -> list_eqb frac_eqb a c = true.
Proof.
  intros a b c GA GB GC H1 H2. apply score_total.
  - rewrite (eq_lt_left a b c) by assumption. rewrite (eq_lt_left b c c) by assumption. apply score_ltb_irrefl.
  - rewrite eq_sym_frac in H1, H2. rewrite (eq_lt_left c b a) by assumption. rewrite (eq_lt_left b a a) by assumption. apply score_ltb_irrefl.
Qed.
Lemma pair_neg_trans : forall x y z, good (fst x) -> good (fst y) -> good (fst z) -> pair_lt x y = false -> pair_lt y z = false -> pair_lt x z = false.
Proof.
  intros [a n] [b k] [c q] GA GB GC H1 H2. unfold pair_lt in *. cbn [fst snd] in *. rewrite orb_false_iff in *. destruct H1 as [A1 B1]. destruct H2 as [A2 B2].
  pose proof (score_ltb_neg_trans a b c GA GB GC A1 A2) as L. split; [exact L|]. destruct (list_eqb frac_eqb a c) eqn:E; [|reflexivity]. cbn.
  assert (BA : score_ltb b a = false). { destruct (score_ltb b a) eqn:X; [|reflexivity]. rewrite eq_sym_frac in E.
    assert (Y : score_ltb b c = true). { destruct (score_ltb b c) eqn:Z; [reflexivity|]. exfalso.
      assert (Q : score_ltb b a = false). { apply (score_ltb_neg_trans b c a); try assumption. rewrite (eq_lt_left c a a) by assumption. apply score_ltb_irrefl. } congruence. }
    congruence. }
  pose proof (score_total a b A1 BA) as Eab. rewrite Eab in B1. cbn in B1.
  assert (Ebc : list_eqb frac_eqb b c = true). { rewrite eq_sym_frac in Eab. apply (eq_trans_frac b a c); assumption. }
  rewrite Ebc in B2. cbn in B2. apply N.ltb_ge in B1. apply N.ltb_ge in B2. apply N.ltb_ge. lia.
Qed.
Lemma pair_lt_irrefl : forall x, pair_lt x x = false.
Proof. intro x. unfold pair_lt. rewrite score_ltb_irrefl, N.ltb_irrefl, andb_false_r. reflexivity. Qed.
Lemma pair_lt_asym : forall x y, good (fst x) -> good (fst y) -> pair_lt x y = true -> pair_lt y x = false.
Proof.
  intros x y GX GY H. destruct (pair_lt y x) eqn:E; [|reflexivity]. exfalso. unfold pair_lt in *. apply orb_true_iff in H. apply orb_true_iff in E.
  destruct H as [H|H], E as [E|E]; rewrite ?andb_true_iff in *.
  - rewrite (score_ltb_asym _ _ GX GY H) in E. discriminate.
  - destruct E as [E _]. rewrite (eq_lt_left (fst y) (fst x) (fst y)) in H || rewrite eq_sym_frac in E. rewrite (eq_lt_left _ _ (fst y) GX GY GY E) in H. rewrite score_ltb_irrefl in H. discriminate.
  - destruct H as [H _]. rewrite eq_sym_frac in H. rewrite (eq_lt_left _ _ (fst x) GY GX GX H) in E. rewrite score_ltb_irrefl in E. discriminate.
  - destruct H as [_ H], E as [_ E]. apply N.ltb_lt in H. apply N.ltb_lt in E. lia.
Qed.
Lemma max_from_best : forall l b, good (fst (snd b)) -> Forall (fun x => good (fst (snd x))) l ->
  In (max_from b l) (b :: l) /\ forall x, In x (b :: l) -> pair_lt (snd (max_from b l)) (snd x) = false.
Proof.
  induction l as [|y l IH]; intros b GB GL; cbn [max_from].
  - split; [left; reflexivity|]. intros x [<-|[]]. apply pair_lt_irrefl.
  - inversion GL as [|? ? GY GL2]; subst. destruct (pair_lt (snd b) (snd y)) eqn:E.
    + destruct (IH y GY GL2) as [I M]. split; [right; exact I|]. assert (GM : good (fst (snd (max_from y l)))).
      { destruct I as [<-|I]; [exact GY|]. rewrite Forall_forall in GL2. apply GL2, I. }
      intros x [<-|X]; [|apply M, X]. apply (pair_neg_trans _ (snd y)); try assumption; [apply M; left; reflexivity|apply pair_lt_asym; assumption].
    + destruct (IH b GB GL2) as [I M]. split; [destruct I as [I|I]; [left; exact I|right; right; exact I]|]. assert (GM : good (fst (snd (max_from b l)))).
      { destruct I as [<-|I]; [exact GB|]. rewrite Forall_forall in GL2. apply GL2, I. }
      intros x [<-|[<-|X]]; [apply M; left; reflexivity| |apply M; right; exact X].
      apply (pair_neg_trans _ (snd b)); try assumption. apply M. left. reflexivity.
Qed.

(** an artifact that may be chosen, with the score of its tag *)
Definition usable (u : str -> str) (m : machine) (channel subdir : str) (r : repodata) (a : artifact) (s : score) : Prop :=
  exists tag ds, compatibility_tag u channel subdir r a = Ok tag /\ compatibility_score m tag = Some s /\
    dependencies u channel subdir r a = Ok ds /\ forall d, In d ds -> snd d <> RestrictAll.
Lemma not_restrict : forall (ds : list (str * spec)), forallb (fun d => negb (is_restrict (snd d))) ds = true <-> forall d, In d ds -> snd d <> RestrictAll.
Proof.
  intro ds. rewrite forallb_forall. split; intros H d I; specialize (H d I).
  - intro E. rewrite E in H. discriminate.
  - destruct (snd d); try reflexivity. contradiction.
Qed.
Lemma scored_in : forall u m ch sd r l out, scored u m ch sd r l = Ok out ->
  forall a s n, In (a, (s, n)) out <-> In a l /\ n = i_number (snd a) /\ usable u m ch sd r a s.
Proof.
  induction l as [|b l IH]; intros out H a s n; cbn [scored] in H.
  - injection H as <-. cbn. tauto.
  - unfold bind in H. destruct (compatibility_tag u ch sd r b) as [tag|] eqn:T; [|discriminate]. destruct (compatibility_score m tag) as [t|] eqn:S.
    + destruct (dependencies u ch sd r b) as [ds|] eqn:D; [|discriminate]. destruct (scored u m ch sd r l) as [rest|]; [|discriminate]. injection H as <-.
      specialize (IH _ eq_refl a s n). destruct (forallb _ ds) eqn:F.
      * cbn [In]. rewrite IH. split.
        -- intros [E|(A & B & C)]; [|auto]. injection E as <- <- <-. split; [left; reflexivity|]. split; [reflexivity|]. exists tag, ds. pose proof (proj1 (not_restrict ds) F). auto.
        -- intros ([<-|A] & B & C); [|auto]. left. destruct C as (tag' & ds' & C1 & C2 & _). assert (tag' = tag) by congruence. subst tag'. rewrite B. congruence.
      * rewrite IH. split; [cbn; tauto|]. intros ([<-|A] & B & C); [|auto]. exfalso. destruct C as (tag' & ds' & _ & _ & C1 & C2).
        assert (ds' = ds) by congruence. subst ds'. rewrite (proj2 (not_restrict ds) C2) in F. discriminate.
    + rewrite (IH _ H). split; [cbn; tauto|]. intros ([<-|A] & B & C); [|auto]. exfalso. destruct C as (tag' & ds' & C1 & C2 & _). assert (tag' = tag) by congruence. subst tag'. congruence.
Qed.
Lemma scored_good : forall u m ch sd r l out, scored u m ch sd r l = Ok out -> Forall (fun x => good (fst (snd x))) out.
Proof.
  intros u m ch sd r l out H. rewrite Forall_forall. intros [a [s n]] I. apply (scored_in _ _ _ _ _ _ _ H) in I. destruct I as (_ & _ & tag & ds & _ & S & _).
  exact (good_score m tag s S).
Qed.
Lemma best_spec : forall u m ch sd r p a, best_artifact_for u m ch sd r p = Ok (Some a) ->
  exists s, In a (cp_artifacts p) /\ usable u m ch sd r a s /\
    forall b t, In b (cp_artifacts p) -> usable u m ch sd r b t -> score_ltb s t = false /\ (score_ltb t s = false -> (i_number (snd b) <= i_number (snd a))%N).
Proof.
  intros u m ch sd r p a H. unfold best_artifact_for, bind in H. destruct (scored u m ch sd r (cp_artifacts p)) as [l|] eqn:S; [|discriminate]. injection H as H.
  destruct l as [|x l]; [discriminate|]. injection H as H. pose proof (scored_good _ _ _ _ _ _ _ S) as G. inversion G as [|? ? GX GL]; subst.
  destruct (max_from_best l x GX GL) as [I M]. destruct (max_from x l) as [a [s n]] eqn:E. cbn [fst snd] in *.
  pose proof (proj1 (scored_in _ _ _ _ _ _ _ S a s n) I) as (A & -> & U). exists s. split; [exact A|]. split; [exact U|].
  intros b t IB UB. assert (IB2 : In (b, (t, i_number (snd b))) (x :: l)) by (apply (scored_in _ _ _ _ _ _ _ S); auto).
  specialize (M _ IB2). unfold pair_lt in M. cbn [fst snd] in M. apply orb_false_iff in M. destruct M as [M1 M2]. split; [exact M1|].
  intro M3. rewrite (score_total s t M1 M3) in M2. cbn in M2. apply N.ltb_ge in M2. exact M2.
Qed.
Lemma best_none : forall u m ch sd r p, best_artifact_for u m ch sd r p = Ok None -> forall b t, In b (cp_artifacts p) -> ~ usable u m ch sd r b t.
Proof.
  intros u m ch sd r p H b t I U. unfold best_artifact_for, bind in H. destruct (scored u m ch sd r (cp_artifacts p)) as [l|] eqn:S; [|discriminate]. injection H as H.
  destruct l as [|x l]; [|discriminate]. apply (scored_in _ _ _ _ _ _ _ S b t (i_number (snd b))). auto.
Qed.

(** ** python *)
Lemma tag_sound : forall m py os s, compatibility_score m (py ++ lit "-none-" ++ os) = Some s -> ~ In "-"%char py -> ~ In "-"%char os -> ~ In "."%char os ->
  exists i, In i (split_on "." py) /\ interpreter_ok m i /\ platform_ok m os.
Proof.
  intros m py os s H P O D. destruct (TagsProofs.sound m _ s H) as [(i & a & p & ST & C & _) _]. apply stands_iff in ST. destruct ST as (x & y & z & E & I).
  change (py ++ lit "-none-" ++ os) with (py ++ "-"%char :: (lit "none" ++ "-"%char :: os)) in E.
  rewrite split_on_app, split_on_app, split_on_single in E; [|exact O|intro X; vm_compute in X; intuition discriminate|exact P].
  injection E as <- <- <-. apply in_expand in I. destruct I as (I1 & _ & I3). rewrite split_on_single in I3 by exact D. destruct I3 as [<-|[]].
  exists i. split; [exact I1|]. destruct C as (C1 & _ & C3). auto.
Qed.
Lemma digits_no : forall c n, is_digit c = false -> ~ In c (show_N n).
Proof. intros c n H I. pose proof (show_N_digits n) as D. rewrite forallb_forall in D. rewrite (D c I) in H. discriminate. Qed.
Lemma ctag_clean : forall sd os, dict_get sd subdir_to_os_ctag = Some os -> ~ In "-"%char os /\ ~ In "."%char os.
Proof.
  intros sd os H. cbn [dict_get subdir_to_os_ctag] in H.
  repeat (destruct (str_eqb sd _) in H; [injection H as <-; split; intro X; vm_compute in X; intuition discriminate|]). discriminate.
Qed.
Lemma small_digit : forall x, (x < 10)%N -> exists d, show_N x = [d] /\ is_digit d = true.
Proof.
  intros x H. destruct x as [|p]; [exists "0"%char; auto|].
  do 4 (destruct p as [p|p|]; try (exfalso; lia); try (eexists; split; [vm_compute; reflexivity|reflexivity])).
Qed.
Lemma version_text_two : forall n x y v, (x < 10)%N -> version_text n (show_N x ++ show_N y) v -> v = (x, y).
Proof.
  intros n x y v X H. destruct (small_digit x X) as (d & E & D). set (m := Machine [] (0, n)%N false false false None Linux [] false None None (0, 0)%N []).
  apply (ipt_version_text m) in H. rewrite E in H. cbn [app] in H. unfold ipt_version in H. destruct (show_N y) as [|e l] eqn:Y; [destruct (show_N_nonempty y Y)|].
  assert (N : existsb (Ascii.eqb "_") (d :: e :: l) = false).
  { destruct (existsb _ _) eqn:Q; [|reflexivity]. apply existsb_exists in Q. destruct Q as (c & I & Q). apply Ascii.eqb_eq in Q. subst c. exfalso.
    destruct I as [->|I]; [discriminate D|]. rewrite <- Y in I. exact (digits_no "_"%char y eq_refl I). }
  rewrite N in H. unfold bind in H. assert (A : int_of [d] = Ok x). { apply int_of_ok. rewrite <- E. split; [apply show_N_all_digits|symmetry; apply read_show_N]. }
  assert (B : int_of (e :: l) = Ok y). { apply int_of_ok. rewrite <- Y. split; [apply show_N_all_digits|symmetry; apply read_show_N]. }
  rewrite A, B in H. congruence.
Qed.
Lemma version_text_one : forall n x v, (x < 10)%N -> version_text n (show_N x) v -> v = (x, n).
Proof.
  intros n x v X H. destruct (small_digit x X) as (d & E & D). set (m := Machine [] (0, n)%N false false false None Linux [] false None None (0, 0)%N []).
  apply (ipt_version_text m) in H. rewrite E in H. unfold ipt_version, bind in H.
  assert (A : int_of [d] = Ok x). { apply int_of_ok. rewrite <- E. split; [apply show_N_all_digits|symmetry; apply read_show_N]. }
  rewrite A in H. cbn in H. congruence.
Qed.
Lemma py_interpreter : forall m t, forallb is_lower (m_ipt m) = true -> t <> [] -> forallb is_digit t = true -> interpreter_ok m (lit "py" ++ t) ->
  exists v, version_text (snd (m_version m)) t v /\ fst v = fst (m_version m) /\ (snd v <= snd (m_version m))%N.
Proof.
  intros m t L N D (name & t' & v & NM & E & V & F & G). exists v. split; [|auto]. destruct NM as [->| ->].
  - apply app_inv_head in E. subst t'. exact V.
  - assert (t' = t); [|subst; exact V]. apply (prefix_agree (m_ipt m)); [exact L|exact (version_text_chars _ _ _ V)| |symmetry; exact E].
    apply version_chars_iff. split; [exact N|]. rewrite Forall_forall. rewrite forallb_forall in D. auto.
Qed.
Lemma python_lower : forall u m ch sd r a s v mx i j, forallb is_lower (m_ipt m) = true -> usable u m ch sd r a s ->
  required_python u ch sd r a = Ok (Range (Some v) mx i j) ->
  exists os rel, dict_get sd subdir_to_os_ctag = Some os /\ platform_ok m os /\ (if i then Ok (release v) else bump_last (release v)) = Ok rel /\
    match rel with
    | [] => True
    | [x] => (x < 10)%N -> x = fst (m_version m)
    | x :: y :: _ => (x < 10)%N -> x = fst (m_version m) /\ (y <= snd (m_version m))%N
    end.
Proof.
  intros u m ch sd r a s v mx i j L (tag & ds & T & S & _) R. unfold compatibility_tag in T. rewrite R in T. cbn [bind] in T.
  unfold python_tag, bind in T. destruct (if i then Ok (release v) else bump_last (release v)) as [rel|]; [|discriminate].
  destruct (dict_get sd subdir_to_os_ctag) as [os|] eqn:O; [|discriminate]. injection T as T. destruct (ctag_clean sd os O) as [O1 O2].
  exists os, rel. split; [reflexivity|]. set (d := concat (map show_N (firstn 2 rel))) in *.
  assert (DD : forallb is_digit d = true).
  { unfold d. destruct rel as [|x [|y rel]]; cbn [firstn map concat]; [reflexivity| |]; rewrite ?app_nil_r, ?forallb_app, ?show_N_digits; reflexivity. }
  assert (DN : forall c, is_digit c = false -> ~ In c (lit "py" ++ d) \/ c = "p"%char \/ c = "y"%char).
  { intros c C. destruct (Ascii.eqb_spec c "p"); [auto|]. destruct (Ascii.eqb_spec c "y"); [auto|]. left. intro I. cbn in I. destruct I as [I|[I|I]]; [congruence|congruence|].
    rewrite forallb_forall in DD. rewrite (DD c I) in C. discriminate. }
  change (match v with SV _ _ _ _ _ _ => (lit "py" ++ d) ++ lit "-none-" ++ os end) with ((lit "py" ++ d) ++ lit "-none-" ++ os) in T.
  rewrite <- T in S. destruct (tag_sound m (lit "py" ++ d) os s) as (w & I & IO & PO).
  - exact S.
  - destruct (DN "-"%char eq_refl) as [X|[X|X]]; [exact X|discriminate|discriminate].
  - exact O1.
  - exact O2.
  - split; [exact PO|]. split; [reflexivity|]. rewrite split_on_single in I by (destruct (DN "."%char eq_refl) as [X|[X|X]]; [exact X|discriminate|discriminate]).
    destruct I as [<-|[]]. destruct rel as [|x [|y rel]]; [exact Logic.I| |].
    + intro X. unfold d in *. cbn [firstn map concat] in *. rewrite app_nil_r in *. destruct (py_interpreter m (show_N x) L (show_N_nonempty x) DD IO) as (w & V & F & G).
      apply version_text_one in V; [|exact X]. subst w. exact F.
    + intro X. unfold d in *. cbn [firstn map concat] in *. rewrite app_nil_r in *.
      destruct (py_interpreter m (show_N x ++ show_N y) L) as (w & V & F & G); [destruct (show_N x) eqn:Q; [destruct (show_N_nonempty x Q)|discriminate]|exact DD|exact IO|].
      apply version_text_two in V; [|exact X]. subst w. auto.
Qed.

(** ** urls *)
Definition one_line (s : str) : Prop := ~ In "010"%char s.
Lemma upto_all : forall s, one_line s -> ParserModel.span (fun c => negb (Ascii.eqb c "010"%char)) s = (s, []).
Proof.
  induction s as [|c s IH]; intro H; [reflexivity|]. cbn. destruct (Ascii.eqb_spec c "010"%char) as [->|N]; [exfalso; apply H; left; reflexivity|]. cbn.
  rewrite IH; [reflexivity|]. intro I. apply H. right. exact I.
Qed.
Lemma conda_url : forall t p, lower t = t -> one_line t -> UrlModel.url_parse t = Ok p ->
  parse_url_version (lit "conda+" ++ t) = Ok (VUrl t (Some (lit "conda")) (UrlModel.u_scheme p)).
Proof.
  intros t p L O U. unfold parse_url_version, split_protocol. rewrite lower_app, L. change (lower (lit "conda+")) with (lit "conda" ++ lit "+").
  cbn [app lit list_ascii_of_string]. 
  change (ParserModel.span is_word ("c"%char :: "o"%char :: "n"%char :: "d"%char :: "a"%char :: "+"%char :: t)) with (lit "conda", "+"%char :: t).
  cbn [lit list_ascii_of_string]. rewrite (upto_all t O). cbn [fst]. unfold bind. rewrite U. reflexivity.
Qed.
Lemma url_found : forall (fetch : str -> str -> res repodata) channel pl name sd r a s v,
  fetch channel sd = Ok r -> dict_get (fst a) (r_packages r) = Some (snd a) ->
  lower (channel ++ lit "/" ++ sd ++ lit "/" ++ fst a) = channel ++ lit "/" ++ sd ++ lit "/" ++ fst a ->
  one_line (channel ++ lit "/" ++ sd ++ lit "/" ++ fst a) -> ~ In "/"%char sd -> ~ In "/"%char (fst a) ->
  artifact_match channel sd a = Ok s -> package_version (CPackage (i_name (snd a)) (i_version (snd a)) [a]) = Ok v ->
  conda_do_match fetch channel pl name s = Ok [(v, (sd, r, CPackage (i_name (snd a)) (i_version (snd a)) [a]))].
Proof.
  intros fetch channel pl name sd r a s v F D L O S1 S2 M V. unfold artifact_match in M.
  set (t := channel ++ lit "/" ++ sd ++ lit "/" ++ fst a) in *.
  destruct (UrlModel.url_parse t) as [p|] eqn:U.
  - rewrite (conda_url t p L O U) in M. cbn [bind] in M. injection M as <-. unfold conda_do_match, required_url. cbn [url_protocol].
    change (negb (str_eqb (lit "conda") (lit "conda"))) with false. cbn iota. rewrite L.
    assert (SW : starts_with (channel ++ lit "/") t = true). { unfold t. rewrite app_assoc. apply starts_with_app. }
    rewrite SW. unfold t. rewrite app_assoc. rewrite skip_prefix. change (sd ++ lit "/" ++ fst a) with (sd ++ "/"%char :: fst a).
    rewrite split_on_app, split_on_single by assumption. rewrite F. cbn [bind]. unfold single_artifact_package. rewrite D. destruct a as [an ai]. cbn [fst snd] in *. rewrite V. reflexivity.
  - exfalso. unfold parse_url_version, split_protocol in M. rewrite lower_app, L in M. change (lower (lit "conda+")) with (lit "conda" ++ lit "+") in M.
    cbn [app lit list_ascii_of_string] in M.
    change (ParserModel.span is_word ("c"%char :: "o"%char :: "n"%char :: "d"%char :: "a"%char :: "+"%char :: t)) with (lit "conda", "+"%char :: t) in M.
    cbn [lit list_ascii_of_string] in M. rewrite (upto_all t O) in M. cbn [fst] in M. unfold bind in M. rewrite U in M. discriminate.
Qed.
