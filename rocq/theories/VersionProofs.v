From Coq Require Import String Ascii List Bool NArith Arith Lia.
From Verif Require Import Base BaseFacts OrderFacts VersionModel VersionSpec.
Import ListNotations.
Open Scope nat_scope.
Open Scope list_scope.

(** ** Release comparison *)
Definition all_zero (r : list N) : bool := forallb (fun x => (x =? 0)%N) r.
Fixpoint rel_eqb (a b : list N) : bool :=
  match a, b with
  | [], _ => all_zero b
  | x :: a', [] => (x =? 0)%N && all_zero a'
  | x :: a', y :: b' => (x =? y)%N && rel_eqb a' b'
  end.
Fixpoint rel_ltb (a b : list N) : bool :=
  match a, b with
  | [], _ => negb (all_zero b)
  | _ :: _, [] => false
  | x :: a', y :: b' => if (x =? y)%N then rel_ltb a' b' else (x <? y)%N
  end.

Lemma rel_eqb_nil_r : forall a, rel_eqb a [] = all_zero a.
Proof. destruct a; reflexivity. Qed.

Lemma all_zero_nth : forall r, all_zero r = true <-> forall i, nth i r 0%N = 0%N.
Proof.
  induction r as [|x r IH]; simpl.
  - split; auto. intros _ [|i]; reflexivity.
  - rewrite andb_true_iff, N.eqb_eq, IH. split.
    + intros [H1 H2] [|i]; simpl; auto.
    + intro H. split; [exact (H 0)|intro i; exact (H (S i))].
Qed.

Lemma rel_eqb_nth : forall a b, rel_eqb a b = true <-> forall i, nth i a 0%N = nth i b 0%N.
Proof.
  induction a as [|x a IH]; intros b.
  - simpl. rewrite all_zero_nth. split; intros H i; rewrite ?H; destruct i; auto.
    + specialize (H 0). simpl in H. auto.
    + specialize (H (S i)). simpl in H. auto.
  - destruct b as [|y b]; simpl.
    + rewrite andb_true_iff, N.eqb_eq, all_zero_nth. split.
      * intros [H1 H2] [|i]; simpl; auto.
      * intro H. split; [exact (H 0)|]. intro i. specialize (H (S i)). simpl in H. destruct i; auto.
    + rewrite andb_true_iff, N.eqb_eq, IH. split.
      * intros [H1 H2] [|i]; simpl; auto.
      * intro H. split; [exact (H 0)|intro i; exact (H (S i))].
Qed.

Lemma rel_ltb_nth : forall a b, rel_ltb a b = true <->
  exists i, (nth i a 0 < nth i b 0)%N /\ forall j, j < i -> nth j a 0%N = nth j b 0%N.
Proof.
  induction a as [|x a IH]; intros b.
  - simpl. rewrite negb_true_iff. split.
    + intro H. induction b as [|y b IHb]; simpl in H; [discriminate|].
      destruct (y =? 0)%N eqn:E; simpl in H.
      * apply N.eqb_eq in E. subst. destruct (IHb H) as [i [Hi Hj]]. exists (S i). split.
        -- simpl. destruct i; simpl in *; auto.
        -- intros [|j] Hlt; simpl; auto. specialize (Hj j ltac:(lia)). destruct j; simpl in *; auto.
      * apply N.eqb_neq in E. exists 0. simpl. split; [lia|]. intros; lia.
    + intros [i [Hi _]]. destruct (all_zero b) eqn:E; auto.
      rewrite all_zero_nth in E. rewrite E in Hi. destruct i; simpl in Hi; lia.
  - destruct b as [|y b]; simpl.
    + split; [discriminate|]. intros [i [Hi _]]. destruct i; lia.
    + destruct (x =? y)%N eqn:E.
      * apply N.eqb_eq in E. subst y. rewrite IH. split.
        -- intros [i [Hi Hj]]. exists (S i). split; auto. intros [|j] Hlt; simpl; auto. apply Hj. lia.
        -- intros [[|i] [Hi Hj]]; [simpl in Hi; lia|]. exists i. split; auto. intros j Hlt. apply (Hj (S j)). lia.
      * apply N.eqb_neq in E. rewrite N.ltb_lt. split.
        -- intro H. exists 0. split; auto. intros; lia.
        -- intros [[|i] [Hi Hj]]; auto. exfalso. apply E. apply (Hj 0). lia.
Qed.

Lemma spo_rel : spo rel_eqb rel_ltb.
Proof.
  constructor.
  - intro x. apply rel_eqb_nth. auto.
  - intros x y. destruct (rel_eqb x y) eqn:E1; destruct (rel_eqb y x) eqn:E2; auto; exfalso.
    + assert (rel_eqb y x = true) by (apply rel_eqb_nth; intro i; symmetry; revert i; apply rel_eqb_nth; auto). congruence.
    + assert (rel_eqb x y = true) by (apply rel_eqb_nth; intro i; symmetry; revert i; apply rel_eqb_nth; auto). congruence.
  - intros x y z. rewrite !rel_eqb_nth. intros. congruence.
  - intros x y H. rewrite rel_eqb_nth in H. destruct (rel_ltb x y) eqn:E; auto.
    apply rel_ltb_nth in E as [i [Hi _]]. rewrite H in Hi. lia.
  - intros x y z. rewrite !rel_ltb_nth. intros [i [Hi Hi']] [j [Hj Hj']].
    destruct (lt_eq_lt_dec i j) as [[L|L]|L].
    + exists i. split; [rewrite <- (Hj' i L); auto|]. intros k Hk. rewrite Hi' by lia. apply Hj'. lia.
    + subst. exists j. split; [lia|]. intros k Hk. rewrite Hi' by lia. apply Hj'. lia.
    + exists j. split; [rewrite (Hi' j L); auto|]. intros k Hk. rewrite Hi' by lia. apply Hj'. lia.
  - intros x y z H. rewrite rel_eqb_nth in H. apply eq_true_iff_eq. rewrite !rel_ltb_nth.
    split; intros [i [Hi Hi']]; exists i; (split; [rewrite H in * || rewrite <- H in *; lia|]);
      intros j Hj; specialize (Hi' j Hj); congruence.
  - intros x y z H. rewrite rel_eqb_nth in H. apply eq_true_iff_eq. rewrite !rel_ltb_nth.
    split; intros [i [Hi Hi']]; exists i; (split; [rewrite H in * || rewrite <- H in *; lia|]);
      intros j Hj; specialize (Hi' j Hj); congruence.
Qed.

Lemma total_rel : total_spo rel_eqb rel_ltb.
Proof.
  intros a. induction a as [|x a IH]; intros b.
  - simpl. intros H _. apply negb_false_iff in H. exact H.
  - destruct b as [|y b]; simpl.
    + intros _ H. apply negb_false_iff in H. exact H.
    + rewrite (N.eqb_sym y x). destruct (x =? y)%N eqn:E; simpl.
      * apply IH.
      * intros H1 H2. apply N.ltb_ge in H1, H2. apply N.eqb_neq in E. lia.
Qed.

Lemma zip_less_pad : forall a b,
  let '(r1, r2) := normalized_releases a b in
  list_eqb N.eqb r1 r2 = rel_eqb a b /\
  zip_less r1 r2 = if rel_eqb a b then None else Some (rel_ltb a b).
Proof.
  unfold normalized_releases, pad.
  assert (Z : forall n b, n = length b -> 
     list_eqb N.eqb (repeat 0%N n) b = all_zero b
     /\ zip_less (repeat 0%N n) b = (if all_zero b then None else Some (negb (all_zero b)))).
  { intros n b ->. induction b as [|y b [IH1 IH2]]; [split; reflexivity|].
    unfold all_zero in *. cbn [length repeat list_eqb zip_less forallb].
    rewrite (N.eqb_sym 0 y). destruct (y =? 0)%N eqn:E; simpl; auto. apply N.eqb_neq in E.
    split; auto. f_equal. apply N.ltb_lt. lia. }
  assert (Z2 : forall a n, n = length a -> 
     list_eqb N.eqb a (repeat 0%N n) = all_zero a
     /\ zip_less a (repeat 0%N n) = (if all_zero a then None else Some false)).
  { intros a n ->. induction a as [|y b [IH1 IH2]]; simpl; auto.
    destruct (y =? 0)%N eqn:E; simpl; auto. split; auto. f_equal. apply N.ltb_ge. lia. }
  induction a as [|x a IH]; intros b.
  - simpl. rewrite Nat.sub_diag, Nat.sub_0_r, app_nil_r. apply Z. reflexivity.
  - destruct b as [|y b]; cbn [length app].
    + rewrite Nat.max_0_r. cbn [app]. rewrite Nat.sub_diag, Nat.sub_0_r. change (repeat 0%N 0) with (@nil N). rewrite app_nil_r.
      destruct (Z2 (x :: a) (S (length a)) eq_refl) as [H1 H2]. rewrite H1, H2. split; reflexivity.
    + specialize (IH b). simpl. destruct IH as [H1 H2].
      destruct (x =? y)%N eqn:E; simpl; auto.
Qed.

(** ** Local label comparison *)
Definition seg_ltb (m o : str) : bool :=
  if all_digits m && all_digits o then false
  else if all_digits m || all_digits o then all_digits o
  else str_ltb m o.

Lemma seg_ltb_irr : forall m, seg_ltb m m = false.
Proof. intro m. unfold seg_ltb. destruct (all_digits m); simpl; auto. apply str_ltb_irrefl. Qed.
Lemma seg_ltb_trans : forall a b c, seg_ltb a b = true -> seg_ltb b c = true -> seg_ltb a c = true.
Proof.
  intros a b c. unfold seg_ltb.
  destruct (all_digits a), (all_digits b), (all_digits c); simpl; auto; try discriminate.
  apply str_ltb_trans.
Qed.
Lemma spo_seg : spo str_eqb seg_ltb.
Proof. apply spo_leibniz; [apply str_eqb_eq|apply seg_ltb_irr|apply seg_ltb_trans]. Qed.

Fixpoint segs_ltb (a b : list str) : bool :=
  match a, b with
  | _, [] => false
  | [], _ :: _ => true
  | m :: a', o :: b' => if str_eqb m o then segs_ltb a' b' else seg_ltb m o
  end.
Lemma segs_ltb_trans : forall a b c, segs_ltb a b = true -> segs_ltb b c = true -> segs_ltb a c = true.
Proof.
  induction a as [|x a IH]; intros [|y b] [|z c]; simpl; intros H1 H2; try discriminate; auto.
  destruct (str_eqb x y) eqn:E1; destruct (str_eqb y z) eqn:E2.
  - apply str_eqb_eq in E1, E2. subst. rewrite str_eqb_refl. eauto.
  - apply str_eqb_eq in E1. subst. rewrite E2. exact H2.
  - apply str_eqb_eq in E2. subst. rewrite E1. exact H1.
  - pose proof (seg_ltb_trans _ _ _ H1 H2) as H3. destruct (str_eqb x z) eqn:E3; auto.
    apply str_eqb_eq in E3. subst. rewrite seg_ltb_irr in H3. discriminate.
Qed.
Lemma segs_ltb_irr : forall a, segs_ltb a a = false.
Proof. induction a; simpl; auto. rewrite str_eqb_refl. auto. Qed.
Lemma spo_segs : spo (list_eqb str_eqb) segs_ltb.
Proof. apply spo_leibniz; [apply list_eqb_eq, str_eqb_eq|apply segs_ltb_irr|apply segs_ltb_trans]. Qed.

Lemma local_less_segs : forall a b,
  match local_less a b with Some r => r | None => length a <? length b end = segs_ltb a b.
Proof.
  induction a as [|m a IH]; intros [|o b]; simpl; auto.
  destruct (str_eqb m o) eqn:E.
  - rewrite <- IH. destruct (local_less a b); auto.
  - unfold seg_ltb. destruct (all_digits m), (all_digits o); reflexivity.
Qed.

(** Incomparable segment lists. *)
Lemma segs_incomparable : forall a b, segs_ltb a b = false -> segs_ltb b a = false ->
  a = b \/ numeric_clash a b.
Proof.
  induction a as [|m a IH]; intros [|o b]; simpl; intros H1 H2; try discriminate; auto.
  rewrite (str_eqb_sym o m) in H2. destruct (str_eqb m o) eqn:E.
  - apply str_eqb_eq in E. subst o. destruct (IH b H1 H2) as [->|C]; auto.
    right. destruct C as (p & m' & o' & r1 & r2 & -> & -> & C). exists (m :: p), m', o', r1, r2. simpl. auto.
  - right. apply str_eqb_neq in E. unfold seg_ltb in *.
    destruct (all_digits m) eqn:D1; destruct (all_digits o) eqn:D2; simpl in *; try discriminate.
    + exists [], m, o, a, b. auto.
    + exfalso. apply E. apply str_ltb_total; auto.
Qed.
Lemma clash_incomparable : forall a b, numeric_clash a b -> segs_ltb a b = false /\ segs_ltb b a = false /\ a <> b.
Proof.
  intros a b (p & m & o & r1 & r2 & -> & -> & Hn & D1 & D2). induction p as [|x p IH]; simpl.
  - assert (E : str_eqb m o = false) by (apply str_eqb_neq; auto).
    rewrite E, (str_eqb_sym o m), E. unfold seg_ltb. rewrite D1, D2. simpl. repeat split. congruence.
  - rewrite str_eqb_refl. destruct IH as (H1 & H2 & H3). repeat split; auto. congruence.
Qed.
Lemma clash_sym : forall a b, numeric_clash a b -> numeric_clash b a.
Proof. intros a b (p & m & o & r1 & r2 & -> & -> & Hn & D1 & D2). exists p, o, m, r2, r1. auto. Qed.

(** ** Standard versions *)
Definition pre_ltb (a b : str * N) : bool := lex_ltb str_eqb str_ltb N.ltb a b.
Lemma spo_pre : spo pre_eqb pre_ltb.
Proof. exact (spo_lex _ _ _ _ _ _ spo_str spo_N). Qed.
Lemma total_pre : total_spo pre_eqb pre_ltb.
Proof. exact (total_lex _ _ _ _ _ _ spo_str total_str total_N). Qed.
Lemma pre_eqb_eq : forall a b, pre_eqb a b = true <-> a = b.
Proof.
  intros [a n] [b m]. unfold pre_eqb. simpl. rewrite andb_true_iff, str_eqb_eq, N.eqb_eq.
  split; [intros [-> ->]; reflexivity|intro H; injection H; auto].
Qed.

Definition pub_key (v : sv) := (ep v, (release v, (dev_release v, (pre_release v, post_release v)))).
Definition pub_eqb (a b : sv) : bool :=
  lex_eqb N.eqb (lex_eqb rel_eqb (lex_eqb (opt_eqb N.eqb) (lex_eqb (opt_eqb pre_eqb) (opt_eqb N.eqb))))
    (pub_key a) (pub_key b).
Definition pub_ltb (a b : sv) : bool :=
  lex_ltb N.eqb N.ltb (lex_ltb rel_eqb rel_ltb (lex_ltb (opt_eqb N.eqb) (none_last N.ltb)
     (lex_ltb (opt_eqb pre_eqb) (none_last pre_ltb) (none_first N.ltb))))
    (pub_key a) (pub_key b).

Lemma spo_pub : spo pub_eqb pub_ltb.
Proof.
  apply (spo_pull _ _ pub_key). repeat apply spo_lex.
  - apply spo_N.
  - apply spo_rel.
  - apply spo_none_last, spo_N.
  - apply spo_none_last, spo_pre.
  - apply spo_none_first, spo_N.
Qed.
Lemma total_pub : total_spo pub_eqb pub_ltb.
Proof.
  apply (total_pull _ _ pub_key). apply total_lex; [apply spo_N|apply total_N|].
  apply total_lex; [apply spo_rel|apply total_rel|].
  apply total_lex; [apply spo_none_last, spo_N|apply total_none_last, total_N|].
  apply total_lex; [apply spo_none_last, spo_pre|apply total_none_last, total_pre|].
  apply total_none_first, total_N.
Qed.

Lemma segs_local_segments : forall v, local_segments v = segs v.
Proof. intro v. unfold local_segments, segs. destruct (local_label v); reflexivity. Qed.

(** The code's comparison is the lexicographic one on (epoch, release, dev, pre, post, local). *)
Lemma sv_ltb_key : forall a b, sv_ltb a b = if pub_eqb a b then segs_ltb (segs a) (segs b) else pub_ltb a b.
Proof.
  intros a b. unfold sv_ltb, pub_eqb, pub_ltb, lex_eqb, lex_ltb, pub_key. cbn [fst snd].
  change (opt_or (epoch a) 0%N) with (ep a). change (opt_or (epoch b) 0%N) with (ep b).
  destruct (ep a =? ep b)%N; cbn [negb andb]; [|reflexivity].
  pose proof (zip_less_pad (release a) (release b)) as Hz.
  destruct (normalized_releases (release a) (release b)) as [r1 r2]. destruct Hz as [_ Hz]. rewrite Hz.
  destruct (rel_eqb (release a) (release b)); cbn [andb]; [|reflexivity].
  rewrite !segs_local_segments, local_less_segs.
  assert (EL : forall S : bool,
    match post_release a, post_release b with
    | None, Some _ => true | Some _, None => false
    | Some x, Some y => if (x =? y)%N then S else (x <? y)%N | None, None => S end
    = if opt_eqb N.eqb (post_release a) (post_release b) then S else none_first N.ltb (post_release a) (post_release b)).
  { intro S. destruct (post_release a), (post_release b); reflexivity. }
  rewrite EL.
  assert (EP : forall S : bool,
    match pre_release a, pre_release b with
    | None, Some _ => false | Some _, None => true
    | Some x, Some y => match pre_less x y with Some r => r | None => S end | None, None => S end
    = if opt_eqb pre_eqb (pre_release a) (pre_release b) then S else none_last pre_ltb (pre_release a) (pre_release b)).
  { intro S. destruct (pre_release a) as [[t n]|], (pre_release b) as [[t' n']|]; try reflexivity.
    unfold pre_less, pre_eqb, pre_ltb, lex_ltb. cbn [fst snd opt_eqb none_last]. destruct (str_eqb t t'); cbn [andb]; auto.
    destruct (n =? n')%N; reflexivity. }
  rewrite EP.
  destruct (dev_release a) as [d|], (dev_release b) as [d'|]; cbn [opt_eqb none_last andb];
    try (destruct (d =? d')%N; cbn [andb]);
    destruct (opt_eqb pre_eqb (pre_release a) (pre_release b)); cbn [andb]; auto.
Qed.

Lemma sv_eqb_key : forall a b, sv_eqb a b = pub_eqb a b && opt_eqb str_eqb (local_label a) (local_label b).
Proof.
  intros a b. unfold sv_eqb, equals_to, pub_eqb, lex_eqb, pub_key. cbn [fst snd].
  pose proof (zip_less_pad (release a) (release b)) as Hz.
  destruct (normalized_releases (release a) (release b)) as [r1 r2]. destruct Hz as [Hz _]. rewrite Hz.
  change (opt_or (epoch a) 0%N) with (ep a). change (opt_or (epoch b) 0%N) with (ep b).
  destruct (ep a =? ep b)%N, (rel_eqb (release a) (release b)), (opt_eqb pre_eqb (pre_release a) (pre_release b)),
    (opt_eqb N.eqb (post_release a) (post_release b)), (opt_eqb N.eqb (dev_release a) (dev_release b)); reflexivity.
Qed.

Lemma pub_eqb_spec : forall a b, pub_eqb a b = true <-> same_public a b.
Proof.
  intros a b. unfold pub_eqb, lex_eqb, pub_key, same_public, rel_at. cbn [fst snd].
  rewrite !andb_true_iff, N.eqb_eq, rel_eqb_nth, (opt_eqb_eq _ _ N.eqb_eq), (opt_eqb_eq _ _ pre_eqb_eq), (opt_eqb_eq _ _ N.eqb_eq).
  tauto.
Qed.
Lemma sv_eqb_spec : forall a b, sv_eqb a b = true <-> same_version a b.
Proof.
  intros a b. rewrite sv_eqb_key, andb_true_iff, pub_eqb_spec, (opt_eqb_eq _ _ str_eqb_eq). reflexivity.
Qed.

Lemma spo_sv : spo sv_eqb sv_ltb.
Proof.
  pose (k := fun v => (v, segs v)).
  assert (H : spo (fun a b => pub_eqb a b && list_eqb str_eqb (segs a) (segs b)) sv_ltb).
  { eapply spo_ext; [| |apply (spo_pull _ _ k _ _ (spo_lex _ _ _ _ _ _ spo_pub spo_segs))].
    - intros x y. reflexivity.
    - intros x y. rewrite sv_ltb_key. reflexivity. }
  assert (I : forall a b, sv_eqb a b = true -> pub_eqb a b && list_eqb str_eqb (segs a) (segs b) = true).
  { intros a b E. rewrite sv_eqb_key in E. apply andb_true_iff in E as [E1 E2]. rewrite E1. simpl.
    apply (list_eqb_eq _ _ str_eqb_eq). apply (opt_eqb_eq _ _ str_eqb_eq) in E2. unfold segs. rewrite E2. reflexivity. }
  constructor.
  - intro x. apply sv_eqb_spec. repeat split.
  - intros x y. apply eq_true_iff_eq. rewrite !sv_eqb_spec. unfold same_version, same_public.
    split; intros ((H1 & H2 & H3 & H4 & H5) & H6); repeat split; auto.
  - intros x y z. rewrite !sv_eqb_spec. unfold same_version, same_public.
    intros ((H1 & H2 & H3 & H4 & H5) & H6) ((H1' & H2' & H3' & H4' & H5') & H6'). repeat split; try congruence.
  - intros x y E. apply (spo_irr _ _ H). auto.
  - apply (spo_trans _ _ H).
  - intros x y z E. apply (spo_left _ _ H). auto.
  - intros x y z E. apply (spo_right _ _ H). auto.
Qed.

Lemma split_nil : forall l, split_on "."%char l = [[]] -> l = [].
Proof. intros l H. apply (split_on_inj "."%char). exact H. Qed.

Lemma sv_incomparable : forall a b,
  (sv_ltb a b = false /\ sv_ltb b a = false) <->
  (same_version a b \/ (same_public a b /\ (numeric_clash (segs a) (segs b) \/ empty_label_clash a b))).
Proof.
  intros a b. split.
  - rewrite !sv_ltb_key. rewrite (spo_sym _ _ spo_pub b a). intros [H1 H2]. destruct (pub_eqb a b) eqn:E.
    + apply pub_eqb_spec in E. destruct (segs_incomparable _ _ H1 H2) as [Hs|Hs]; auto.
      unfold segs in Hs. unfold same_version, empty_label_clash.
      destruct (local_label a) as [la|] eqn:Ea, (local_label b) as [lb|] eqn:Eb.
      * apply split_on_inj in Hs. subst. auto.
      * apply split_nil in Hs. subst. right. auto.
      * symmetry in Hs. apply split_nil in Hs. subst. right. auto.
      * auto.
    + rewrite (total_pub _ _ H1 H2) in E. discriminate.
  - intros [H|[H C]].
    + apply sv_eqb_spec in H. split; [apply (spo_irr _ _ spo_sv); auto|].
      apply (spo_irr _ _ spo_sv). rewrite (spo_sym _ _ spo_sv). exact H.
    + apply pub_eqb_spec in H. rewrite !sv_ltb_key, (spo_sym _ _ spo_pub b a), H.
      destruct C as [C|C].
      * apply clash_incomparable in C. tauto.
      * unfold segs. destruct C as [[-> ->]|[-> ->]]; simpl; auto.
Qed.

(** ** All versions *)
Lemma url_str_eq_url : forall u p s, version_eqb (VUrl u p s) (VUrl u p s) = true.
Proof. intros. simpl. rewrite !str_eqb_refl. reflexivity. Qed.

Lemma version_ltb_irrefl : forall v, version_ltb v v = false.
Proof.
  intros [u p s|n|s]; simpl; try apply str_ltb_irrefl. apply (spo_irr _ _ spo_sv). apply (spo_refl _ _ spo_sv).
Qed.
Lemma version_ltb_trans : forall a b c, version_ltb a b = true -> version_ltb b c = true -> version_ltb a c = true.
Proof.
  intros [u p s|n|s] [u' p' s'|n'|s'] [u'' p'' s''|n''|s'']; simpl; auto; try discriminate;
    try apply str_ltb_trans. apply (spo_trans _ _ spo_sv).
Qed.
Lemma version_ltb_asym : forall a b, version_ltb a b = true -> version_ltb b a = false.
Proof.
  intros a b H. destruct (version_ltb b a) eqn:E; auto.
  rewrite <- (version_ltb_irrefl a). symmetry. eapply version_ltb_trans; eauto.
Qed.

Lemma version_eqb_refl : forall a, version_eqb a a = true.
Proof. intros [u p s|n|s]; simpl; rewrite ?str_eqb_refl; auto. apply (spo_refl _ _ spo_sv). Qed.
Lemma version_eqb_sym : forall a b, version_eqb a b = version_eqb b a.
Proof.
  intros [u p s|n|s] [u' p' s'|n'|s']; simpl; auto.
  - rewrite (str_eqb_sym (url_protocol p s)), (str_eqb_sym u). reflexivity.
  - apply str_eqb_sym.
  - apply (spo_sym _ _ spo_sv).
Qed.
Lemma version_eqb_trans : forall a b c, version_eqb a b = true -> version_eqb b c = true -> version_eqb a c = true.
Proof.
  intros [u p s|n|s] [u' p' s'|n'|s'] [u'' p'' s''|n''|s'']; simpl; auto; try discriminate.
  - rewrite !andb_true_iff, !str_eqb_eq. intros [-> ->] [-> ->]. auto.
  - rewrite !str_eqb_eq. congruence.
  - apply (spo_eqtrans _ _ spo_sv).
Qed.

(** equality is a congruence for [<] except between url versions spelled with and without protocol *)
Definition not_url (v : version) : Prop := match v with VUrl _ _ _ => False | _ => True end.
Lemma version_ltb_congr_l : forall a b c, not_url a -> version_eqb a b = true -> version_ltb a c = version_ltb b c.
Proof.
  intros [u p s|n|s] [u' p' s'|n'|s'] c Hn E; simpl in *; try discriminate; try contradiction.
  - apply str_eqb_eq in E. subst. reflexivity.
  - destruct c; auto. apply (spo_left _ _ spo_sv). exact E.
Qed.
Lemma version_ltb_congr_r : forall a b c, not_url a -> version_eqb a b = true -> version_ltb c a = version_ltb c b.
Proof.
  intros [u p s|n|s] [u' p' s'|n'|s'] c Hn E; simpl in *; try discriminate; try contradiction.
  - apply str_eqb_eq in E. subst. reflexivity.
  - destruct c; auto. apply (spo_right _ _ spo_sv). exact E.
Qed.

(** ** Hashing *)
Definition canon_rel (r : list N) : Prop := r <> [] /\ (length r = 1 \/ last r 0%N <> 0%N).

Lemma strip_rev_spec : forall r, r <> [] ->
  exists k, r = repeat 0%N k ++ strip_rev r /\ strip_rev r <> [] /\ (length (strip_rev r) = 1 \/ hd 0%N (strip_rev r) <> 0%N).
Proof.
  induction r as [|x r IH]; intro H; [contradiction|]. simpl. destruct r as [|y r].
  - exists 0. simpl. repeat split; auto; discriminate.
  - destruct (x =? 0)%N eqn:E.
    + apply N.eqb_eq in E. subst. destruct IH as (k & Hk & Hn & Hc); [discriminate|].
      exists (S k). simpl repeat. split; [|auto]. cbn [app]. rewrite Hk at 1. reflexivity.
    + apply N.eqb_neq in E. exists 0. simpl. repeat split; auto; discriminate.
Qed.
Lemma repeat_rev : forall (x : N) k, rev (repeat x k) = repeat x k.
Proof.
  intros x k. induction k; simpl; auto. rewrite IHk. clear. induction k; simpl; auto. f_equal. auto.
Qed.
Lemma strip_release_spec : forall r, r <> [] ->
  exists k, r = strip_release r ++ repeat 0%N k /\ canon_rel (strip_release r).
Proof.
  intros r H. destruct (strip_rev_spec (rev r)) as (k & Hk & Hn & Hc).
  - intro E. apply H. rewrite <- (rev_involutive r), E. reflexivity.
  - exists k. unfold strip_release, canon_rel. split.
    + rewrite <- (rev_involutive r) at 1. rewrite Hk at 1. rewrite rev_app_distr, repeat_rev. reflexivity.
    + split.
      * intro E. apply Hn. rewrite <- (rev_involutive (strip_rev (rev r))), E. reflexivity.
      * rewrite rev_length. destruct Hc as [Hc|Hc]; auto. right.
        destruct (strip_rev (rev r)) as [|z zs]; [contradiction|]. simpl in *. rewrite last_last. exact Hc.
Qed.
Lemma nth_app_repeat : forall r k i, nth i (r ++ repeat 0%N k) 0%N = nth i r 0%N.
Proof.
  intros r k i. destruct (lt_dec i (length r)) as [L|L].
  - apply app_nth1. exact L.
  - rewrite app_nth2 by lia. rewrite (nth_overflow r) by lia.
    generalize (i - length r). clear. induction k; intros [|n]; simpl; auto.
Qed.
Lemma nth_last : forall (l : list N) d, nth (length l - 1) l d = last l d.
Proof.
  induction l as [|x l IH]; intro d; simpl; auto. destruct l as [|y l]; auto.
  rewrite Nat.sub_0_r. specialize (IH d). simpl length in *. simpl in IH |- *. rewrite Nat.sub_0_r in IH. exact IH.
Qed.
Lemma canon_unique : forall a b, canon_rel a -> canon_rel b -> (forall i, nth i a 0%N = nth i b 0%N) -> a = b.
Proof.
  assert (W : forall a b, canon_rel a -> canon_rel b -> (forall i, nth i a 0%N = nth i b 0%N) -> length a < length b -> False).
  { intros a b [Ha _] [_ Hb] H L. destruct a as [|x a]; [contradiction|]. simpl in L.
    destruct Hb as [Hb|Hb]; [lia|]. apply Hb. rewrite <- nth_last, <- H. apply nth_overflow. simpl. lia. }
  intros a b Ha Hb H. destruct (lt_eq_lt_dec (length a) (length b)) as [[L|L]|L].
  - exfalso. eauto.
  - apply (nth_ext a b 0%N 0%N L). intros n _. apply H.
  - exfalso. apply (W b a); auto.
Qed.
Lemma strip_release_eq : forall a b, a <> [] -> b <> [] -> (forall i, nth i a 0%N = nth i b 0%N) ->
  strip_release a = strip_release b.
Proof.
  intros a b Ha Hb H. destruct (strip_release_spec a Ha) as (k & Hk & Ca). destruct (strip_release_spec b Hb) as (k' & Hk' & Cb).
  apply canon_unique; auto. intro i.
  rewrite <- (nth_app_repeat _ k), <- Hk, <- (nth_app_repeat (strip_release b) k'), <- Hk'. apply H.
Qed.

Lemma hash_eq_iff_epoch : forall a b, release a <> [] -> release b <> [] -> same_version a b ->
  (sv_hash_key a = sv_hash_key b <-> epoch a = epoch b).
Proof.
  intros a b Ha Hb ((He & Hr & Hp & Hpo & Hd) & Hl). unfold sv_hash_key, standartize. simpl.
  rewrite (strip_release_eq (release a) (release b) Ha Hb Hr), Hp, Hpo, Hd, Hl. split; intro H; [congruence|].
  rewrite H. reflexivity.
Qed.

(** ** bump *)
Lemma sv_ltb_release : forall a b, ep a = ep b -> rel_lt a b -> sv_ltb a b = true.
Proof.
  intros a b He Hr. apply rel_ltb_nth in Hr. rewrite sv_ltb_key. unfold pub_eqb, pub_ltb, lex_eqb, lex_ltb, pub_key. simpl.
  rewrite He, N.eqb_refl. destruct (rel_eqb (release a) (release b)) eqn:E; simpl; auto.
  rewrite (spo_irr _ _ spo_rel _ _ E) in Hr. discriminate.
Qed.

Lemma bump_release_greater : forall v p v', bump_release v p = Some v' -> sv_ltb v v' = true.
Proof.
  intros v p v' H. unfold bump_release in H.
  destruct (release v) as [|a [|b [|c [|]]]] eqn:R; try discriminate.
  destruct (str_eqb p (lit "major")); [|destruct (str_eqb p (lit "minor")); [|destruct (str_eqb p (lit "patch")); [|discriminate]]];
    injection H as <-; apply sv_ltb_release; auto; unfold rel_lt, rel_at; rewrite R; simpl.
  - exists 0. simpl. split; [lia|intros; lia].
  - exists 1. simpl. split; [lia|]. intros [|j] Hj; auto; lia.
  - exists 2. simpl. split; [lia|]. intros [|[|j]] Hj; auto; lia.
Qed.

Lemma set_pre_cmp : forall v p, sv_ltb v (set_pre v p) = none_last pre_ltb (pre_release v) p
  /\ sv_ltb (set_pre v p) v = none_last pre_ltb p (pre_release v).
Proof.
  intros v p. split.
  - rewrite sv_ltb_key. unfold pub_eqb, pub_ltb, lex_eqb, lex_ltb, pub_key, segs. simpl.
    change (ep (set_pre v p)) with (ep v).
    rewrite N.eqb_refl, (spo_refl _ _ spo_rel). 
    rewrite (proj2 (opt_eqb_eq _ _ N.eqb_eq (dev_release v) _) eq_refl), (proj2 (opt_eqb_eq _ _ N.eqb_eq (post_release v) _) eq_refl).
    simpl. destruct (opt_eqb pre_eqb (pre_release v) p) eqn:E; simpl; auto.
    rewrite (spo_irr _ _ (spo_none_last _ _ _ spo_pre) _ _ E). destruct (local_label v); apply segs_ltb_irr.
  - rewrite sv_ltb_key. unfold pub_eqb, pub_ltb, lex_eqb, lex_ltb, pub_key, segs. simpl.
    change (ep (set_pre v p)) with (ep v).
    rewrite N.eqb_refl, (spo_refl _ _ spo_rel).
    rewrite (proj2 (opt_eqb_eq _ _ N.eqb_eq (dev_release v) _) eq_refl), (proj2 (opt_eqb_eq _ _ N.eqb_eq (post_release v) _) eq_refl).
    simpl. destruct (opt_eqb pre_eqb p (pre_release v)) eqn:E; simpl; auto.
    rewrite (spo_irr _ _ (spo_none_last _ _ _ spo_pre) _ _ E). destruct (local_label v); apply segs_ltb_irr.
Qed.

Lemma set_pre_none_id : forall v, pre_release v = None -> set_pre v None = v.
Proof. intros [r e p po d l] H. simpl in H. subst. reflexivity. Qed.

Lemma bump_pre_forward : forall v p, length (release v) = 3 -> pre_release v <> None ->
  sv_ltb v (bump_pre_release v p) = true.
Proof.
  intros v p HL Hp. unfold bump_pre_release. destruct (pre_release v) as [[t n]|] eqn:E; [|contradiction].
  destruct (str_ltb p t) eqn:E1; [|destruct (str_ltb t p) eqn:E2].
  - destruct (bump_release v (lit "patch")) as [v'|] eqn:EB.
    + rewrite set_pre_none_id; [eapply bump_release_greater; eauto|].
      unfold bump_release in EB. destruct (release v) as [|a [|b [|c [|]]]]; try discriminate.
      simpl in EB. injection EB as <-. reflexivity.
    + unfold bump_release in EB. destruct (release v) as [|a [|b [|c [|]]]]; simpl in HL; try discriminate.
  - rewrite (proj1 (set_pre_cmp v _)), E. simpl. unfold pre_ltb, lex_ltb. simpl.
    destruct (str_eqb t p) eqn:E3; auto. apply str_eqb_eq in E3. subst. rewrite str_ltb_irrefl in E2. discriminate.
  - assert (t = p) by (apply str_ltb_total; auto). subst.
    rewrite (proj1 (set_pre_cmp v _)), E. simpl. unfold pre_ltb, lex_ltb. simpl. rewrite str_eqb_refl. apply N.ltb_lt. lia.
Qed.
Lemma bump_pre_backward : forall v p, pre_release v = None -> sv_ltb (bump_pre_release v p) v = true.
Proof.
  intros v p H. unfold bump_pre_release. rewrite H. rewrite (proj2 (set_pre_cmp v _)), H. reflexivity.
Qed.

(** ** Trichotomy *)
Lemma version_trichotomy : forall a b,
  (match a, b with
   | VUrl u1 p1 s1, VUrl u2 p2 s2 => p1 = p2 /\ (u1 = u2 -> s1 = s2)
   | VStd x, VStd y => ~ numeric_clash (segs x) (segs y) /\ ~ empty_label_clash x y
   | _, _ => True end) ->
  (version_ltb a b = true /\ version_eqb a b = false /\ version_ltb b a = false) \/
  (version_ltb a b = false /\ version_eqb a b = true /\ version_ltb b a = false) \/
  (version_ltb a b = false /\ version_eqb a b = false /\ version_ltb b a = true).
Proof.
  assert (G : forall a b, (version_ltb a b = false -> version_ltb b a = false -> version_eqb a b = true) ->
     (version_eqb a b = true -> version_ltb a b = false /\ version_ltb b a = false) ->
     (version_ltb a b = true /\ version_eqb a b = false /\ version_ltb b a = false) \/
     (version_ltb a b = false /\ version_eqb a b = true /\ version_ltb b a = false) \/
     (version_ltb a b = false /\ version_eqb a b = false /\ version_ltb b a = true)).
  { intros a b H1 H2. destruct (version_ltb a b) eqn:L1; destruct (version_ltb b a) eqn:L2.
    - rewrite (version_ltb_asym _ _ L1) in L2. discriminate.
    - left. repeat split. destruct (version_eqb a b); auto. destruct (H2 eq_refl). discriminate.
    - right. right. repeat split. destruct (version_eqb a b); auto. destruct (H2 eq_refl). discriminate.
    - right. left. repeat split. auto. }
  intros a b H. apply G; clear G.
  - destruct a as [u p s|n|x], b as [u' p' s'|n'|y]; simpl; try discriminate.
    + destruct H as [-> Hs]. intros H1 H2. pose proof (str_ltb_total _ _ H1 H2) as E.
      assert (u = u') as ->.
      { destruct p' as [[|c p']|]; simpl in E; auto. apply app_inv_head in E || idtac.
        injection E as E. apply app_inv_head in E. injection E; auto. }
      rewrite (Hs eq_refl), !str_eqb_refl. reflexivity.
    + intros H1 H2. apply str_eqb_eq. apply str_ltb_total; auto.
    + intros H1 H2. apply sv_eqb_spec. destruct (proj1 (sv_incomparable x y) (conj H1 H2)) as [C|[_ [C|C]]]; auto; tauto.
  - destruct a as [u p s|n|x], b as [u' p' s'|n'|y]; simpl; try discriminate.
    + destruct H as [-> Hs]. rewrite andb_true_iff, !str_eqb_eq. intros [_ ->]. rewrite str_ltb_irrefl. auto.
    + rewrite str_eqb_eq. intros ->. rewrite str_ltb_irrefl. auto.
    + intro E. split; apply (spo_irr _ _ spo_sv); auto. rewrite (spo_sym _ _ spo_sv). exact E.
Qed.
