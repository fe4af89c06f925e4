From Coq Require Import String Ascii List Bool NArith Arith Lia.
From Verif Require Import Base BaseFacts OrderFacts VersionModel VersionSpec VersionProofs.
Import ListNotations.
Open Scope nat_scope.
Open Scope list_scope.

Lemma lseg_lt_irr : forall x, ~ lseg_lt x x.
Proof. intros [s|n]; simpl; [unfold str_lt; rewrite str_ltb_irrefl; discriminate|lia]. Qed.

Lemma segs_lsegs : forall a b, ~ numeric_clash a b ->
  (segs_ltb a b = true <-> lsegs_lt (map to_lseg a) (map to_lseg b)).
Proof.
  induction a as [|m a IH]; intros [|o b] Hc; simpl; try (split; [discriminate|tauto]); try tauto.
  destruct (str_eqb m o) eqn:E.
  - apply str_eqb_eq in E. subst o.
    assert (Hc' : ~ numeric_clash a b).
    { intro C. apply Hc. destruct C as (p & m' & o' & r1 & r2 & -> & -> & C). exists (m :: p), m', o', r1, r2. simpl. auto. }
    rewrite (IH b Hc'). split; [auto|]. intros [H|[_ H]]; auto. exfalso. apply (lseg_lt_irr _ H).
  - apply str_eqb_neq in E. unfold seg_ltb, to_lseg.
    destruct (all_digits m) eqn:D1; destruct (all_digits o) eqn:D2; simpl.
    + exfalso. apply Hc. exists [], m, o, a, b. auto.
    + split; [discriminate|]. intros [[]|[H _]]. discriminate.
    + tauto.
    + unfold str_lt. split; auto. intros [H|[H _]]; auto. congruence.
Qed.

Lemma local_pep : forall a b, label_ok a -> label_ok b -> ~ numeric_clash (segs a) (segs b) ->
  (segs_ltb (segs a) (segs b) = true <-> ext_lt lsegs_lt (pep_local a) (pep_local b)).
Proof.
  intros a b Ha Hb Hc. unfold segs, pep_local, label_ok in *.
  destruct (local_label a) as [la|]; destruct (local_label b) as [lb|].
  - apply segs_lsegs. exact Hc.
  - specialize (Ha la eq_refl). pose proof (split_on_nonempty "."%char la) as Hn.
    destruct (split_on "."%char la) as [|x r]; [contradiction|].
    destruct x as [|c x]; [exfalso; apply Ha; simpl; auto|].
    simpl. split; [|tauto]. unfold seg_ltb. destruct (all_digits (c :: x)); simpl; discriminate.
  - specialize (Hb lb eq_refl). pose proof (split_on_nonempty "."%char lb) as Hn.
    destruct (split_on "."%char lb) as [|x r]; [contradiction|].
    destruct x as [|c x]; [exfalso; apply Hb; simpl; auto|].
    simpl. split; [tauto|]. intros _. unfold seg_ltb. destruct (all_digits (c :: x)); simpl; reflexivity.
  - simpl. split; [discriminate|tauto].
Qed.

Lemma pre_ltb_lt : forall x y, pre_ltb x y = true <-> pre_lt x y.
Proof.
  intros [t n] [t' n']. unfold pre_ltb, lex_ltb, pre_lt, str_lt. simpl. destruct (str_eqb t t') eqn:E.
  - apply str_eqb_eq in E. subst. rewrite N.ltb_lt, str_ltb_irrefl. intuition discriminate.
  - apply str_eqb_neq in E. intuition.
Qed.

Lemma rel_trichotomy : forall a b,
  (rel_ltb (release a) (release b) = true /\ rel_eqb (release a) (release b) = false /\ rel_lt a b) \/
  (rel_eqb (release a) (release b) = true /\ (forall i, rel_at a i = rel_at b i)) \/
  (rel_ltb (release a) (release b) = false /\ rel_eqb (release a) (release b) = false /\ rel_lt b a).
Proof.
  intros a b. destruct (rel_eqb (release a) (release b)) eqn:E.
  - right. left. split; auto. apply rel_eqb_nth. exact E.
  - destruct (rel_ltb (release a) (release b)) eqn:L.
    + left. repeat split; auto. apply rel_ltb_nth. exact L.
    + right. right. repeat split; auto. apply rel_ltb_nth.
      destruct (rel_ltb (release b) (release a)) eqn:L2; auto.
      rewrite (total_rel _ _ L L2) in E. discriminate.
Qed.
Lemma rel_lt_irr : forall a b, rel_lt a b -> rel_lt b a -> False.
Proof.
  intros a b H1 H2. apply rel_ltb_nth in H1, H2. rewrite (spo_asym _ _ _ spo_rel _ _ H1) in H2. discriminate.
Qed.
Lemma rel_lt_neq : forall a b, rel_lt a b -> (forall i, rel_at a i = rel_at b i) -> False.
Proof. intros a b [i [Hi _]] H. rewrite H in Hi. lia. Qed.
Lemma rel_lt_neq' : forall a b, rel_lt a b -> (forall i, rel_at b i = rel_at a i) -> False.
Proof. intros a b [i [Hi _]] H. rewrite H in Hi. lia. Qed.

(** The parts before the suffixes decide whenever they differ, without any hypothesis. *)
Lemma release_dominates : forall a b, (ep a <> ep b \/ exists i, rel_at a i <> rel_at b i) ->
  (sv_ltb a b = true <-> pep440_lt a b).
Proof.
  intros a b H. rewrite sv_ltb_key. unfold pub_eqb, pub_ltb, lex_eqb, lex_ltb, pub_key, pep440_lt. cbn [fst snd].
  destruct (N.eqb_spec (ep a) (ep b)) as [E|E]; cbn [andb].
  - destruct H as [H|[i H]]; [contradiction|].
    destruct (rel_trichotomy a b) as [(L & R & Hr)|[(R & Hr)|(L & R & Hr)]].
    + rewrite R, L. cbn [andb]. tauto.
    + exfalso. apply H. apply Hr.
    + rewrite R, L. cbn [andb]. split; [discriminate|]. intros [C|[_ [C|[C _]]]].
      * lia.
      * exfalso. eapply rel_lt_irr; eauto.
      * exfalso. eapply rel_lt_neq'; eauto.
  - rewrite N.ltb_lt. split; auto. intros [C|[C _]]; auto. contradiction.
Qed.

Lemma pep_agree : forall a b, dev_alone a -> dev_alone b -> label_ok a -> label_ok b ->
  ~ numeric_clash (segs a) (segs b) -> (sv_ltb a b = true <-> pep440_lt a b).
Proof.
  intros a b Da Db La Lb Hc.
  destruct (N.eq_dec (ep a) (ep b)) as [E|E]; [|apply release_dominates; auto].
  destruct (rel_trichotomy a b) as [(L & R & Hr)|[(R & Hr)|(L & R & Hr)]].
  - apply release_dominates. right. destruct Hr as [i [Hi _]]. exists i. lia.
  - pose proof (local_pep a b La Lb Hc) as HL.
    rewrite sv_ltb_key. unfold pub_eqb, pub_ltb, lex_eqb, lex_ltb, pub_key, pep440_lt. cbn [fst snd].
    rewrite E, N.eqb_refl, R. cbn [andb].
    assert (NR : ~ rel_lt a b) by (intro C; eapply rel_lt_neq; eauto).
    assert (G : forall P : Prop, ((ep b < ep b)%N \/ ep b = ep b /\ (rel_lt a b \/ (forall i, rel_at a i = rel_at b i) /\ P)) <-> P).
    { intro P. split; [intros [C|[_ [C|[_ C]]]]; auto; [lia|contradiction]|]. intro HP. right. split; auto. }
    rewrite G. clear G. unfold dev_alone, pep_pre, pep_post, pep_dev in *.
    destruct (dev_release a) as [da|] eqn:EDa; destruct (dev_release b) as [db|] eqn:EDb.
    + destruct Da as [Pa Qa]; [discriminate|]. destruct Db as [Pb Qb]; [discriminate|].
      rewrite Pa, Qa, Pb, Qb. cbn [opt_eqb none_last none_first ext_lt andb]. rewrite !andb_true_r.
      destruct (N.eqb_spec da db) as [Ed|Ed].
      * subst. rewrite HL. intuition lia.
      * rewrite N.ltb_lt. intuition congruence.
    + destruct Da as [Pa Qa]; [discriminate|]. rewrite Pa, Qa. cbn. split; [|auto]. intros _. left.
      destruct (pre_release b), (post_release b); cbn; auto.
    + destruct Db as [Pb Qb]; [discriminate|]. rewrite Pb, Qb. cbn. split; [discriminate|].
      intros [C|[C _]]; destruct (pre_release a), (post_release a); cbn in *; try contradiction; discriminate.
    + cbn [opt_eqb none_last none_first ext_lt andb]. clear Da Db.
      assert (GP : forall P : Prop, (ext_lt pre_lt (match pre_release a with Some p => Fin p | None => PosInf end)
                      (match pre_release b with Some p => Fin p | None => PosInf end) \/
                    (match pre_release a with Some p => Fin p | None => PosInf end)
                    = (match pre_release b with Some p => Fin p | None => PosInf end) /\ P) <->
                  if opt_eqb pre_eqb (pre_release a) (pre_release b) then P
                  else none_last pre_ltb (pre_release a) (pre_release b) = true).
      { intro P. destruct (pre_release a) as [x|], (pre_release b) as [y|]; cbn; try (intuition discriminate).
        destruct (pre_eqb x y) eqn:EQ.
        - apply pre_eqb_eq in EQ. subst. rewrite <- pre_ltb_lt.
          rewrite (spo_irr _ _ spo_pre y y (spo_refl _ _ spo_pre y)). intuition discriminate.
        - rewrite pre_ltb_lt. split; [|auto]. intros [C|[C _]]; auto. injection C as ->.
          rewrite (spo_refl _ _ spo_pre) in EQ. discriminate. }
      assert (XA : match pre_release a, post_release a with None, None => PosInf | None, _ => PosInf | Some p, _ => Fin p end
                   = match pre_release a with Some p => Fin p | None => PosInf end)
        by (destruct (pre_release a), (post_release a); reflexivity).
      assert (XB : match pre_release b, post_release b with None, None => PosInf | None, _ => PosInf | Some p, _ => Fin p end
                   = match pre_release b with Some p => Fin p | None => PosInf end)
        by (destruct (pre_release b), (post_release b); reflexivity).
      assert (XA' : (match pre_release a with
         | Some p => Fin p | None => match post_release a with | Some _ | _ => PosInf end end)
                   = match pre_release a with Some p => Fin p | None => PosInf end)
        by (destruct (pre_release a), (post_release a); reflexivity).
      assert (XB' : (match pre_release b with
         | Some p => Fin p | None => match post_release b with | Some _ | _ => PosInf end end)
                   = match pre_release b with Some p => Fin p | None => PosInf end)
        by (destruct (pre_release b), (post_release b); reflexivity).
      rewrite ?XA, ?XB, ?XA', ?XB', GP.
      destruct (opt_eqb pre_eqb (pre_release a) (pre_release b)) eqn:EQ; cbn [andb]; [|tauto].
      destruct (post_release a) as [x|], (post_release b) as [y|]; cbn [opt_eqb none_last none_first ext_lt andb].
      * destruct (N.eqb_spec x y) as [->|Hxy].
        -- rewrite HL. intuition lia.
        -- rewrite N.ltb_lt. intuition congruence.
      * intuition discriminate.
      * tauto.
      * rewrite HL. intuition.
  - apply release_dominates. right. destruct Hr as [i [Hi _]]. exists i. lia.
Qed.
