From Coq Require Import String Ascii List Bool NArith Arith Lia.
From Verif Require Import Base BaseFacts ParserModel.
Import ListNotations.
Open Scope nat_scope.
Open Scope list_scope.

#[global] Arguments Ascii.eqb : simpl never.

Definition head_not (f : ascii -> bool) (r : str) : Prop := opt_test f (hd_error r) = false.

Lemma span_app : forall f a r, forallb f a = true -> head_not f r -> span f (a ++ r) = (a, r).
Proof.
  intros f a r Ha Hr. induction a as [|c a IH]; simpl in *.
  - destruct r as [|c r]; simpl in *; auto. unfold head_not in Hr. simpl in Hr. rewrite Hr. reflexivity.
  - apply andb_true_iff in Ha as [H1 H2]. rewrite H1, (IH H2). reflexivity.
Qed.
Lemma take_while_app : forall f a b r, forallb f a = true -> head_not f r ->
  take_while f (PS b (a ++ r)) = (a, PS (rev a ++ b) r).
Proof. intros f a b r Ha Hr. unfold take_while. cbn [rest prev]. rewrite (span_app f a r Ha Hr). reflexivity. Qed.
Lemma take_while_none : forall f b r, head_not f r -> take_while f (PS b r) = ([], PS b r).
Proof. intros f b r Hr. apply (take_while_app f [] b r eq_refl Hr). Qed.

Lemma adv_app : forall w b r, adv (length w) (PS b (w ++ r)) = PS (rev w ++ b) r.
Proof.
  induction w as [|c w IH]; intros b r; simpl; auto.
  rewrite IH. rewrite <- app_assoc. reflexivity.
Qed.
Lemma pmatch_app : forall w b r, pmatch w (PS b (w ++ r)) = Some (PS (rev w ++ b) r).
Proof. intros w b r. unfold pmatch. cbn [rest]. rewrite starts_with_app, adv_app. reflexivity. Qed.
Lemma pmatch_fail : forall w s, starts_with w (rest s) = false -> pmatch w s = None.
Proof. intros w s H. unfold pmatch. rewrite H. reflexivity. Qed.
Lemma skip_fail : forall w s, starts_with w (rest s) = false -> skip w s = s.
Proof. intros w s H. unfold skip. rewrite pmatch_fail; auto. Qed.
Lemma match_any_fail : forall l s, (forall x, In x l -> starts_with x (rest s) = false) -> match_any l s = None.
Proof.
  induction l as [|x l IH]; intros s H; simpl; auto. rewrite pmatch_fail by (apply H; simpl; auto). apply IH.
  intros. apply H. simpl. auto.
Qed.
Lemma skip_any_fail : forall l s, (forall x, In x l -> starts_with x (rest s) = false) -> skip_any l s = s.
Proof. intros l s H. unfold skip_any. rewrite match_any_fail; auto. Qed.

Lemma show_N_cons : forall n, exists d ds, show_N n = d :: ds /\ is_digit d = true /\ forallb is_digit ds = true.
Proof.
  intro n. pose proof (show_N_nonempty n) as Hn. pose proof (show_N_digits n) as Hd.
  destruct (show_N n) as [|d ds]; [contradiction|]. simpl in Hd. apply andb_true_iff in Hd as [H1 H2]. eauto.
Qed.
Lemma rev_cons_last : forall (l : str), l <> [] -> exists c l', rev l = c :: l' /\ In c l.
Proof.
  intros l H. destruct (rev l) as [|c l'] eqn:E.
  - exfalso. apply H. rewrite <- (rev_involutive l), E. reflexivity.
  - exists c, l'. split; auto. apply in_rev. rewrite E. simpl. auto.
Qed.

(** the last consumed character is a digit *)
Definition dprev (b : str) : Prop := opt_test is_digit (hd_error b) = true.
Lemma dprev_show : forall n b, dprev (rev (show_N n) ++ b).
Proof.
  intros n b. destruct (rev_cons_last (show_N n) (show_N_nonempty n)) as (c & l & H & Hin).
  rewrite H. unfold dprev. simpl. pose proof (show_N_digits n) as D. rewrite forallb_forall in D. auto.
Qed.
Lemma dprev_digit_not : forall b c, dprev b -> is_digit c = false -> opt_is c (hd_error b) = false.
Proof.
  intros [|d b] c H Hc; simpl; auto. unfold dprev in H. simpl in H.
  destruct (Ascii.eqb_spec c d); auto. subst. congruence.
Qed.

Lemma neq_by : forall (f : ascii -> bool) x c, f x = true -> f c = false -> Ascii.eqb x c = false.
Proof. intros f x c H1 H2. destruct (Ascii.eqb_spec x c); auto. subst. congruence. Qed.
