(** Boolean strict orders with a compatible equality, closed under products and pull-backs. *)
From Coq Require Import List Bool NArith Lia.
From Verif Require Import Base BaseFacts.
Import ListNotations.

(** [eqb] an equivalence, [ltb] a strict partial order compatible with it. *)
Record spo {A} (eqb ltb : A -> A -> bool) : Prop := {
  spo_refl : forall x, eqb x x = true;
  spo_sym : forall x y, eqb x y = eqb y x;
  spo_eqtrans : forall x y z, eqb x y = true -> eqb y z = true -> eqb x z = true;
  spo_irr : forall x y, eqb x y = true -> ltb x y = false;
  spo_trans : forall x y z, ltb x y = true -> ltb y z = true -> ltb x z = true;
  spo_left : forall x y z, eqb x y = true -> ltb x z = ltb y z;
  spo_right : forall x y z, eqb x y = true -> ltb z x = ltb z y
}.
Definition total_spo {A} (eqb ltb : A -> A -> bool) : Prop :=
  forall x y, ltb x y = false -> ltb y x = false -> eqb x y = true.

Lemma spo_asym : forall A (eqb ltb : A -> A -> bool), spo eqb ltb ->
  forall x y, ltb x y = true -> ltb y x = false.
Proof.
  intros A eqb ltb H x y Hxy. destruct (ltb y x) eqn:E; auto.
  pose proof (spo_trans _ _ H _ _ _ Hxy E) as C. rewrite (spo_irr _ _ H x x) in C; [discriminate|].
  apply (spo_refl _ _ H).
Qed.

Lemma spo_eq_left : forall A (eqb ltb : A -> A -> bool), spo eqb ltb ->
  forall x y z, eqb x y = true -> eqb x z = eqb y z.
Proof.
  intros A eqb ltb H x y z E. destruct (eqb x z) eqn:E1.
  - symmetry. eapply (spo_eqtrans _ _ H); [|exact E1]. rewrite (spo_sym _ _ H). exact E.
  - destruct (eqb y z) eqn:E2; auto. rewrite (spo_eqtrans _ _ H _ _ _ E E2) in E1. discriminate.
Qed.

Definition lex_eqb {A B} (ea : A -> A -> bool) (eb : B -> B -> bool) (x y : A * B) : bool :=
  ea (fst x) (fst y) && eb (snd x) (snd y).
Definition lex_ltb {A B} (ea la : A -> A -> bool) (lb : B -> B -> bool) (x y : A * B) : bool :=
  if ea (fst x) (fst y) then lb (snd x) (snd y) else la (fst x) (fst y).

Lemma spo_lex : forall A B (ea la : A -> A -> bool) (eb lb : B -> B -> bool),
  spo ea la -> spo eb lb -> spo (lex_eqb ea eb) (lex_ltb ea la lb).
Proof.
  intros A B ea la eb lb HA HB. unfold lex_eqb, lex_ltb. constructor.
  - intros [a b]. simpl. rewrite (spo_refl _ _ HA), (spo_refl _ _ HB). reflexivity.
  - intros [a b] [c d]. simpl. rewrite (spo_sym _ _ HA), (spo_sym _ _ HB). reflexivity.
  - intros [a b] [c d] [e f]. simpl. rewrite !andb_true_iff. intros [H1 H2] [H3 H4].
    split; [eapply (spo_eqtrans _ _ HA)|eapply (spo_eqtrans _ _ HB)]; eauto.
  - intros [a b] [c d]. simpl. rewrite andb_true_iff. intros [H1 H2]. rewrite H1. apply (spo_irr _ _ HB). exact H2.
  - intros [a b] [c d] [e f]. simpl. intros H1 H2.
    destruct (ea a c) eqn:E1; destruct (ea c e) eqn:E2.
    + rewrite (spo_eqtrans _ _ HA _ _ _ E1 E2). eapply (spo_trans _ _ HB); eauto.
    + rewrite (spo_eq_left _ _ _ HA _ _ e E1), E2. rewrite (spo_left _ _ HA _ _ e E1). exact H2.
    + assert (E3 : ea a e = ea a c).
      { rewrite (spo_sym _ _ HA a e), (spo_sym _ _ HA a c). symmetry. apply (spo_eq_left _ _ _ HA). exact E2. }
      rewrite E3, E1. rewrite <- (spo_right _ _ HA _ _ a E2). exact H1.
    + pose proof (spo_trans _ _ HA _ _ _ H1 H2) as H3. destruct (ea a e) eqn:E3; auto.
      rewrite (spo_irr _ _ HA _ _ E3) in H3. discriminate.
  - intros [a b] [c d] [e f]. simpl. rewrite andb_true_iff. intros [H1 H2].
    rewrite (spo_eq_left _ _ _ HA _ _ e H1). destruct (ea c e); [apply (spo_left _ _ HB)|apply (spo_left _ _ HA)]; auto.
  - intros [a b] [c d] [e f]. simpl. rewrite andb_true_iff. intros [H1 H2].
    rewrite (spo_sym _ _ HA e a), (spo_sym _ _ HA e c), (spo_eq_left _ _ _ HA _ _ e H1).
    destruct (ea c e); [apply (spo_right _ _ HB)|apply (spo_right _ _ HA)]; auto.
Qed.

Lemma total_lex : forall A B (ea la : A -> A -> bool) (eb lb : B -> B -> bool),
  spo ea la -> total_spo ea la -> total_spo eb lb -> total_spo (lex_eqb ea eb) (lex_ltb ea la lb).
Proof.
  intros A B ea la eb lb HA TA TB [a b] [c d]. unfold lex_eqb, lex_ltb. simpl. intros H1 H2.
  rewrite (spo_sym _ _ HA c a) in H2. destruct (ea a c) eqn:E.
  - simpl. apply TB; auto.
  - rewrite (TA a c H1 H2) in E. discriminate.
Qed.

Lemma spo_pull : forall A B (f : A -> B) (eb lb : B -> B -> bool), spo eb lb ->
  spo (fun x y => eb (f x) (f y)) (fun x y => lb (f x) (f y)).
Proof.
  intros A B f eb lb H. constructor; intros.
  - apply (spo_refl _ _ H).
  - apply (spo_sym _ _ H).
  - eapply (spo_eqtrans _ _ H); eauto.
  - apply (spo_irr _ _ H); auto.
  - eapply (spo_trans _ _ H); eauto.
  - apply (spo_left _ _ H); auto.
  - apply (spo_right _ _ H); auto.
Qed.
Lemma total_pull : forall A B (f : A -> B) (eb lb : B -> B -> bool), total_spo eb lb ->
  total_spo (fun x y => eb (f x) (f y)) (fun x y => lb (f x) (f y)).
Proof. intros A B f eb lb H x y. apply H. Qed.

Lemma spo_ext : forall A (e1 l1 e2 l2 : A -> A -> bool),
  (forall x y, e1 x y = e2 x y) -> (forall x y, l1 x y = l2 x y) -> spo e1 l1 -> spo e2 l2.
Proof.
  intros A e1 l1 e2 l2 He Hl H. constructor; intros; repeat rewrite <- He in *; repeat rewrite <- Hl in *.
  - apply (spo_refl _ _ H).
  - apply (spo_sym _ _ H).
  - eapply (spo_eqtrans _ _ H); eauto.
  - apply (spo_irr _ _ H); auto.
  - eapply (spo_trans _ _ H); eauto.
  - apply (spo_left _ _ H); auto.
  - apply (spo_right _ _ H); auto.
Qed.

Lemma spo_N : spo N.eqb N.ltb.
Proof.
  constructor; intros.
  - apply N.eqb_refl.
  - apply N.eqb_sym.
  - apply N.eqb_eq in H, H0. apply N.eqb_eq. congruence.
  - apply N.eqb_eq in H. subst. apply N.ltb_irrefl.
  - apply N.ltb_lt in H, H0. apply N.ltb_lt. lia.
  - apply N.eqb_eq in H. subst. reflexivity.
  - apply N.eqb_eq in H. subst. reflexivity.
Qed.
Lemma total_N : total_spo N.eqb N.ltb.
Proof. intros x y H1 H2. apply N.ltb_ge in H1, H2. apply N.eqb_eq. lia. Qed.

(** An order whose equality is Leibniz equality. *)
Lemma spo_leibniz : forall A (eqb ltb : A -> A -> bool),
  (forall x y, eqb x y = true <-> x = y) -> (forall x, ltb x x = false) ->
  (forall x y z, ltb x y = true -> ltb y z = true -> ltb x z = true) -> spo eqb ltb.
Proof.
  intros A eqb ltb E I T. constructor; intros.
  - apply E. reflexivity.
  - destruct (eqb x y) eqn:H1; destruct (eqb y x) eqn:H2; auto.
    + assert (y = x) as H3 by (symmetry; apply E; exact H1). apply E in H3. congruence.
    + assert (x = y) as H3 by (symmetry; apply E; exact H2). apply E in H3. congruence.
  - apply E in H, H0. apply E. congruence.
  - apply E in H. subst. apply I.
  - eauto.
  - apply E in H. subst. reflexivity.
  - apply E in H. subst. reflexivity.
Qed.

Lemma spo_str : spo str_eqb str_ltb.
Proof. apply spo_leibniz; [apply str_eqb_eq|apply str_ltb_irrefl|apply str_ltb_trans]. Qed.
Lemma total_str : total_spo str_eqb str_ltb.
Proof. intros x y H1 H2. apply str_eqb_eq. apply str_ltb_total; auto. Qed.

(** [None] below every [Some] *)
Definition none_first {A} (ltb : A -> A -> bool) (a b : option A) : bool :=
  match a, b with None, Some _ => true | Some x, Some y => ltb x y | _, None => false end.
(** [None] above every [Some] *)
Definition none_last {A} (ltb : A -> A -> bool) (a b : option A) : bool :=
  match a, b with Some _, None => true | Some x, Some y => ltb x y | None, _ => false end.

Lemma spo_none_first : forall A (eqb ltb : A -> A -> bool), spo eqb ltb -> spo (opt_eqb eqb) (none_first ltb).
Proof.
  intros A eqb ltb H. constructor.
  - intros [x|]; simpl; auto. apply (spo_refl _ _ H).
  - intros [x|] [y|]; simpl; auto. apply (spo_sym _ _ H).
  - intros [x|] [y|] [z|]; simpl; auto; try discriminate. apply (spo_eqtrans _ _ H).
  - intros [x|] [y|]; simpl; auto; try discriminate. apply (spo_irr _ _ H).
  - intros [x|] [y|] [z|]; simpl; auto; try discriminate. apply (spo_trans _ _ H).
  - intros [x|] [y|] [z|]; simpl; auto; try discriminate. apply (spo_left _ _ H).
  - intros [x|] [y|] [z|]; simpl; auto; try discriminate. apply (spo_right _ _ H).
Qed.
Lemma spo_none_last : forall A (eqb ltb : A -> A -> bool), spo eqb ltb -> spo (opt_eqb eqb) (none_last ltb).
Proof.
  intros A eqb ltb H. constructor.
  - intros [x|]; simpl; auto. apply (spo_refl _ _ H).
  - intros [x|] [y|]; simpl; auto. apply (spo_sym _ _ H).
  - intros [x|] [y|] [z|]; simpl; auto; try discriminate. apply (spo_eqtrans _ _ H).
  - intros [x|] [y|]; simpl; auto; try discriminate. apply (spo_irr _ _ H).
  - intros [x|] [y|] [z|]; simpl; auto; try discriminate. apply (spo_trans _ _ H).
  - intros [x|] [y|] [z|]; simpl; auto; try discriminate. apply (spo_left _ _ H).
  - intros [x|] [y|] [z|]; simpl; auto; try discriminate. apply (spo_right _ _ H).
Qed.
Lemma total_none_first : forall A (eqb ltb : A -> A -> bool), total_spo eqb ltb -> total_spo (opt_eqb eqb) (none_first ltb).
Proof. intros A eqb ltb H [x|] [y|]; simpl; auto; try discriminate. Qed.
Lemma total_none_last : forall A (eqb ltb : A -> A -> bool), total_spo eqb ltb -> total_spo (opt_eqb eqb) (none_last ltb).
Proof. intros A eqb ltb H [x|] [y|]; simpl; auto; try discriminate. Qed.
