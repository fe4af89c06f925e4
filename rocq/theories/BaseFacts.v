(** Facts about the vocabulary of Base.v *)
From Coq Require Import String Ascii List Bool NArith Arith Lia.
From Coq Require Import DecimalString DecimalN DecimalFacts Decimal DecimalPos.
From Verif Require Import Base.
Import ListNotations.

Lemma str_eqb_eq : forall a b, str_eqb a b = true <-> a = b.
Proof.
  induction a as [|x a IH]; destruct b as [|y b]; simpl; split; intro H; try discriminate; auto.
  - apply andb_true_iff in H as [H1 H2]. apply Ascii.eqb_eq in H1. apply IH in H2. congruence.
  - injection H as -> ->. rewrite Ascii.eqb_refl. apply IH. reflexivity.
Qed.
Lemma str_eqb_refl : forall a, str_eqb a a = true.
Proof. intro a. apply str_eqb_eq. reflexivity. Qed.
Lemma str_eqb_neq : forall a b, str_eqb a b = false <-> a <> b.
Proof.
  intros a b. split; intro H.
  - intros E. subst. rewrite str_eqb_refl in H. discriminate.
  - destruct (str_eqb a b) eqn:E; auto. apply str_eqb_eq in E. contradiction.
Qed.
Lemma str_eqb_sym : forall a b, str_eqb a b = str_eqb b a.
Proof.
  intros a b. destruct (str_eqb a b) eqn:E.
  - apply str_eqb_eq in E. subst. rewrite str_eqb_refl. reflexivity.
  - symmetry. apply str_eqb_neq. apply str_eqb_neq in E. congruence.
Qed.
Definition str_eq_dec : forall a b : str, {a = b} + {a <> b} := list_eq_dec ascii_dec.

Lemma code_inj : forall x y, code x = code y -> x = y.
Proof. unfold code. intros x y H. rewrite <- (ascii_N_embedding x), <- (ascii_N_embedding y), H. reflexivity. Qed.

Lemma str_ltb_irrefl : forall a, str_ltb a a = false.
Proof. induction a as [|x a IH]; simpl; auto. rewrite Ascii.eqb_refl. exact IH. Qed.

Lemma str_ltb_trans : forall a b c, str_ltb a b = true -> str_ltb b c = true -> str_ltb a c = true.
Proof.
  induction a as [|x a IH]; intros [|y b] [|z c]; simpl; intros H1 H2; try discriminate; auto.
  destruct (Ascii.eqb x y) eqn:Exy.
  - apply Ascii.eqb_eq in Exy. subst. destruct (Ascii.eqb y z); eauto.
  - destruct (Ascii.eqb y z) eqn:Eyz.
    + apply Ascii.eqb_eq in Eyz. subst. rewrite Exy. exact H1.
    + apply N.ltb_lt in H1, H2. destruct (Ascii.eqb x z) eqn:Exz.
      * apply Ascii.eqb_eq in Exz. subst. lia.
      * apply N.ltb_lt. lia.
Qed.

Lemma str_ltb_total : forall a b, str_ltb a b = false -> str_ltb b a = false -> a = b.
Proof.
  induction a as [|x a IH]; intros [|y b]; simpl; intros H1 H2; try discriminate; auto.
  destruct (Ascii.eqb x y) eqn:E.
  - apply Ascii.eqb_eq in E. subst. rewrite Ascii.eqb_refl in H2. f_equal. auto.
  - rewrite Ascii.eqb_sym, E in H2. apply N.ltb_ge in H1, H2.
    assert (x = y) by (apply code_inj; lia). subst. rewrite Ascii.eqb_refl in E. discriminate.
Qed.

Lemma str_ltb_asym : forall a b, str_ltb a b = true -> str_ltb b a = false.
Proof.
  intros a b H. destruct (str_ltb b a) eqn:E; auto.
  rewrite <- (str_ltb_irrefl a). symmetry. eapply str_ltb_trans; eauto.
Qed.

Lemma opt_eqb_eq : forall A (eqb : A -> A -> bool), (forall x y, eqb x y = true <-> x = y) ->
  forall a b, opt_eqb eqb a b = true <-> a = b.
Proof.
  intros A eqb H [x|] [y|]; simpl; split; intro E; try discriminate; auto.
  - apply H in E. congruence.
  - apply H. congruence.
Qed.

Lemma list_eqb_eq : forall A (eqb : A -> A -> bool), (forall x y, eqb x y = true <-> x = y) ->
  forall a b, list_eqb eqb a b = true <-> a = b.
Proof.
  intros A eqb H. induction a as [|x a IH]; destruct b as [|y b]; simpl; split; intro E; try discriminate; auto.
  - apply andb_true_iff in E as [E1 E2]. apply H in E1. apply IH in E2. congruence.
  - injection E as -> ->. apply andb_true_iff. split; [apply H|apply IH]; reflexivity.
Qed.

(** ** Strings: join and split *)
Lemma split_on_nonempty : forall c s, split_on c s <> [].
Proof. intros c s. destruct s; simpl; [discriminate|]. destruct (Ascii.eqb a c); [discriminate|]. destruct (split_on c s); discriminate. Qed.

Lemma join_split : forall c s, join [c] (split_on c s) = s.
Proof.
  induction s as [|x s IH]; simpl; auto.
  destruct (Ascii.eqb x c) eqn:E.
  - apply Ascii.eqb_eq in E. subst x. pose proof (split_on_nonempty c s) as Hn.
    destruct (split_on c s) as [|w ws] eqn:Es; [contradiction|].
    change (join [c] ([] :: w :: ws)) with ([] ++ [c] ++ join [c] (w :: ws)). simpl. f_equal. exact IH.
  - pose proof (split_on_nonempty c s) as Hn. destruct (split_on c s) as [|w ws] eqn:Es; [contradiction|].
    destruct ws as [|w' ws].
    + simpl in *. congruence.
    + change (join [c] ((x :: w) :: w' :: ws)) with ((x :: w) ++ [c] ++ join [c] (w' :: ws)).
      change (join [c] (w :: w' :: ws)) with (w ++ [c] ++ join [c] (w' :: ws)) in IH.
      rewrite <- IH. reflexivity.
Qed.

Lemma split_on_inj : forall c a b, split_on c a = split_on c b -> a = b.
Proof. intros c a b H. rewrite <- (join_split c a), <- (join_split c b), H. reflexivity. Qed.

Definition no_char (c : ascii) (s : str) : Prop := ~ In c s.

Lemma split_on_no_char : forall c s w, In w (split_on c s) -> ~ In c w.
Proof.
  induction s as [|x s IH]; simpl; intros w H.
  - destruct H as [<-|[]]. auto.
  - destruct (Ascii.eqb x c) eqn:E.
    + destruct H as [<-|H]; [auto|]. apply IH. exact H.
    + destruct (split_on c s) as [|w' ws].
      * destruct H as [<-|[]]. intros [->|[]]. rewrite Ascii.eqb_refl in E. discriminate.
      * destruct H as [<-|H].
        -- intros [->|Hin]; [rewrite Ascii.eqb_refl in E; discriminate|]. apply (IH w'); simpl; auto.
        -- apply IH. simpl. auto.
Qed.

Lemma split_on_single : forall c s, ~ In c s -> split_on c s = [s].
Proof.
  induction s as [|x s IH]; simpl; intro H; auto.
  destruct (Ascii.eqb x c) eqn:E.
  - apply Ascii.eqb_eq in E. subst. exfalso. auto.
  - rewrite IH by auto. reflexivity.
Qed.

Lemma split_on_app : forall c w s, ~ In c w -> split_on c (w ++ c :: s) = w :: split_on c s.
Proof.
  induction w as [|x w IH]; simpl; intros s H.
  - rewrite Ascii.eqb_refl. reflexivity.
  - destruct (Ascii.eqb x c) eqn:E.
    + apply Ascii.eqb_eq in E. subst. exfalso. auto.
    + rewrite IH by auto. reflexivity.
Qed.

Lemma split_join : forall c l, l <> [] -> (forall w, In w l -> ~ In c w) -> split_on c (join [c] l) = l.
Proof.
  intros c l. induction l as [|w l IH]; intros Hn H; [contradiction|].
  destruct l as [|w' l].
  - simpl. apply split_on_single. apply H. simpl. auto.
  - change (join [c] (w :: w' :: l)) with (w ++ c :: join [c] (w' :: l)).
    rewrite split_on_app by (apply H; simpl; auto). f_equal. apply IH; [discriminate|].
    intros. apply H. simpl. auto.
Qed.

Lemma starts_with_iff : forall p s, starts_with p s = true <-> exists r, s = p ++ r.
Proof.
  induction p as [|x p IH]; intros s; simpl.
  - split; eauto.
  - destruct s as [|y s]; split; intro H; try discriminate.
    + destruct H as [r H]. discriminate.
    + apply andb_true_iff in H as [H1 H2]. apply Ascii.eqb_eq in H1. apply IH in H2 as [r ->]. subst. eauto.
    + destruct H as [r H]. injection H as -> ->. rewrite Ascii.eqb_refl. apply IH. eauto.
Qed.

Lemma starts_with_app : forall p r, starts_with p (p ++ r) = true.
Proof. intros. apply starts_with_iff. eauto. Qed.

(** ** Decimal numbers *)
Fixpoint digits_uint (d : uint) : list N :=
  match d with
  | Nil => []
  | D0 d => 0 :: digits_uint d | D1 d => 1 :: digits_uint d | D2 d => 2 :: digits_uint d
  | D3 d => 3 :: digits_uint d | D4 d => 4 :: digits_uint d | D5 d => 5 :: digits_uint d
  | D6 d => 6 :: digits_uint d | D7 d => 7 :: digits_uint d | D8 d => 8 :: digits_uint d
  | D9 d => 9 :: digits_uint d
  end%N.

Lemma of_uint_acc_fold : forall d p,
  Npos (Pos.of_uint_acc d p) = fold_left (fun acc k => acc * 10 + k)%N (digits_uint d) (Npos p).
Proof.
  induction d; intros p; cbn [Pos.of_uint_acc digits_uint fold_left]; try reflexivity;
    rewrite IHd; f_equal; rewrite N.mul_comm; try reflexivity; rewrite N.add_comm; reflexivity.
Qed.
Lemma of_uint_fold : forall d, N.of_uint d = fold_left (fun acc k => acc * 10 + k)%N (digits_uint d) 0%N.
Proof.
  unfold N.of_uint. induction d; simpl; auto; apply of_uint_acc_fold.
Qed.

Lemma read_fold_string : forall d acc,
  fold_left (fun acc c => acc * 10 + digit_val c)%N (list_ascii_of_string (NilEmpty.string_of_uint d)) acc
  = fold_left (fun acc k => acc * 10 + k)%N (digits_uint d) acc.
Proof. induction d; intros acc; simpl; auto; rewrite IHd; reflexivity. Qed.

Lemma nilzero_unfold : forall n, NilZero.string_of_uint (N.to_uint n) = NilEmpty.string_of_uint (N.to_uint n).
Proof.
  intro n. unfold NilZero.string_of_uint. destruct (N.to_uint n) eqn:E; auto.
  exfalso. destruct n as [|p]; simpl in E; [discriminate|].
  apply (DecimalPos.Unsigned.to_uint_nonnil p E).
Qed.

Lemma read_show_N : forall n, read_N (show_N n) = n.
Proof.
  intro n. unfold read_N, show_N. rewrite nilzero_unfold, read_fold_string, <- of_uint_fold.
  apply DecimalN.Unsigned.of_to.
Qed.

Lemma uint_string_digits : forall d, forallb is_digit (list_ascii_of_string (NilEmpty.string_of_uint d)) = true.
Proof. induction d; simpl; auto. Qed.

Lemma show_N_digits : forall n, forallb is_digit (show_N n) = true.
Proof. intro n. unfold show_N. rewrite nilzero_unfold. apply uint_string_digits. Qed.

Lemma show_N_nonempty : forall n, show_N n <> [].
Proof.
  intro n. unfold show_N. rewrite nilzero_unfold. destruct (N.to_uint n) eqn:E; simpl; try discriminate.
  exfalso. destruct n as [|p]; simpl in E; [discriminate|]. apply (DecimalPos.Unsigned.to_uint_nonnil p E).
Qed.

Lemma show_N_all_digits : forall n, all_digits (show_N n) = true.
Proof.
  intro n. unfold all_digits. pose proof (show_N_nonempty n) as H. pose proof (show_N_digits n) as D.
  destruct (show_N n); [contradiction|exact D].
Qed.

Lemma show_N_inj : forall a b, show_N a = show_N b -> a = b.
Proof. intros a b H. rewrite <- (read_show_N a), <- (read_show_N b), H. reflexivity. Qed.

(** ** Dictionaries *)
Lemma dict_get_set_same : forall V k (v : V) d, dict_get k (dict_set k v d) = Some v.
Proof.
  induction d as [|[k' v'] d IH]; simpl.
  - rewrite str_eqb_refl. reflexivity.
  - destruct (str_eqb k k') eqn:E; simpl; rewrite E; auto.
Qed.
Lemma dict_get_set_other : forall V k k2 (v : V) d, k2 <> k -> dict_get k2 (dict_set k v d) = dict_get k2 d.
Proof.
  induction d as [|[k' v'] d IH]; simpl; intro H.
  - apply str_eqb_neq in H. rewrite H. reflexivity.
  - destruct (str_eqb k k') eqn:E; simpl.
    + apply str_eqb_eq in E. subst. apply str_eqb_neq in H. rewrite H. reflexivity.
    + destruct (str_eqb k2 k'); auto.
Qed.
Lemma dict_get_del_other : forall V k k2 (d : list (str * V)), k2 <> k -> dict_get k2 (dict_del k d) = dict_get k2 d.
Proof.
  induction d as [|[k' v'] d IH]; simpl; intro H; auto.
  destruct (str_eqb k k') eqn:E; simpl.
  - apply str_eqb_eq in E. subst. apply str_eqb_neq in H. rewrite H. reflexivity.
  - destruct (str_eqb k2 k'); auto.
Qed.
Lemma dict_get_none : forall V k (d : list (str * V)), dict_get k d = None <-> ~ In k (map fst d).
Proof.
  induction d as [|[k' v'] d IH]; simpl; [tauto|].
  destruct (str_eqb k k') eqn:E.
  - apply str_eqb_eq in E. subst. split; [discriminate|]. intro H. exfalso. auto.
  - apply str_eqb_neq in E. rewrite IH. intuition congruence.
Qed.
Lemma dict_get_del_same : forall V k (d : list (str * V)), NoDup (map fst d) -> dict_get k (dict_del k d) = None.
Proof.
  induction d as [|[k' v'] d IH]; simpl; intro H; auto.
  inversion H as [|? ? Hn Hd]; subst.
  destruct (str_eqb k k') eqn:E; simpl.
  - apply str_eqb_eq in E. subst. apply dict_get_none. exact Hn.
  - rewrite E. auto.
Qed.
Lemma dict_get_in : forall V k (v : V) d, dict_get k d = Some v -> In (k, v) d.
Proof.
  induction d as [|[k' v'] d IH]; simpl; intro H; [discriminate|].
  destruct (str_eqb k k') eqn:E.
  - apply str_eqb_eq in E. injection H as ->. subst. auto.
  - auto.
Qed.
Lemma dict_set_keys : forall V k (v : V) d, NoDup (map fst d) -> NoDup (map fst (dict_set k v d)).
Proof.
  induction d as [|[k' v'] d IH]; simpl; intro H.
  - constructor; auto.
  - inversion H as [|? ? Hn Hd]; subst. destruct (str_eqb k k') eqn:E; simpl.
    + constructor; auto.
    + constructor; auto. intro Hin. apply Hn. clear - Hin E.
      induction d as [|[k2 v2] d IH]; simpl in *.
      * destruct Hin as [->|[]]. rewrite str_eqb_refl in E. discriminate.
      * destruct (str_eqb k k2) eqn:E2; simpl in *; intuition.
Qed.
