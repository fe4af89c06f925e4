From Coq Require Import String Ascii List Bool NArith Arith Lia QArith Lqa.
From Verif Require Import Base BaseFacts ParserFacts TagsModel TagsSpec.
Import ListNotations.
Open Scope string_scope.
Open Scope nat_scope.
Open Scope list_scope.
Open Scope bool_scope.

(** ** numbers *)
Lemma int_of_ok : forall s n, int_of s = Ok n <-> all_digits s = true /\ n = read_N s.
Proof. intros s n. unfold int_of. destruct (all_digits s); split; intro H; [injection H as <-; auto|destruct H as [_ ->]; reflexivity|discriminate|destruct H; discriminate]. Qed.
Lemma ints_ok : forall l ns, ints l = Ok ns <-> Forall (fun s => all_digits s = true) l /\ ns = map read_N l.
Proof.
  induction l as [|x l IH]; intros ns; cbn [ints map]; split; intro H.
  - injection H as <-. split; [constructor|reflexivity].
  - destruct H as [_ ->]. reflexivity.
  - unfold bind in H. destruct (int_of x) as [n|] eqn:E; [|discriminate]. apply int_of_ok in E. destruct E as [D ->].
    destruct (ints l) as [m|] eqn:E2; [|discriminate]. injection H as <-. destruct (proj1 (IH m) eq_refl) as [F ->]. split; [constructor; assumption|reflexivity].
  - destruct H as [F ->]. inversion F as [|? ? D F2]. subst. unfold bind.
    rewrite (proj2 (int_of_ok x (read_N x)) (conj D eq_refl)). rewrite (proj2 (IH _) (conj F2 eq_refl)). reflexivity.
Qed.
Lemma pair_ltb_false : forall a b, pair_ltb a b = false <-> not_newer b a.
Proof.
  intros [a1 a2] [b1 b2]. unfold pair_ltb, not_newer. cbn [fst snd]. split; intro H.
  - apply orb_false_iff in H. destruct H as [H1 H2]. apply N.ltb_ge in H1. apply andb_false_iff in H2. destruct (N.eq_dec a1 b1) as [E|NE].
    + right. split; [auto|]. destruct H2 as [H2|H2]; [apply N.eqb_neq in H2; contradiction|apply N.ltb_ge in H2; exact H2].
    + left. lia.
  - apply orb_false_iff. split; [apply N.ltb_ge; lia|]. apply andb_false_iff. destruct (N.eq_dec a1 b1) as [E|NE]; [right; apply N.ltb_ge; lia|left; apply N.eqb_neq; exact NE].
Qed.
Lemma pair_ltb_true : forall a b, pair_ltb a b = true <-> ~ not_newer b a.
Proof. intros a b. destruct (pair_ltb a b) eqn:E; split; intro H; auto; try discriminate.
  - intro X. apply pair_ltb_false in X. congruence.
  - exfalso. apply H. apply pair_ltb_false. exact E. Qed.
Lemma digits_forall : forall s, all_digits s = true -> s <> [] /\ forall c, In c s -> is_digit c = true.
Proof. intros s H. unfold all_digits in H. destruct s; [discriminate|]. split; [discriminate|]. apply forallb_forall. exact H. Qed.
Lemma digits_no_us : forall s, all_digits s = true -> ~ In "_"%char s.
Proof. intros s H I. apply digits_forall in H. destruct H as [_ H]. specialize (H _ I). discriminate. Qed.
Lemma forall_no_us : forall l, Forall (fun s => all_digits s = true) l -> forall w, In w l -> ~ In "_"%char w.
Proof. intros l F w I. apply digits_no_us. rewrite Forall_forall in F. apply F. exact I. Qed.

(** ** interpreters *)
Lemma ipt_version_text : forall m t v, ipt_version m t = Ok v <-> version_text (snd (m_version m)) t v.
Proof.
  intros m t v. split.
  - intro H. destruct t as [|c [|d r]]; cbn [ipt_version] in H; [discriminate| |].
    + unfold bind in H. destruct (int_of [c]) eqn:E; [|discriminate]. injection H as <-. apply int_of_ok in E. destruct E as [D ->].
      constructor. cbn in D. rewrite andb_true_r in D. exact D.
    + destruct (existsb (Ascii.eqb "_") (c :: d :: r)) eqn:U.
      * unfold bind in H. destruct (ints (split_on "_" (c :: d :: r))) as [ns|] eqn:E; [|discriminate]. apply ints_ok in E. destruct E as [F ->].
        pose proof (join_split "_"%char (c :: d :: r)) as J. destruct (split_on "_" (c :: d :: r)) as [|a [|b more]]; [discriminate|discriminate|].
        cbn [map] in H. injection H as <-. rewrite <- J. inversion F as [|? ? A F2]. inversion F2 as [|? ? B F3]. subst. constructor; assumption.
      * unfold bind in H. destruct (int_of [c]) eqn:E1; [|discriminate]. destruct (int_of (d :: r)) eqn:E2; [|discriminate]. injection H as <-.
        apply int_of_ok in E1, E2. destruct E1 as [D1 ->]. destruct E2 as [D2 ->]. constructor; [|exact D2]. cbn in D1. rewrite andb_true_r in D1. exact D1.
  - intro H. destruct H as [d D|d ds D DS|a b more A B M].
    + cbn [ipt_version]. unfold bind. rewrite (proj2 (int_of_ok [d] _) (conj (eq_trans (andb_true_r _) D) eq_refl)). reflexivity.
    + destruct ds as [|x ds]; [discriminate|]. cbn [ipt_version].
      assert (U : existsb (Ascii.eqb "_") (d :: x :: ds) = false).
      { destruct (existsb _ _) eqn:E; [|reflexivity]. apply existsb_exists in E. destruct E as [c [I E]]. apply Ascii.eqb_eq in E. subst c.
        destruct I as [I|I]; [subst d; discriminate|]. apply digits_no_us in DS. contradiction. }
      rewrite U. unfold bind. rewrite (proj2 (int_of_ok [d] _) (conj (eq_trans (andb_true_r _) D) eq_refl)).
      rewrite (proj2 (int_of_ok (x :: ds) _) (conj DS eq_refl)). reflexivity.
    + assert (S : split_on "_" (join us (a :: b :: more)) = a :: b :: more).
      { apply split_join; [discriminate|]. apply forall_no_us. constructor; [exact A|]. constructor; assumption. }
      assert (U : In "_"%char (join us (a :: b :: more))) by (cbn [join]; apply in_or_app; right; left; reflexivity).
      assert (V : existsb (Ascii.eqb "_") (join us (a :: b :: more)) = true) by (apply existsb_exists; exists "_"%char; split; [exact U|reflexivity]).
      destruct (join us (a :: b :: more)) as [|c [|d r]] eqn:J.
      * destruct U.
      * exfalso. destruct U as [U|[]]. subst c. change (split_on "_" ["_"%char]) with [@nil ascii; @nil ascii] in S. injection S as <- _ _. discriminate.
      * change (ipt_version m (c :: d :: r)) with (if existsb (Ascii.eqb "_") (c :: d :: r)
          then do ns <- ints (split_on "_" (c :: d :: r)); match ns with a :: b :: _ => Ok (a, b) | _ => Err IndexError end
          else do a <- int_of [c]; do b <- int_of (d :: r); Ok (a, b)). rewrite V, S. unfold bind.
        rewrite (proj2 (ints_ok (a :: b :: more) _) (conj (Forall_cons _ A (Forall_cons _ B M)) eq_refl)). reflexivity.
Qed.
Lemma version_chars_iff : forall t, version_chars t = true <-> t <> [] /\ Forall (fun c => is_digit c = true \/ c = "_"%char) t.
Proof.
  intros t. unfold version_chars. rewrite andb_true_iff, negb_true_iff, str_eqb_neq, forallb_forall, Forall_forall. split; intros [A B]; (split; [exact A|]); intros c I; specialize (B c I).
  - apply orb_true_iff in B. destruct B as [B|B]; [left; exact B|right; apply Ascii.eqb_eq; exact B].
  - apply orb_true_iff. destruct B as [B| ->]; [left; exact B|right; apply Ascii.eqb_refl].
Qed.
Lemma version_text_chars : forall n t v, version_text n t v -> version_chars t = true.
Proof.
  intros n t v H. apply version_chars_iff. destruct H as [d D|d ds D DS|a b more A B M].
  - split; [discriminate|]. constructor; [left; exact D|constructor].
  - split; [discriminate|]. constructor; [left; exact D|]. apply Forall_forall. intros c I. left. apply (proj2 (digits_forall ds DS)). exact I.
  - split.
    + cbn [join]. destruct a; [discriminate|]. discriminate.
    + assert (G : forall l, Forall (fun s => all_digits s = true) l -> Forall (fun c => is_digit c = true \/ c = "_"%char) (join us l)).
      { induction l as [|x l IH]; intro F; [constructor|]. inversion F as [|? ? X F2]. subst. apply Forall_forall. intros c I.
        assert (I2 : In c x \/ c = "_"%char \/ In c (join us l)).
        { destruct l as [|y l]; [left; exact I|]. cbn [join] in I. apply in_app_or in I. destruct I as [I|I]; [left; exact I|].
          apply in_app_or in I. destruct I as [[I|[]]|I]; [right; left; symmetry; exact I|right; right; exact I]. }
        destruct I2 as [I2|[I2|I2]]; [left; apply (proj2 (digits_forall x X)); exact I2|right; exact I2|].
        specialize (IH F2). rewrite Forall_forall in IH. apply IH. exact I2. }
      apply G. constructor; [exact A|]. constructor; assumption.
Qed.
Definition choose (m : machine) (n : N) (v : str) : res (option (list frac)) :=
  do iv <- ipt_version m v;
  if negb (fst (m_version m) =? fst iv)%N || (snd (m_version m) <? snd iv)%N then Ok None
  else Ok (Some [whole n; nth 1 (vdscore (m_version m) iv) (whole 0)]).
Lemma interpreter_score_eq : forall m i, interpreter_score m i =
  if starts_with (lit "py") i && version_chars (skipn 2 i) then choose m 0%N (skipn 2 i)
  else if starts_with (m_ipt m) i && version_chars (skipn (length (m_ipt m)) i) then choose m 1%N (skipn (length (m_ipt m)) i) else Ok None.
Proof. reflexivity. Qed.
Definition fits (m : machine) (t : str) : Prop :=
  exists v, version_text (snd (m_version m)) t v /\ fst v = fst (m_version m) /\ (snd v <= snd (m_version m))%N.
Lemma choose_sound : forall m n t s, choose m n t = Ok (Some s) -> fits m t.
Proof.
  intros m n t s H. unfold choose, bind in H. destruct (ipt_version m t) as [v|] eqn:E; [|discriminate]. apply ipt_version_text in E.
  destruct (_ || _) eqn:B; [discriminate|]. apply orb_false_iff in B. destruct B as [B1 B2]. apply negb_false_iff, N.eqb_eq in B1. apply N.ltb_ge in B2.
  exists v. auto.
Qed.
Lemma choose_complete : forall m n t, fits m t -> exists s, choose m n t = Ok (Some s).
Proof.
  intros m n t [v [V [E L]]]. unfold choose, bind. apply ipt_version_text in V. rewrite V.
  assert (B : negb (fst (m_version m) =? fst v)%N || (snd (m_version m) <? snd v)%N = false).
  { rewrite E, N.eqb_refl. cbn [negb orb]. apply N.ltb_ge. exact L. }
  rewrite B. eexists. reflexivity.
Qed.
Lemma choose_total : forall m n t, (exists v, version_text (snd (m_version m)) t v) -> exists r, choose m n t = Ok r.
Proof. intros m n t [v V]. unfold choose, bind. apply ipt_version_text in V. rewrite V. destruct (_ || _); eexists; reflexivity. Qed.
Lemma skip_prefix : forall (p t : str), skipn (length p) (p ++ t) = t.
Proof. induction p as [|x p IH]; intro t; [reflexivity|]. apply IH. Qed.
Lemma interpreter_sound : forall m i s, interpreter_score m i = Ok (Some s) -> interpreter_ok m i.
Proof.
  intros m i s H. rewrite interpreter_score_eq in H.
  destruct (starts_with (lit "py") i && _) eqn:B.
  - apply andb_true_iff in B. destruct B as [B _]. apply starts_with_iff in B. destruct B as [t ->].
    change 2 with (length (lit "py")) in H. rewrite skip_prefix in H. apply choose_sound in H. destruct H as [v V]. exists (lit "py"), t, v. tauto.
  - destruct (starts_with (m_ipt m) i && _) eqn:B2; [|discriminate].
    apply andb_true_iff in B2. destruct B2 as [B2 _]. apply starts_with_iff in B2. destruct B2 as [t ->].
    rewrite skip_prefix in H. apply choose_sound in H. destruct H as [v V]. exists (m_ipt m), t, v. tauto.
Qed.
Lemma version_char_not_letter : forall c, is_lower c = true -> (is_digit c = true \/ c = "_"%char) -> False.
Proof. intros c L [D| ->]; [|discriminate]. destruct c as [[|] [|] [|] [|] [|] [|] [|] [|]]; vm_compute in L, D; discriminate. Qed.
(** the two prefixes agree on the version *)
Lemma prefix_agree : forall name t t2, forallb is_lower name = true -> version_chars t = true -> version_chars t2 = true ->
  name ++ t = lit "py" ++ t2 -> t = t2.
Proof.
  intros name t t2 L V V2 E. apply version_chars_iff in V, V2. destruct V as [N V]. destruct V2 as [N2 V2].
  destruct name as [|a [|b name]].
  - exfalso. cbn [app] in E. subst t. inversion V. subst. eapply version_char_not_letter; [|eassumption]. reflexivity.
  - exfalso. cbn in E. injection E as -> E. subst t. inversion V. subst. eapply version_char_not_letter; [|eassumption]. reflexivity.
  - cbn in E. injection E as -> -> E. destruct name as [|c name]; [exact E|]. exfalso. cbn [app] in E. subst t2. inversion V2. subst.
    cbn [forallb] in L. repeat (apply andb_true_iff in L; destruct L as [? L]). eapply version_char_not_letter; [|eassumption]. assumption.
Qed.
Lemma interpreter_complete : forall m i, forallb is_lower (m_ipt m) = true -> interpreter_ok m i -> exists s, interpreter_score m i = Ok (Some s).
Proof.
  intros m i L [name [t [v [NM [-> V]]]]]. rewrite interpreter_score_eq.
  assert (C : version_chars t = true) by (eapply version_text_chars; apply V).
  assert (F : fits m t) by (exists v; tauto).
  destruct (starts_with (lit "py") (name ++ t) && _) eqn:B.
  - apply andb_true_iff in B. destruct B as [B B2]. apply starts_with_iff in B. destruct B as [t2 E]. change 2 with (length (lit "py")) in *. rewrite E, skip_prefix in *.
    assert (t = t2). { destruct NM as [->| ->]; [apply app_inv_head in E; exact E|]. eapply prefix_agree; eassumption. }
    subst t2. apply choose_complete. exact F.
  - destruct NM as [->| ->].
    + exfalso. rewrite starts_with_app in B. change 2 with (length (lit "py")) in *. rewrite skip_prefix, C in B. discriminate.
    + rewrite starts_with_app, skip_prefix, C. apply choose_complete. exact F.
Qed.
Lemma interpreter_total : forall m i, well_formed_interpreter m i -> exists r, interpreter_score m i = Ok r.
Proof.
  intros m i W. rewrite interpreter_score_eq. destruct (starts_with (lit "py") i && _) eqn:B.
  - apply andb_true_iff in B. destruct B as [B B2]. apply starts_with_iff in B. destruct B as [t ->]. change 2 with (length (lit "py")) in *. rewrite skip_prefix in *.
    apply choose_total. apply version_chars_iff in B2. eapply W; [left; reflexivity|reflexivity|apply B2|apply B2].
  - destruct (starts_with (m_ipt m) i && _) eqn:B2; [|eexists; reflexivity].
    apply andb_true_iff in B2. destruct B2 as [B2 B3]. apply starts_with_iff in B2. destruct B2 as [t ->]. rewrite skip_prefix in *.
    apply choose_total. apply version_chars_iff in B3. eapply W; [right; reflexivity|reflexivity|apply B3|apply B3].
Qed.

(** ** abis *)
Lemma index_from_iff : forall l n v, (exists i, index_from n l v = Some i) <-> In v l.
Proof.
  induction l as [|x l IH]; intros n v; cbn [index_from In].
  - split; [intros [i H]; discriminate|tauto].
  - destruct (str_eqb x v) eqn:E.
    + apply str_eqb_eq in E. split; [auto|]. intros _. eexists. reflexivity.
    + apply str_eqb_neq in E. rewrite IH. tauto.
Qed.
Lemma index_iff : forall l v, (exists i, index_of_or_none l v = Some i) <-> In v l.
Proof. intros. apply index_from_iff. Qed.
Lemma abis_iff : forall m a, In a (my_abis m) <-> abi_ok m a.
Proof.
  intros m a. unfold my_abis. rewrite <- in_rev, in_app_iff. unfold abi_ok.
  assert (CP : In a (cpython_abis m) <-> own_abi m a).
  { assert (AS : forall a b c d e f : str, (a ++ b ++ c) ++ d ++ e ++ f = a ++ b ++ c ++ d ++ e ++ f) by (intros; rewrite <- !app_assoc; reflexivity).
    unfold cpython_abis, own_abi, cp. cbv zeta. destruct (pair_ltb (m_version m) (3, 8)%N) eqn:V8.
    - apply pair_ltb_true in V8. split.
      + intros [<-|[]]. right. split; [exact V8|]. exists (if m_debug m then lit "d" else []), (if m_pymalloc m then lit "m" else []), (if pair_ltb (m_version m) (3, 3)%N && m_ucs4 m then lit "u" else []).
        split; [apply AS|]. split; [reflexivity|]. split; [reflexivity|].
        destruct (pair_ltb (m_version m) (3, 3)%N) eqn:V3; rewrite ?pair_ltb_false, ?pair_ltb_true in V3; destruct (m_ucs4 m); cbn [andb]; auto.
      + intros [[X _]|[_ [d [pm [u [-> [-> [-> U]]]]]]]]; [contradiction|]. left.
        assert (E : (if pair_ltb (m_version m) (3, 3)%N && m_ucs4 m then lit "u" else []) = u); [|rewrite <- E; apply AS].
        destruct U as [[-> [-> U]]|[-> [->|U]]].
        * apply pair_ltb_true in U. rewrite U. reflexivity.
        * rewrite andb_false_r. reflexivity.
        * apply pair_ltb_false in U. rewrite U. reflexivity.
    - apply pair_ltb_false in V8. destruct (m_debug m) eqn:D; cbn [In]; rewrite <- ?app_assoc, ?app_nil_r; split.
      + intros [<-|[<-|[]]]; left; auto.
      + intros [[_ [->|[_ ->]]]|[X _]]; auto; contradiction.
      + intros [<-|[]]. left. auto.
      + intros [[_ [->|[X _]]]|[X _]]; [auto|discriminate|contradiction]. }
  destruct (str_eqb (m_ipt m) (lit "cp")) eqn:E.
  - apply str_eqb_eq in E. rewrite in_app_iff, CP. destruct (pair_ltb (m_version m) (3, 2)%N) eqn:V2; rewrite ?pair_ltb_false, ?pair_ltb_true in V2; cbn [In].
    + split; [intros [[H|[]]|[<-|[]]]; auto|]. intros [->|[[_ [H|[_ H]]]|[X _]]]; auto; contradiction.
    + split; [intros [[H|[<-|[]]]|[<-|[]]]; auto 6|]. intros [->|[[_ [H|[-> H]]]|[X _]]]; auto; contradiction.
  - apply str_eqb_neq in E. cbn [In]. split.
    + intros [H|[<-|[]]]; [|auto]. right. right. split; [exact E|]. destruct (m_soabi m) as [[|c s]|]; [destruct H| |destruct H]. destruct H as [<-|[]].
      exists (c :: s). split; [reflexivity|]. split; [discriminate|reflexivity].
    + intros [->|[[X _]|[_ [s [-> [N ->]]]]]]; [auto|contradiction|]. left. destruct s as [|c s]; [contradiction|]. left. reflexivity.
Qed.

(** ** platforms *)
Lemma ends_with_iff : forall x s, ends_with x s = true <-> exists r, s = r ++ x.
Proof.
  intros x s. unfold ends_with. rewrite starts_with_iff. split; intros [r H].
  - exists (rev r). apply (f_equal (@rev ascii)) in H. rewrite rev_involutive in H. rewrite H, rev_app_distr, rev_involutive. reflexivity.
  - exists (rev r). rewrite H, rev_app_distr. reflexivity.
Qed.
Lemma cut_name : forall (name arch : str), firstn (length (name ++ us ++ arch) - (length arch + 1)) (name ++ us ++ arch) = name.
Proof.
  intros name arch. assert (L : length (name ++ us ++ arch) - (length arch + 1) = length name + 0) by (rewrite !app_length; cbn [us length lit list_ascii_of_string]; lia).
  rewrite L, firstn_app_2. cbn [firstn]. apply app_nil_r.
Qed.
Lemma split_max_S : forall n c s, split_max (S n) c s = match cut_at c s with Some (a, b) => a :: split_max n c b | None => [s] end.
Proof. reflexivity. Qed.
Lemma cut_at_app : forall c a b, ~ In c a -> cut_at c (a ++ c :: b) = Some (a, b).
Proof.
  induction a as [|x a IH]; intros b N; cbn [app cut_at].
  - rewrite Ascii.eqb_refl. reflexivity.
  - destruct (Ascii.eqb x c) eqn:E; [apply Ascii.eqb_eq in E; exfalso; apply N; left; exact E|]. rewrite IH; [reflexivity|]. intro I. apply N. right. exact I.
Qed.
Lemma cut_at_some : forall c s a b, cut_at c s = Some (a, b) -> s = a ++ c :: b /\ ~ In c a.
Proof.
  induction s as [|x s IH]; intros a b H; cbn [cut_at] in H; [discriminate|]. destruct (Ascii.eqb x c) eqn:E.
  - apply Ascii.eqb_eq in E. injection H as <- <-. subst x. split; [reflexivity|intros []].
  - destruct (cut_at c s) as [[a2 b2]|]; [|discriminate]. injection H as <- <-. destruct (IH _ _ eq_refl) as [-> N]. split; [reflexivity|].
    intros [I|I]; [subst x; rewrite Ascii.eqb_refl in E; discriminate|contradiction].
Qed.
Lemma cut_at_none : forall c s, cut_at c s = None -> ~ In c s.
Proof.
  induction s as [|x s IH]; intros H I; cbn [cut_at] in H; [destruct I|]. destruct (Ascii.eqb x c) eqn:E; [discriminate|].
  destruct (cut_at c s) as [[a b]|]; [discriminate|]. destruct I as [I|I]; [subst x; rewrite Ascii.eqb_refl in E; discriminate|]. apply IH; auto.
Qed.
Lemma linux_name_eq : forall m, my_linux m = linux_name m.
Proof.
  intro m. unfold my_linux, linux_name, my_platform, normalize_string. cbv zeta. destruct (m_32bit m); [|reflexivity]. cbn [andb]. reflexivity.
Qed.
Lemma my_arch_some : forall m arch, my_arch m = Some arch <-> exists os, linux_name m = os ++ us ++ arch /\ ~ In "_"%char os.
Proof.
  intros m arch. unfold my_arch. rewrite linux_name_eq, split_max_S. split.
  - intro H. destruct (cut_at "_" (linux_name m)) as [[a b]|] eqn:E; [|discriminate]. cbn [split_max] in H. injection H as <-. apply cut_at_some in E. exists a. exact E.
  - intros [os [-> N]]. change (os ++ us ++ arch) with (os ++ "_"%char :: arch). rewrite cut_at_app by exact N. reflexivity.
Qed.
Lemma my_arch_none : forall m, my_arch m = None -> ~ In "_"%char (linux_name m).
Proof.
  intros m H. unfold my_arch in H. rewrite linux_name_eq, split_max_S in H. destruct (cut_at "_" (linux_name m)) as [[a b]|] eqn:E; [discriminate|]. apply cut_at_none. exact E.
Qed.
Lemma legacy_iff : forall name v, dict_get name legacy_manylinux = Some v <-> glibc_of_legacy name v.
Proof.
  intros name v. unfold glibc_of_legacy, legacy_manylinux. cbn [dict_get]. split.
  - intro H. destruct (str_eqb name (lit "manylinux2014")) eqn:E1; [apply str_eqb_eq in E1; injection H as <-; auto|].
    destruct (str_eqb name (lit "manylinux2010")) eqn:E2; [apply str_eqb_eq in E2; injection H as <-; auto|].
    destruct (str_eqb name (lit "manylinux1")) eqn:E3; [apply str_eqb_eq in E3; injection H as <-; auto|]. discriminate.
  - intros [[-> ->]|[[-> ->]|[-> ->]]]; reflexivity.
Qed.
Lemma many_split : forall x a b more, ~ In "_"%char x -> all_digits a = true -> all_digits b = true -> Forall (fun s => ~ In "_"%char s) more ->
  split_on "_" (join us ((lit "manylinux" ++ x) :: a :: b :: more)) = (lit "manylinux" ++ x) :: a :: b :: more.
Proof.
  intros x a b more X A B M. apply split_join; [discriminate|]. intros w [<-|[<-|[<-|I]]].
  - intro I. apply in_app_or in I. destruct I as [I|I]; [|contradiction]. cbn in I. intuition discriminate.
  - apply digits_no_us. exact A.
  - apply digits_no_us. exact B.
  - rewrite Forall_forall in M. apply M. exact I.
Qed.
Definition many_parts (name : str) : res (list N) :=
  match dict_get name legacy_manylinux with Some (a, b) => Ok [a; b] | None => ints (firstn 2 (skipn 1 (split_on "_" name))) end.
Lemma many_parts_iff : forall name v, starts_with (lit "manylinux") name = true -> (many_parts name = Ok [fst v; snd v] <-> manylinux_version name v).
Proof.
  intros name v P. unfold many_parts, manylinux_version. split.
  - intro H. destruct (dict_get name legacy_manylinux) as [[a b]|] eqn:E.
    + injection H as -> ->. left. apply legacy_iff. rewrite E. destruct v; reflexivity.
    + right. apply ints_ok in H. destruct H as [F H]. pose proof (join_split "_"%char name) as J.
      pose proof (split_on_no_char "_"%char name) as NC.
      destruct (split_on "_" name) as [|h [|a [|b more]]]; cbn [skipn firstn map] in H; try discriminate. cbn [skipn firstn] in F.
      pose proof (Forall_inv F) as A. pose proof (Forall_inv (Forall_inv_tail F)) as B. clear F.
      assert (PH : starts_with (lit "manylinux") h = true).
      { assert (NU : ~ In "_"%char h) by (apply NC; left; reflexivity). rewrite <- J in P. cbn [join] in P.
        clear - P NU. assert (G : forall p h t : str, ~ In "_"%char p -> starts_with p (h ++ "_"%char :: t) = true -> starts_with p h = true).
        { induction p as [|c p IH]; intros h0 t N S; [reflexivity|]. destruct h0 as [|d h0]; cbn [app starts_with] in *.
          - apply andb_true_iff in S. destruct S as [S _]. apply Ascii.eqb_eq in S. exfalso. apply N. left. exact S.
          - apply andb_true_iff in S. destruct S as [S1 S2]. rewrite S1. cbn [andb]. apply IH with t; [intro I; apply N; right; exact I|exact S2]. }
        eapply G; [|exact P]. intro I. cbn in I. intuition discriminate. }
      apply starts_with_iff in PH. destruct PH as [x ->]. injection H as V1 V2.
      exists x, a, b, more. split; [symmetry; exact J|]. split; [intro I; apply (NC _ (or_introl eq_refl)); apply in_or_app; right; exact I|].
      split; [exact A|]. split; [exact B|]. split; [apply Forall_forall; intros w I; apply NC; right; right; right; exact I|].
      destruct v as [v1 v2]. cbn [fst snd] in *. congruence.
  - intros [L|[x [a [b [more [-> [X [A [B [M ->]]]]]]]]]].
    + apply legacy_iff in L. rewrite L. destruct v. reflexivity.
    + destruct (dict_get _ legacy_manylinux) as [[p q]|] eqn:E.
      * exfalso. apply legacy_iff in E. assert (I : In "_"%char (join us ((lit "manylinux" ++ x) :: a :: b :: more))).
        { cbn [join]. apply in_or_app. right. left. reflexivity. }
        destruct E as [[E _]|[[E _]|[E _]]]; rewrite E in I; cbn in I; intuition discriminate.
      * rewrite many_split by assumption. cbn [skipn firstn]. apply ints_ok. split; [constructor; [exact A|constructor; [exact B|constructor]]|reflexivity].
Qed.
Lemma many_starts : forall name v, manylinux_version name v -> starts_with (lit "manylinux") name = true.
Proof.
  intros name v [[[-> _]|[[-> _]|[-> _]]]|[x [a [b [more [-> _]]]]]]; reflexivity.
Qed.
Lemma linux_score_suffix : forall m name arch, linux_name m <> name ++ us ++ arch ->
  linux_score m arch (name ++ us ++ arch) =
    if starts_with (lit "manylinux") name
    then match m_glibc m with
         | None => Ok None
         | Some mine => do v <- many_parts name;
             match v with [a; b] => if pair_ltb mine (a, b) then Ok None else Ok (Some (whole 1 :: vdscore (a, b) mine)) | _ => Ok None end
         end
    else match m_musl m with
         | Some mine => if starts_with (lit "musllinux_") name
             then do v <- ints (split_on "_" name);
                  match firstn 2 (skipn 1 v) with
                  | [a; b] => if negb (a =? fst mine)%N || (snd mine <? b)%N then Ok None else Ok (Some (whole 1 :: vdscore mine (a, b)))
                  | _ => Ok None
                  end
             else Ok None
         | None => Ok None
         end.
Proof.
  intros m name arch N. unfold linux_score. cbv zeta. rewrite cut_name, linux_name_eq.
  assert (E : str_eqb (name ++ us ++ arch) (linux_name m) = false) by (apply str_eqb_neq; intro X; apply N; symmetry; exact X).
  rewrite E. assert (W : ends_with ("_"%char :: arch) (name ++ us ++ arch) = true) by (apply ends_with_iff; exists name; reflexivity).
  rewrite W. reflexivity.
Qed.
Lemma musl_ints : forall name, starts_with (lit "musllinux_") name = true -> exists e, ints (split_on "_" name) = Err e.
Proof.
  intros name H. destruct (ints (split_on "_" name)) as [l|e] eqn:E; [|exists e; reflexivity]. exfalso. apply ints_ok in E. destruct E as [F _].
  apply starts_with_iff in H. destruct H as [r ->]. change (lit "musllinux_" ++ r) with (lit "musllinux" ++ "_"%char :: r) in F. rewrite split_on_app in F.
  - inversion F as [|? ? X _]. discriminate.
  - cbn. intuition discriminate.
Qed.
Lemma linux_sound : forall m arch p s, my_arch m = Some arch -> linux_score m arch p = Ok (Some s) -> linux_ok m p.
Proof.
  intros m arch p s MA H. unfold linux_ok. destruct (str_eqb p (linux_name m)) eqn:E; [left; apply str_eqb_eq; exact E|]. right.
  destruct (ends_with ("_"%char :: arch) p) eqn:W.
  - apply ends_with_iff in W. destruct W as [name ->]. change (name ++ "_"%char :: arch) with (name ++ us ++ arch) in *.
    rewrite linux_score_suffix in H by (intro X; rewrite X, str_eqb_refl in E; discriminate).
    destruct (starts_with (lit "manylinux") name) eqn:P.
    + destruct (m_glibc m) as [mine|] eqn:G; [|discriminate]. unfold bind in H. destruct (many_parts name) as [l|] eqn:MP; [|discriminate].
      destruct l as [|a [|b [|]]]; try discriminate. destruct (pair_ltb mine (a, b)) eqn:L; [discriminate|]. apply pair_ltb_false in L.
      apply my_arch_some in MA. destruct MA as [os [N1 N2]].
      exists os, arch, name, (a, b), mine. split; [exact N1|]. split; [exact N2|]. split; [reflexivity|]. split; [reflexivity|]. split; [|exact L].
      apply many_parts_iff; [exact P|exact MP].
    + destruct (m_musl m); [|discriminate]. destruct (starts_with (lit "musllinux_") name) eqn:Q; [|discriminate]. destruct (musl_ints name Q) as [e X]. rewrite X in H. discriminate.
  - unfold linux_score in H. cbv zeta in H. rewrite linux_name_eq, E, W in H. discriminate.
Qed.
Lemma linux_complete : forall m p, p <> my_platform m -> linux_ok m p ->
  exists arch, my_arch m = Some arch /\ exists s, linux_score m arch p = Ok (Some s).
Proof.
  intros m p NP H. destruct (str_eqb p (linux_name m)) eqn:E.
  - apply str_eqb_eq in E. assert (A : exists arch, my_arch m = Some arch).
    { destruct (my_arch m) as [a|] eqn:MA; [exists a; reflexivity|]. exfalso. apply my_arch_none in MA. subst p. unfold linux_name in *. cbv zeta in *.
      destruct (m_32bit m && str_eqb _ (lit "linux_x86_64")); [apply MA; cbn; tauto|]. destruct (m_32bit m && str_eqb _ (lit "linux_aarch64")); [apply MA; cbn; tauto|].
      apply NP. reflexivity. }
    destruct A as [arch A]. exists arch. split; [exact A|]. exists [whole 1; whole 0; whole 0]. unfold linux_score. cbv zeta. rewrite linux_name_eq.
    subst p. rewrite str_eqb_refl. reflexivity.
  - destruct H as [H|H]; [exfalso; subst p; rewrite str_eqb_refl in E; discriminate|].
    destruct H as [os [arch [name [v [mine [N1 [N2 [-> [G [V L]]]]]]]]]]. exists arch. split; [apply my_arch_some; exists os; auto|].
    rewrite linux_score_suffix by (intro X; rewrite X, str_eqb_refl in E; discriminate).
    pose proof (many_starts _ _ V) as P. rewrite P, G. unfold bind. rewrite (proj2 (many_parts_iff name v P) V).
    apply pair_ltb_false in L. destruct v as [a b]. cbn [fst snd]. rewrite L. eexists. reflexivity.
Qed.
Lemma linux_total : forall m p, m_system m = Linux -> well_formed_platform m p ->
  exists arch, my_arch m = Some arch /\ exists r, linux_score m arch p = Ok r.
Proof.
  intros m p LX [W _]. destruct (W LX) as [os [arch [N1 [N2 X]]]]. exists arch. split; [apply my_arch_some; exists os; auto|].
  destruct (str_eqb p (linux_name m)) eqn:E.
  - unfold linux_score. cbv zeta. rewrite linux_name_eq, E. eexists. reflexivity.
  - destruct (ends_with ("_"%char :: arch) p) eqn:EW.
    + apply ends_with_iff in EW. destruct EW as [name ->]. change (name ++ "_"%char :: arch) with (name ++ us ++ arch) in *.
      rewrite linux_score_suffix by (intro Y; rewrite Y, str_eqb_refl in E; discriminate). destruct (X name eq_refl) as [X1 X2]. rewrite X1.
      destruct (starts_with (lit "manylinux") name) eqn:P.
      * destruct (m_glibc m) as [mine|]; [|eexists; reflexivity]. destruct (X2 eq_refl) as [v V]. unfold bind. rewrite (proj2 (many_parts_iff name v P) V).
        destruct (pair_ltb _ _); eexists; reflexivity.
      * destruct (m_musl m); eexists; reflexivity.
    + unfold linux_score. cbv zeta. rewrite linux_name_eq, E, EW. eexists. reflexivity.
Qed.

Lemma mac_cpu_eq : forall m, mac_arch (m_mac_cpu m) (m_32bit m) = mac_cpu_seen m.
Proof. intro m. unfold mac_arch, mac_cpu_seen. destruct (m_32bit m); reflexivity. Qed.
Lemma formats_iff : forall m f, In f (mac_formats m) <-> mac_runs (mac_cpu_seen m) (m_mac_version m) f.
Proof.
  intros m f. unfold mac_formats. cbv zeta. rewrite mac_cpu_eq, <- in_rev, in_app_iff. generalize (mac_cpu_seen m) (m_mac_version m). intros cpu v.
  unfold mac_binary_formats, mac_runs. cbv zeta.
  assert (U : In f (if (11 <=? fst v)%N && negb (str_eqb cpu (lit "x86_64")) then [lit "universal2"] else []) <-> cpu <> lit "x86_64" /\ (11 <= fst v)%N /\ f = lit "universal2").
  { destruct ((11 <=? fst v)%N && negb (str_eqb cpu (lit "x86_64"))) eqn:E.
    - apply andb_true_iff in E. destruct E as [E1 E2]. apply N.leb_le in E1. apply negb_true_iff, str_eqb_neq in E2. cbn [In]. intuition congruence.
    - apply andb_false_iff in E. cbn [In]. split; [tauto|]. intros [A [B _]]. apply str_eqb_neq in A. apply N.leb_le in B. destruct E as [E|E]; [congruence|rewrite A in E; discriminate]. }
  rewrite U. clear U.
  destruct (str_eqb cpu (lit "x86_64")) eqn:E1; [apply str_eqb_eq in E1; subst cpu|apply str_eqb_neq in E1].
  { change (str_mem (lit "x86_64") [lit "arm64"; lit "x86_64"]) with true. change (str_mem (lit "x86_64") [lit "x86_64"; lit "i386"; lit "ppc64"; lit "ppc"; lit "intel"]) with true.
    destruct (pair_ltb v (10, 4)%N) eqn:V; rewrite ?pair_ltb_false, ?pair_ltb_true in V; cbn [In app]; intuition (try discriminate; try congruence); left; intuition. }
  destruct (str_eqb cpu (lit "i386")) eqn:E2; [apply str_eqb_eq in E2; subst cpu|apply str_eqb_neq in E2].
  { change (str_mem (lit "i386") [lit "arm64"; lit "x86_64"]) with false. change (str_mem (lit "i386") [lit "x86_64"; lit "i386"; lit "ppc64"; lit "ppc"; lit "intel"]) with true.
    destruct (pair_ltb v (10, 4)%N) eqn:V; rewrite ?pair_ltb_false, ?pair_ltb_true in V; cbn [In app]; intuition (try discriminate; try congruence); right; left; intuition. }
  destruct (str_eqb cpu (lit "ppc64")) eqn:E3; [apply str_eqb_eq in E3; subst cpu|apply str_eqb_neq in E3].
  { change (str_mem (lit "ppc64") [lit "arm64"; lit "x86_64"]) with false. change (str_mem (lit "ppc64") [lit "x86_64"; lit "i386"; lit "ppc64"; lit "ppc"; lit "intel"]) with true.
    destruct (pair_ltb (10, 5)%N v) eqn:V5; rewrite ?pair_ltb_false, ?pair_ltb_true in V5;
    destruct (pair_ltb v (10, 4)%N) eqn:V; rewrite ?pair_ltb_false, ?pair_ltb_true in V; cbn [In app orb]; intuition (try discriminate; try congruence); right; right; left; intuition. }
  destruct (str_eqb cpu (lit "ppc")) eqn:E4; [apply str_eqb_eq in E4; subst cpu|apply str_eqb_neq in E4].
  { change (str_mem (lit "ppc") [lit "arm64"; lit "x86_64"]) with false. change (str_mem (lit "ppc") [lit "x86_64"; lit "i386"; lit "ppc64"; lit "ppc"; lit "intel"]) with true.
    destruct (pair_ltb (10, 6)%N v) eqn:V5; rewrite ?pair_ltb_false, ?pair_ltb_true in V5; cbn [In app orb]; intuition (try discriminate; try congruence); right; right; right; left; intuition. }
  assert (N4 : ~ In cpu [lit "x86_64"; lit "i386"; lit "ppc64"; lit "ppc"]) by (cbn [In]; intuition congruence).
  assert (X : In f (cpu :: (if str_mem cpu [lit "arm64"; lit "x86_64"] then [lit "universal2"] else []) ++
                    (if str_mem cpu [lit "x86_64"; lit "i386"; lit "ppc64"; lit "ppc"; lit "intel"] then [lit "universal"] else [])) <->
              f = cpu \/ (cpu = lit "arm64" /\ f = lit "universal2") \/ (cpu = lit "intel" /\ f = lit "universal")).
  { cbn [In]. rewrite in_app_iff.
    assert (M1 : str_mem cpu [lit "arm64"; lit "x86_64"] = str_eqb cpu (lit "arm64")).
    { unfold str_mem. cbn [existsb]. rewrite (proj2 (str_eqb_neq cpu (lit "x86_64")) E1). rewrite !orb_false_r. reflexivity. }
    assert (M2 : str_mem cpu [lit "x86_64"; lit "i386"; lit "ppc64"; lit "ppc"; lit "intel"] = str_eqb cpu (lit "intel")).
    { unfold str_mem. cbn [existsb]. rewrite (proj2 (str_eqb_neq cpu (lit "x86_64")) E1), (proj2 (str_eqb_neq cpu (lit "i386")) E2),
        (proj2 (str_eqb_neq cpu (lit "ppc64")) E3), (proj2 (str_eqb_neq cpu (lit "ppc")) E4). rewrite !orb_false_r. reflexivity. }
    rewrite M1, M2. destruct (str_eqb cpu (lit "arm64")) eqn:EA; destruct (str_eqb cpu (lit "intel")) eqn:EI; rewrite ?str_eqb_eq, ?str_eqb_neq in *; cbn [In]; intuition congruence. }
  rewrite X. cbn [In]. intuition (subst; auto 12; try tauto).
  all: try (exfalso; intuition congruence).
Qed.
Lemma darwin_parts : forall a b fmt, all_digits a = true -> all_digits b = true ->
  split_max 3 "_" (lit "macosx" ++ us ++ a ++ us ++ b ++ us ++ fmt) = [lit "macosx"; a; b; fmt].
Proof.
  intros a b fmt A B. rewrite split_max_S. change (lit "macosx" ++ us ++ a ++ us ++ b ++ us ++ fmt) with (lit "macosx" ++ "_"%char :: (a ++ "_"%char :: (b ++ "_"%char :: fmt))).
  rewrite cut_at_app by (cbn; intuition discriminate). rewrite split_max_S, cut_at_app by (apply digits_no_us; exact A).
  rewrite split_max_S, cut_at_app by (apply digits_no_us; exact B). reflexivity.
Qed.
Lemma darwin_sound : forall m p s, darwin_score m p = Ok (Some s) -> mac_ok m p.
Proof.
  intros m p s H. unfold darwin_score in H. rewrite split_max_S in H. destruct (cut_at "_" p) as [[x p1]|] eqn:C1.
  - apply cut_at_some in C1. destruct C1 as [-> N1]. destruct (negb (str_eqb x (lit "macosx"))) eqn:E; [discriminate|]. apply negb_false_iff, str_eqb_eq in E. subst x.
    rewrite split_max_S in H. destruct (cut_at "_" p1) as [[a p2]|] eqn:C2; [|discriminate]. apply cut_at_some in C2. destruct C2 as [-> N2].
    rewrite split_max_S in H. destruct (cut_at "_" p2) as [[b fmt]|] eqn:C3; [|discriminate]. apply cut_at_some in C3. destruct C3 as [-> N3]. cbn [split_max] in H.
    unfold bind in H. destruct (int_of a) as [na|] eqn:A; [|discriminate]. destruct (int_of b) as [nb|] eqn:B; [|discriminate].
    apply int_of_ok in A, B. destruct A as [A ->]. destruct B as [B ->]. destruct (pair_ltb _ _) eqn:L; [discriminate|]. apply pair_ltb_false in L.
    destruct (index_of_or_none (mac_formats m) fmt) as [i|] eqn:I; [|discriminate].
    exists a, b, fmt. split; [reflexivity|]. split; [exact A|]. split; [exact B|]. split; [exact L|]. apply formats_iff, index_iff. exists i. exact I.
  - destruct (negb _); discriminate.
Qed.
Lemma darwin_complete : forall m p, mac_ok m p -> exists s, darwin_score m p = Ok (Some s).
Proof.
  intros m p [a [b [fmt [-> [A [B [L R]]]]]]]. unfold darwin_score. rewrite darwin_parts by assumption. rewrite str_eqb_refl. cbn [negb]. unfold bind.
  rewrite (proj2 (int_of_ok a _) (conj A eq_refl)), (proj2 (int_of_ok b _) (conj B eq_refl)). apply pair_ltb_false in L. rewrite L.
  apply formats_iff, index_iff in R. destruct R as [i ->]. eexists. reflexivity.
Qed.
Lemma darwin_total : forall m p, m_system m = Darwin -> well_formed_platform m p -> exists r, darwin_score m p = Ok r.
Proof.
  intros m p D [_ W]. specialize (W D). unfold darwin_score. rewrite split_max_S. destruct (cut_at "_" p) as [[x p1]|] eqn:C1.
  - apply cut_at_some in C1. destruct C1 as [E N1]. destruct (negb (str_eqb x (lit "macosx"))) eqn:Q; [eexists; reflexivity|]. apply negb_false_iff, str_eqb_eq in Q. subst x.
    destruct W as [a [b [fmt [E2 [A B]]]]]; [right; subst p; apply starts_with_iff; exists p1; reflexivity|].
    rewrite E2 in E. change (lit "macosx" ++ us ++ a ++ us ++ b ++ us ++ fmt) with (lit "macosx" ++ "_"%char :: (a ++ us ++ b ++ us ++ fmt)) in E.
    apply app_inv_head in E. injection E as <-.
    change (a ++ us ++ b ++ us ++ fmt) with (a ++ "_"%char :: (b ++ "_"%char :: fmt)). rewrite split_max_S, cut_at_app by (apply digits_no_us; exact A).
    rewrite split_max_S, cut_at_app by (apply digits_no_us; exact B). cbn [split_max]. unfold bind.
    rewrite (proj2 (int_of_ok a _) (conj A eq_refl)), (proj2 (int_of_ok b _) (conj B eq_refl)). destruct (pair_ltb _ _); [eexists; reflexivity|].
    destruct (index_of_or_none _ _); eexists; reflexivity.
  - destruct (negb (str_eqb p (lit "macosx"))) eqn:Q; [eexists; reflexivity|]. apply negb_false_iff, str_eqb_eq in Q. subst p.
    destruct W as [a [b [fmt [E2 _]]]]; [left; reflexivity|]. exfalso. vm_compute in E2. discriminate.
Qed.
Lemma platform_sound : forall m p s, platform_score m p = Ok (Some s) -> platform_ok m p.
Proof.
  intros m p s H. unfold platform_score in H. unfold platform_ok. destruct (str_eqb p (lit "any")) eqn:E1; [left; apply str_eqb_eq; exact E1|].
  destruct (str_eqb p (my_platform m)) eqn:E2; [right; left; apply str_eqb_eq; exact E2|]. right. right. destruct (m_system m) eqn:S.
  - left. split; [reflexivity|]. destruct (my_arch m) as [arch|] eqn:A; [|discriminate]. eapply linux_sound; eassumption.
  - right. split; [reflexivity|]. eapply darwin_sound. exact H.
  - discriminate.
Qed.
Lemma platform_complete : forall m p, platform_ok m p -> exists s, platform_score m p = Ok (Some s).
Proof.
  intros m p H. unfold platform_score. destruct (str_eqb p (lit "any")) eqn:E1; [eexists; reflexivity|]. destruct (str_eqb p (my_platform m)) eqn:E2; [eexists; reflexivity|].
  apply str_eqb_neq in E1, E2. destruct H as [H|[H|[[S H]|[S H]]]]; [contradiction|contradiction| |]; rewrite S.
  - destruct (linux_complete m p E2 H) as [arch [-> X]]. exact X.
  - apply darwin_complete. exact H.
Qed.
Lemma platform_total : forall m p, well_formed_platform m p -> exists r, platform_score m p = Ok r.
Proof.
  intros m p W. unfold platform_score. destruct (str_eqb p (lit "any")); [eexists; reflexivity|]. destruct (str_eqb p (my_platform m)); [eexists; reflexivity|].
  destruct (m_system m) eqn:S.
  - destruct (linux_total m p S W) as [arch [-> X]]. exact X.
  - apply darwin_total; assumption.
  - eexists. reflexivity.
Qed.

(** ** scores *)
Lemma scorer_sound : forall m i a p s, scorer m i a p = Ok (Some s) -> compatible m i a p.
Proof.
  intros m i a p s H. unfold scorer in H. destruct (index_of_or_none (my_abis m) a) as [n|] eqn:I; [|discriminate]. unfold bind in H.
  destruct (platform_score m p) as [[ps|]|] eqn:P; [|discriminate|discriminate]. destruct (interpreter_score m i) as [[is_|]|] eqn:IS; [|discriminate|discriminate].
  split; [eapply interpreter_sound; exact IS|]. split; [apply abis_iff, index_iff; exists n; exact I|]. eapply platform_sound. exact P.
Qed.
Lemma scorer_complete : forall m i a p, forallb is_lower (m_ipt m) = true -> compatible m i a p -> exists s, scorer m i a p = Ok (Some s).
Proof.
  intros m i a p L [CI [CA CP]]. unfold scorer. apply abis_iff, index_iff in CA. destruct CA as [n ->]. unfold bind.
  destruct (platform_complete m p CP) as [ps ->]. destruct (interpreter_complete m i L CI) as [s ->]. eexists. reflexivity.
Qed.
Lemma scorer_total : forall m i a p, well_formed_interpreter m i -> well_formed_platform m p -> exists r, scorer m i a p = Ok r.
Proof.
  intros m i a p WI WP. unfold scorer. destruct (index_of_or_none _ _); [|eexists; reflexivity]. unfold bind.
  destruct (platform_total m p WP) as [ps ->]. destruct (interpreter_total m i WI) as [s ->]. destruct ps; [|eexists; reflexivity]. destruct s; eexists; reflexivity.
Qed.
Definition good (s : score) : Prop := Forall (fun f => (0 < snd f)%N) s.
Lemma good_vdscore : forall a b, good (vdscore a b).
Proof. intros a b. unfold vdscore. destruct (_ =? _)%N; (constructor; [unfold whole; cbn [snd]; lia|constructor; [unfold whole; cbn [snd]; lia|constructor]]). Qed.
Lemma good_any : forall a b c, good [whole a; whole b; whole c].
Proof. intros. constructor; [unfold whole; cbn [snd]; lia|]. constructor; [unfold whole; cbn [snd]; lia|]. constructor; [unfold whole; cbn [snd]; lia|constructor]. Qed.
Lemma good_platform : forall m p s, platform_score m p = Ok (Some s) -> good s.
Proof.
  intros m p s H. unfold platform_score in H. destruct (str_eqb p _); [injection H as <-; apply good_any|]. destruct (str_eqb p _); [injection H as <-; apply good_any|].
  destruct (m_system m).
  - destruct (my_arch m) as [arch|]; [|discriminate]. unfold linux_score in H. cbv zeta in H.
    destruct (str_eqb p _); [injection H as <-; apply good_any|]. destruct (negb _); [discriminate|]. destruct (starts_with _ _).
    + destruct (m_glibc m); [|discriminate]. unfold bind in H. destruct (match dict_get _ _ with Some _ => _ | None => _ end) as [l|]; [|discriminate].
      destruct l as [|x [|y [|]]]; try discriminate. destruct (pair_ltb _ _); [discriminate|]. injection H as <-. constructor; [unfold whole; cbn [snd]; lia|]. apply good_vdscore.
    + destruct (m_musl m); [|discriminate]. destruct (starts_with _ _); [|discriminate]. unfold bind in H. destruct (ints _) as [l|]; [|discriminate].
      destruct (firstn 2 (skipn 1 l)) as [|x [|y [|]]]; try discriminate. destruct (_ || _); [discriminate|]. injection H as <-. constructor; [unfold whole; cbn [snd]; lia|]. apply good_vdscore.
  - unfold darwin_score in H. destruct (split_max 3 "_" p) as [|x r]; [discriminate|]. destruct (negb _); [discriminate|]. destruct r as [|a [|b [|f [|]]]]; try discriminate.
    unfold bind in H. destruct (int_of a); [|discriminate]. destruct (int_of b); [|discriminate]. destruct (pair_ltb _ _); [discriminate|].
    destruct (index_of_or_none _ _); [|discriminate]. injection H as <-. constructor; [unfold whole; cbn [snd]; lia|]. apply good_vdscore.
  - discriminate.
Qed.
Lemma good_choose : forall m n t s, choose m n t = Ok (Some s) -> good s.
Proof.
  intros m n t s H. unfold choose, bind in H. destruct (ipt_version m t) as [v|]; [|discriminate]. destruct (_ || _); [discriminate|]. injection H as <-.
  constructor; [unfold whole; cbn [snd]; lia|]. constructor; [|constructor]. unfold vdscore. destruct (_ =? _)%N; unfold whole; cbn [nth snd]; lia.
Qed.
Lemma good_scorer : forall m i a p s, scorer m i a p = Ok (Some s) -> good s.
Proof.
  intros m i a p s H. unfold scorer in H. destruct (index_of_or_none (my_abis m) a) as [n|] eqn:I; [|discriminate]. unfold bind in H.
  destruct (platform_score m p) as [[ps|]|] eqn:P; [|discriminate|discriminate]. destruct (interpreter_score m i) as [[is_|]|] eqn:IS; [|discriminate|discriminate].
  injection H as <-. constructor; [unfold whole; cbn [snd]; lia|]. apply Forall_app. split; [eapply good_platform; exact P|]. rewrite interpreter_score_eq in IS.
  destruct (_ && _); [eapply good_choose; exact IS|]. destruct (_ && _); [eapply good_choose; exact IS|discriminate].
Qed.
Definition qf (f : frac) : Q := Qmake (Z.of_N (fst f)) (N.succ_pos (N.pred (snd f))).
Lemma frac_q : forall a b, (0 < snd a)%N -> (0 < snd b)%N -> (frac_ltb a b = true <-> Qlt (qf a) (qf b)) /\ (frac_eqb a b = true <-> Qeq (qf a) (qf b)).
Proof.
  intros [a1 a2] [b1 b2] A B. cbn [snd] in *. unfold frac_ltb, frac_eqb, qf, Qlt, Qeq. cbn [fst snd Qnum Qden].
  assert (PA : Z.pos (N.succ_pos (N.pred a2)) = Z.of_N a2) by (destruct a2; [lia|]; cbn [N.pred]; destruct p; cbn; try reflexivity; rewrite ?Pos.succ_pred_double; try reflexivity; lia).
  assert (PB : Z.pos (N.succ_pos (N.pred b2)) = Z.of_N b2) by (destruct b2; [lia|]; cbn [N.pred]; destruct p; cbn; try reflexivity; rewrite ?Pos.succ_pred_double; try reflexivity; lia).
  rewrite PA, PB. rewrite N.ltb_lt, N.eqb_eq. split; lia.
Qed.
Lemma score_ltb_neg_trans : forall a b c, good a -> good b -> good c -> score_ltb a b = false -> score_ltb b c = false -> score_ltb a c = false.
Proof.
  induction a as [|x a IH]; intros b c GA GB GC H1 H2.
  - destruct b; [|discriminate]. exact H2.
  - destruct c as [|z c]; [reflexivity|]. destruct b as [|y b]; [discriminate|]. cbn [score_ltb] in *.
    inversion GA as [|? ? XA GA2]. inversion GB as [|? ? XB GB2]. inversion GC as [|? ? XC GC2]. subst.
    destruct (frac_q x y XA XB) as [L1 E1]. destruct (frac_q y z XB XC) as [L2 E2]. destruct (frac_q x z XA XC) as [L3 E3].
    assert (T : forall P (t : bool), (t = true <-> P) -> t = false -> ~ P) by (intros P t H F X; apply H in X; congruence).
    destruct (frac_eqb x y) eqn:Q1.
    + pose proof (proj1 E1 eq_refl) as P1. destruct (frac_eqb y z) eqn:Q2.
      * pose proof (proj1 E2 eq_refl) as P2. assert (Q3 : frac_eqb x z = true) by (apply E3; lra). rewrite Q3. exact (IH b c GA2 GB2 GC2 H1 H2).
      * pose proof (T _ _ E2 eq_refl) as P2. pose proof (T _ _ L2 H2) as P3.
        assert (Q3 : frac_eqb x z = false). { destruct (frac_eqb x z) eqn:Q; [|reflexivity]. pose proof (proj1 E3 eq_refl). exfalso. apply P2. lra. }
        rewrite Q3. destruct (frac_ltb x z) eqn:R; [|reflexivity]. pose proof (proj1 L3 eq_refl). exfalso. apply P3. lra.
    + pose proof (T _ _ E1 eq_refl) as P1. pose proof (T _ _ L1 H1) as P2.
      assert (P3 : ~ Qlt (qf y) (qf z)). { destruct (frac_eqb y z) eqn:Q2; [pose proof (proj1 E2 eq_refl) as P0; intro P5; lra|exact (T _ _ L2 H2)]. }
      assert (P4 : Qlt (qf y) (qf x)). { destruct (Qlt_le_dec (qf y) (qf x)) as [Y|Y]; [exact Y|]. exfalso. apply Qle_lteq in Y. destruct Y as [Y|Y]; [exact (P2 Y)|exact (P1 Y)]. }
      assert (Q3 : frac_eqb x z = false). { destruct (frac_eqb x z) eqn:Q; [|reflexivity]. pose proof (proj1 E3 eq_refl). exfalso. apply P3. lra. }
      rewrite Q3. destruct (frac_ltb x z) eqn:R; [|reflexivity]. pose proof (proj1 L3 eq_refl). exfalso. apply P3. lra.
Qed.
Lemma score_ltb_irrefl : forall a, score_ltb a a = false.
Proof. induction a as [|x a IH]; [reflexivity|]. cbn [score_ltb]. unfold frac_eqb. rewrite N.eqb_refl. exact IH. Qed.
Lemma score_ltb_asym : forall a b, good a -> good b -> score_ltb a b = true -> score_ltb b a = false.
Proof.
  induction a as [|x a IH]; intros b GA GB H; destruct b as [|y b]; try discriminate; [reflexivity|]. cbn [score_ltb] in *.
  inversion GA as [|? ? XA GA2]. inversion GB as [|? ? XB GB2]. subst.
  assert (E : frac_eqb y x = frac_eqb x y) by (unfold frac_eqb; apply N.eqb_sym). rewrite E. destruct (frac_eqb x y).
  - apply IH; assumption.
  - unfold frac_ltb in *. apply N.ltb_lt in H. apply N.ltb_ge. lia.
Qed.

(** ** the best of a list *)
Definition pick (s max : option score) : option score :=
  match s, max with
  | Some s, None => Some s
  | Some s, Some x => if score_ltb x s then Some s else max
  | None, _ => max
  end.
Definition is_good (o : option score) : Prop := match o with Some s => good s | None => True end.
Lemma best_ok : forall m tags max r, is_good max -> best m tags max = Ok r ->
  is_good r /\
  (forall s, r = Some s -> max = Some s \/ exists i a p, In (i, a, p) tags /\ scorer m i a p = Ok (Some s)) /\
  (forall s, max = Some s \/ (exists i a p, In (i, a, p) tags /\ scorer m i a p = Ok (Some s)) -> exists t, r = Some t /\ score_ltb t s = false).
Proof.
  intros m tags. induction tags as [|[[i a] p] tags IH]; intros max r G H.
  - cbn [best] in H. injection H as <-. split; [exact G|]. split; [auto|]. intros s [->|[? [? [? [[] _]]]]]. exists s. split; [reflexivity|apply score_ltb_irrefl].
  - cbn [best] in H. unfold bind in H. destruct (scorer m i a p) as [o|] eqn:E; [|discriminate].
    change (best m tags (pick o max) = Ok r) in H.
    assert (GO : is_good o) by (destruct o; [eapply good_scorer; exact E|exact Logic.I]).
    assert (GP : is_good (pick o max)) by (destruct o as [s|]; destruct max as [x|]; cbn [pick]; try assumption; destruct (score_ltb x s); assumption).
    destruct (IH _ _ GP H) as [GR [I1 I2]]. split; [exact GR|]. split.
    + intros s ->. destruct (I1 s eq_refl) as [P|[i2 [a2 [p2 [IN SC]]]]].
      * assert (D : pick o max = max \/ pick o max = o) by (destruct o as [u|]; destruct max as [x|]; cbn [pick]; auto; destruct (score_ltb x u); auto).
        destruct D as [D|D]; rewrite D in P; [left; exact P|]. right. exists i, a, p. split; [left; reflexivity|]. subst o. exact E.
      * right. exists i2, a2, p2. split; [right; exact IN|exact SC].
    + assert (K : forall s, max = Some s \/ o = Some s -> exists t, r = Some t /\ score_ltb t s = false).
      { intros s D. assert (X : exists u, pick o max = Some u /\ score_ltb u s = false /\ good s).
        { destruct D as [D|D]; subst.
          - destruct o as [u|]; cbn [pick]; [|exists s; split; [reflexivity|split; [apply score_ltb_irrefl|exact G]]].
            destruct (score_ltb s u) eqn:L; [|exists s; split; [reflexivity|split; [apply score_ltb_irrefl|exact G]]].
            exists u. split; [reflexivity|]. split; [apply score_ltb_asym; assumption|exact G].
          - destruct max as [x|]; cbn [pick]; [|exists s; split; [reflexivity|split; [apply score_ltb_irrefl|exact GO]]].
            destruct (score_ltb x s) eqn:L; [exists s; split; [reflexivity|split; [apply score_ltb_irrefl|exact GO]]|]. exists x. split; [reflexivity|]. split; [exact L|exact GO]. }
        destruct X as [u [PU [LU GS]]]. destruct (I2 u (or_introl PU)) as [t [-> LT]]. exists t. split; [reflexivity|].
        rewrite PU in GP. eapply score_ltb_neg_trans; [exact GR|exact GP|exact GS|exact LT|exact LU]. }
      intros s [D|[i2 [a2 [p2 [[IN|IN] SC]]]]].
      * apply K. left. exact D.
      * injection IN as <- <- <-. rewrite E in SC. injection SC as ->. apply K. right. reflexivity.
      * apply I2. right. exists i2, a2, p2. split; [exact IN|exact SC].
Qed.
Lemma best_total : forall m tags max, (forall i a p, In (i, a, p) tags -> exists r, scorer m i a p = Ok r) -> exists r, best m tags max = Ok r.
Proof.
  intros m tags. induction tags as [|[[i a] p] tags IH]; intros max H; [eexists; reflexivity|]. cbn [best]. unfold bind.
  destruct (H i a p (or_introl eq_refl)) as [o ->]. apply IH. intros. apply H. right. assumption.
Qed.
Lemma in_expand : forall is_ abis plts i a p, In (i, a, p) (expand is_ abis plts) <-> In i (split_on "." is_) /\ In a (split_on "." abis) /\ In p (split_on "." plts).
Proof.
  intros is_ abis plts i a p. unfold expand. rewrite in_flat_map. split.
  - intros [i2 [I1 H]]. apply in_flat_map in H. destruct H as [a2 [I2 H]]. apply in_map_iff in H. destruct H as [p2 [E I3]]. injection E as -> -> ->. auto.
  - intros [I1 [I2 I3]]. exists i. split; [exact I1|]. apply in_flat_map. exists a. split; [exact I2|]. apply in_map. exact I3.
Qed.
Lemma stands_iff : forall tag i a p, stands_for tag i a p <-> exists is_ abis plts, split_on "-" tag = [is_; abis; plts] /\ In (i, a, p) (expand is_ abis plts).
Proof.
  intros tag i a p. split.
  - intros [x [y [z [-> [N1 [N2 [N3 H]]]]]]]. exists x, y, z. split; [|apply in_expand; exact H].
    change (x ++ lit "-" ++ y ++ lit "-" ++ z) with (x ++ "-"%char :: (y ++ "-"%char :: z)). rewrite split_on_app, split_on_app, split_on_single by assumption. reflexivity.
  - intros [x [y [z [E H]]]]. apply in_expand in H. pose proof (join_split "-"%char tag) as J. pose proof (split_on_no_char "-"%char tag) as NC. rewrite E in J, NC. cbn [join] in J.
    exists x, y, z. split; [symmetry; exact J|]. split; [apply NC; left; reflexivity|]. split; [apply NC; right; left; reflexivity|]. split; [apply NC; right; right; left; reflexivity|exact H].
Qed.
Definition single (i a p : str) : str := i ++ lit "-" ++ a ++ lit "-" ++ p.
Lemma in_no_dash : forall (c : ascii) s w d, In w (split_on c s) -> ~ In d s -> ~ In d w.
Proof.
  intros c s. induction s as [|x s IH]; intros w d I N; cbn [split_on] in I.
  - destruct I as [<-|[]]. exact N.
  - destruct (Ascii.eqb x c).
    + destruct I as [<-|I]; [intros []|]. apply IH; [exact I|]. intro D. apply N. right. exact D.
    + destruct (split_on c s) as [|u us_] eqn:E.
      * destruct I as [<-|[]]. intros [D|[]]. apply N. left. exact D.
      * destruct I as [<-|I]; [intros [D|D]; [apply N; left; exact D|]|].
        -- revert D. apply IH; [left; reflexivity|]. intro D. apply N. right. exact D.
        -- apply IH; [right; exact I|]. intro D. apply N. right. exact D.
Qed.
Lemma score_single : forall m tag i a p, stands_for tag i a p ->
  compatibility_score m (single i a p) = match scorer m i a p with Ok s => s | Err _ => None end.
Proof.
  intros m tag i a p H. destruct H as [x [y [z [_ [N1 [N2 [N3 [I1 [I2 I3]]]]]]]]]. unfold compatibility_score, single.
  change (i ++ lit "-" ++ a ++ lit "-" ++ p) with (i ++ "-"%char :: (a ++ "-"%char :: p)).
  rewrite split_on_app, split_on_app, split_on_single by (eapply in_no_dash; eassumption). unfold expand.
  rewrite (split_on_single _ i), (split_on_single _ a), (split_on_single _ p) by (eapply split_on_no_char; eassumption). cbn [flat_map map app best]. unfold bind.
  destruct (scorer m i a p) as [[s|]|]; reflexivity.
Qed.

Definition well_formed (m : machine) (tag : str) : Prop := forall i a p, stands_for tag i a p -> well_formed_interpreter m i /\ well_formed_platform m p.
Lemma not_split : forall m tag, (forall x y z, split_on "-" tag <> [x; y; z]) -> compatibility_score m tag = None.
Proof. intros m tag H. unfold compatibility_score. destruct (split_on "-" tag) as [|x [|y [|z [|]]]]; try reflexivity. exfalso. eapply H. reflexivity. Qed.
Lemma sound : forall m tag s, compatibility_score m tag = Some s ->
  (exists i a p, stands_for tag i a p /\ compatible m i a p /\ compatibility_score m (single i a p) = Some s) /\
  (forall i a p t, stands_for tag i a p -> compatibility_score m (single i a p) = Some t -> score_ltb s t = false).
Proof.
  intros m tag s H. pose proof H as H0. unfold compatibility_score in H. destruct (split_on "-" tag) as [|x [|y [|z [|]]]] eqn:E; try discriminate.
  destruct (best m (expand x y z) None) as [r|] eqn:B; [|discriminate]. subst r. destruct (best_ok m _ None (Some s) Logic.I B) as [_ [B1 B2]]. split.
  - destruct (B1 s eq_refl) as [X|[i [a [p [I SC]]]]]; [discriminate|]. assert (ST : stands_for tag i a p) by (apply stands_iff; exists x, y, z; auto).
    exists i, a, p. split; [exact ST|]. split; [eapply scorer_sound; exact SC|]. rewrite (score_single m tag) by exact ST. rewrite SC. reflexivity.
  - intros i a p t ST ST2. rewrite (score_single m tag) in ST2 by exact ST. destruct (scorer m i a p) as [o|] eqn:SC; [|discriminate]. subst o.
    apply stands_iff in ST. destruct ST as [x2 [y2 [z2 [E2 I]]]]. rewrite E in E2. injection E2 as <- <- <-.
    destruct (B2 t) as [u [U L]]; [right; exists i, a, p; auto|]. injection U as <-. exact L.
Qed.
Lemma complete : forall m tag, forallb is_lower (m_ipt m) = true -> well_formed m tag ->
  (exists i a p, stands_for tag i a p /\ compatible m i a p) -> exists s, compatibility_score m tag = Some s.
Proof.
  intros m tag L W [i [a [p [ST C]]]]. pose proof ST as ST0. apply stands_iff in ST. destruct ST as [x [y [z [E I]]]]. unfold compatibility_score. rewrite E.
  destruct (best_total m (expand x y z) None) as [r B].
  { intros i2 a2 p2 I2. destruct (W i2 a2 p2) as [W1 W2]; [apply stands_iff; exists x, y, z; auto|]. apply scorer_total; assumption. }
  rewrite B. destruct (scorer_complete m i a p L C) as [s SC]. destruct (best_ok m _ None r Logic.I B) as [_ [_ B2]].
  destruct (B2 s) as [t [-> _]]; [right; exists i, a, p; auto|]. exists t. reflexivity.
Qed.
Lemma single_complete : forall m i a p, forallb is_lower (m_ipt m) = true -> stands_for (single i a p) i a p -> compatible m i a p -> exists s, compatibility_score m (single i a p) = Some s.
Proof. intros m i a p L ST C. rewrite (score_single m _ i a p ST). destruct (scorer_complete m i a p L C) as [s ->]. exists s. reflexivity. Qed.
