(** Lemmas about environment markers (MarkerModel). *)
From Coq Require Import String Ascii List Bool NArith Arith Lia.
From Verif Require Import Base BaseFacts ParserModel ParserFacts MarkerModel MarkerSpec.
Import ListNotations.
Open Scope string_scope.
Open Scope nat_scope.
Open Scope list_scope.
Open Scope bool_scope.

Ltac by_char c := destruct c as [[|] [|] [|] [|] [|] [|] [|] [|]]; vm_compute; try reflexivity; try discriminate; try tauto.

(** * What is read is a part of the text, and nothing behind it matters *)
Definition like (r r2 : str) : Prop := hd_error r = hd_error r2 \/ (at_end r = true /\ at_end r2 = true).
Definition local {A} (f : str -> res (A * str)) : Prop :=
  forall s x r, f s = Ok (x, r) -> exists a, s = a ++ r /\ a <> [] /\ forall r2, like r r2 -> f (a ++ r2) = Ok (x, r2).
Lemma like_refl : forall r, like r r.
Proof. intros r. now left. Qed.
Lemma like_app : forall a r r2, like r r2 -> like (a ++ r) (a ++ r2).
Proof. intros [|c a] r r2 L; [exact L|]. left. reflexivity. Qed.
Lemma end_char : forall c r, at_end (c :: r) = true -> c = ";"%char \/ c = ")"%char.
Proof.
  intros c r. unfold at_end, in_chars. cbn [lit list_ascii_of_string existsb]. rewrite orb_false_r.
  intros H. apply orb_prop in H. destruct H as [H|H]; apply Ascii.eqb_eq in H; auto.
Qed.
Lemma like_head : forall (f : ascii -> bool) r r2, f ";"%char = false -> f ")"%char = false ->
  head_not f r -> like r r2 -> head_not f r2.
Proof.
  intros f r r2 F1 F2 H L. destruct r2 as [|c2 r2]; [reflexivity|]. destruct L as [L|[_ L]].
  - destruct r as [|c r]; [discriminate|]. injection L as <-. exact H.
  - apply end_char in L. destruct L as [-> | ->]; assumption.
Qed.
Lemma span_split : forall f s a b, span f s = (a, b) -> s = a ++ b /\ forallb f a = true /\ head_not f b.
Proof.
  intros f. induction s as [|c s IH]; intros a b; cbn [span].
  - intros E. injection E as <- <-. now repeat split.
  - destruct (f c) eqn:Ef.
    + destruct (span f s) as [a' b'] eqn:Es. intros E. injection E as <- <-. destruct (IH _ _ eq_refl) as (-> & H1 & H2).
      split; [reflexivity|]. split; [cbn [forallb]; now rewrite Ef|exact H2].
    + intros E. injection E as <- <-. split; [reflexivity|]. split; [reflexivity|exact Ef].
Qed.
Lemma ws_split : forall s, exists w, s = w ++ ws s /\ forall r2, like (ws s) r2 -> ws (w ++ r2) = r2.
Proof.
  intros s. unfold ws. destruct (span is_space s) as [w r] eqn:E. cbn [snd]. destruct (span_split _ _ _ _ E) as (Es & Hw & Hr).
  exists w. split; [exact Es|]. intros r2 L. rewrite span_app; [reflexivity|exact Hw|].
  apply (like_head is_space r r2); [reflexivity|reflexivity|exact Hr|exact L].
Qed.
Lemma smatch_split : forall sub s r, smatch sub s = Some r -> s = sub ++ r.
Proof.
  intros sub s r. unfold smatch. destruct (starts_with sub s) eqn:E; [|discriminate]. intros H. injection H as <-.
  apply starts_with_iff in E. destruct E as (t & ->). now rewrite skipn_app, skipn_all, Nat.sub_diag.
Qed.
Lemma smatch_app : forall sub r, smatch sub (sub ++ r) = Some r.
Proof.
  intros sub r. unfold smatch. rewrite starts_with_app. now rewrite skipn_app, skipn_all, Nat.sub_diag.
Qed.

Lemma ident_local : local read_ident.
Proof.
  intros s x r. unfold read_ident. destruct s as [|c s]; [discriminate|]. destruct (is_alpha c) eqn:Ea; [|discriminate].
  intros H. assert (H' : span ident_char (c :: s) = (x, r)) by congruence. clear H. destruct (span_split _ _ _ _ H') as (Es & Hx & Hr).
  destruct x as [|c' x].
  - exfalso. cbn [app] in Es. subst r. unfold head_not in Hr. cbn [hd_error opt_test] in Hr.
    unfold ident_char, is_alnum in Hr. unfold is_alpha in Ea. destruct (is_digit c), (is_lower c), (is_upper c); discriminate.
  - exists (c' :: x). split; [exact Es|]. split; [discriminate|]. intros r2 L.
    cbn [app] in Es. injection Es as <- Es. cbn [app]. rewrite Ea.
    change (c :: x ++ r2) with ((c :: x) ++ r2). rewrite span_app; [reflexivity|exact Hx|].
    apply (like_head ident_char r r2); [reflexivity|reflexivity|exact Hr|exact L].
Qed.
Lemma str_local : local read_str.
Proof.
  intros s x r. unfold read_str. destruct s as [|q s]; [discriminate|].
  destruct (Ascii.eqb q squote || Ascii.eqb q dquote) eqn:Eq; [|discriminate].
  set (other := if Ascii.eqb q dquote then squote else dquote).
  destruct (span _ s) as [content r0] eqn:Es. destruct (smatch [q] r0) as [r1|] eqn:Em; [|discriminate].
  intros H. injection H as <- <-. destruct (span_split _ _ _ _ Es) as (-> & Hc & Hr). apply smatch_split in Em. subst r0.
  exists (q :: content ++ [q]). split; [cbn [app]; now rewrite <- app_assoc|]. split; [discriminate|]. intros r2 L.
  cbn [app]. rewrite Eq, <- app_assoc. rewrite span_app; [|exact Hc|exact Hr].
  now rewrite smatch_app.
Qed.
Lemma var_local : local read_var.
Proof.
  intros s x r. unfold read_var. destruct s as [|c s]; [discriminate|].
  destruct (Ascii.eqb c dquote || Ascii.eqb c squote) eqn:Eq.
  - destruct (read_str (c :: s)) as [[t r0]|] eqn:E; [|discriminate]. cbn [bind]. intros H. injection H as <- <-.
    destruct (str_local _ _ _ E) as (a & Es & Na & L). exists a. split; [exact Es|]. split; [exact Na|]. intros r2 Lr.
    destruct a as [|c' a]; [contradiction|]. cbn [app] in Es |- *. injection Es as <- _. rewrite Eq.
    specialize (L r2 Lr). cbn [app] in L. rewrite L. reflexivity.
  - destruct (read_ident (c :: s)) as [[t r0]|] eqn:E; [|discriminate]. cbn [bind]. intros H. injection H as <- <-.
    destruct (ident_local _ _ _ E) as (a & Es & Na & L). exists a. split; [exact Es|]. split; [exact Na|]. intros r2 Lr.
    destruct a as [|c' a]; [contradiction|]. cbn [app] in Es |- *. injection Es as <- _. rewrite Eq.
    specialize (L r2 Lr). cbn [app] in L. rewrite L. reflexivity.
Qed.
Lemma not_eq_like : forall r r2, starts_with "=" r = false -> like r r2 -> starts_with "=" r2 = false.
Proof.
  intros r r2 H L. destruct r2 as [|c r2]; [reflexivity|]. cbn [starts_with lit list_ascii_of_string]. rewrite andb_true_r.
  destruct L as [L|[_ L]].
  - destruct r as [|c' r]; [discriminate|]. injection L as ->. cbn [starts_with lit list_ascii_of_string] in H. now rewrite andb_true_r in H.
  - apply end_char in L. destruct L as [-> | ->]; reflexivity.
Qed.
Lemma sw_cons : forall c p x s, starts_with (c :: p) (x :: s) = Ascii.eqb c x && starts_with p s.
Proof. reflexivity. Qed.
Lemma lt_eq_none : forall r, starts_with "=" r = false <-> smatch "<=" (lit "<" ++ r) = None.
Proof. intros r. unfold smatch. change (starts_with "<=" (lit "<" ++ r)) with (starts_with "=" r). destruct (starts_with "=" r); split; congruence. Qed.
Lemma gt_eq_none : forall r, starts_with "=" r = false <-> smatch ">=" (lit ">" ++ r) = None.
Proof. intros r. unfold smatch. change (starts_with ">=" (lit ">" ++ r)) with (starts_with "=" r). destruct (starts_with "=" r); split; congruence. Qed.
Lemma cmp_op_local : forall s op r,
  smatch_any [lit "<="; lit "<"; lit ">="; lit ">"; lit "!="; lit "=="; lit "==="; lit "~="] s = Some (op, r) ->
  s = op ++ r /\ op <> [] /\ forall r2, like r r2 ->
  smatch_any [lit "<="; lit "<"; lit ">="; lit ">"; lit "!="; lit "=="; lit "==="; lit "~="] (op ++ r2) = Some (op, r2).
Proof.
  intros s op r. cbn [smatch_any].
  destruct (smatch "<=" s) as [s1|] eqn:E1; [intros H; injection H as <- <-; apply smatch_split in E1; subst s; split; [reflexivity|split; [discriminate|intros r2 _; now rewrite smatch_app]]|].
  destruct (smatch "<" s) as [s2|] eqn:E2.
  { intros H. injection H as <- <-. apply smatch_split in E2. subst s. split; [reflexivity|split; [discriminate|]]. intros r2 L.
    apply lt_eq_none in E1. pose proof (not_eq_like _ _ E1 L) as N2. apply lt_eq_none in N2. change ["<"%char] with (lit "<"). rewrite N2. now rewrite smatch_app. }
  destruct (smatch ">=" s) as [s3|] eqn:E3; [intros H; injection H as <- <-; apply smatch_split in E3; subst s; split; [reflexivity|split; [discriminate|intros r2 _; reflexivity]]|].
  destruct (smatch ">" s) as [s4|] eqn:E4.
  { intros H. injection H as <- <-. apply smatch_split in E4. subst s. split; [reflexivity|split; [discriminate|]]. intros r2 L.
    apply gt_eq_none in E3. pose proof (not_eq_like _ _ E3 L) as N2. apply gt_eq_none in N2. change [">"%char] with (lit ">").
    change (smatch "<=" (lit ">" ++ r2)) with (@None str). change (smatch "<" (lit ">" ++ r2)) with (@None str). cbv iota. rewrite N2. now rewrite smatch_app. }
  destruct (smatch "!=" s) as [s5|] eqn:E5; [intros H; injection H as <- <-; apply smatch_split in E5; subst s; split; [reflexivity|split; [discriminate|intros r2 _; reflexivity]]|].
  destruct (smatch "==" s) as [s6|] eqn:E6; [intros H; injection H as <- <-; apply smatch_split in E6; subst s; split; [reflexivity|split; [discriminate|intros r2 _; reflexivity]]|].
  destruct (smatch "===" s) as [s7|] eqn:E7.
  { exfalso. apply smatch_split in E7. subst s. discriminate. }
  destruct (smatch "~=" s) as [s8|] eqn:E8; [intros H; injection H as <- <-; apply smatch_split in E8; subst s; split; [reflexivity|split; [discriminate|intros r2 _; reflexivity]]|].
  discriminate.
Qed.
Lemma op_local : local read_op.
Proof.
  intros s x r. unfold read_op.
  destruct (smatch_any _ s) as [[op r0]|] eqn:E.
  - intros H. injection H as <- <-. destruct (cmp_op_local _ _ _ E) as (-> & Nop & L). exists op.
    split; [reflexivity|split; [exact Nop|]]. intros r2 Lr. now rewrite (L r2 Lr).
  - destruct (smatch "in" s) as [r0|] eqn:Ei.
    + intros H. injection H as <- <-. apply smatch_split in Ei. subst s. exists (lit "in"). split; [reflexivity|split; [discriminate|]].
      intros r2 _. reflexivity.
    + destruct (smatch "not" s) as [r0|] eqn:En; [|discriminate].
      destruct (smatch "in" (line_ws r0)) as [r1|] eqn:Ei2; [|discriminate].
      intros H. injection H as <- <-. apply smatch_split in En. subst s.
      unfold line_ws in Ei2. destruct (span _ r0) as [w r2] eqn:Es. cbn [snd] in Ei2. destruct (span_split _ _ _ _ Es) as (-> & Hw & Hr).
      apply smatch_split in Ei2. subst r2.
      exists (lit "not" ++ w ++ lit "in"). split; [now rewrite <- !app_assoc|]. split; [discriminate|]. intros r2 _.
      rewrite <- !app_assoc.
      change (smatch_any [lit "<="; lit "<"; lit ">="; lit ">"; lit "!="; lit "=="; lit "==="; lit "~="] (lit "not" ++ w ++ lit "in" ++ r2)) with (@None (str * str)).
      change (smatch "in" (lit "not" ++ w ++ lit "in" ++ r2)) with (@None str). cbv iota. rewrite smatch_app.
      unfold line_ws. rewrite span_app; [|exact Hw|reflexivity]. cbn [snd]. now rewrite smatch_app.
Qed.
Lemma atom_local : local read_atom.
Proof.
  intros s x r. unfold read_atom.
  destruct (read_var s) as [[a s1]|] eqn:E1; [|discriminate]. cbn [bind].
  destruct (read_op (ws s1)) as [[o s2]|] eqn:E2; [|discriminate]. cbn [bind].
  destruct (read_var (ws s2)) as [[b s3]|] eqn:E3; [|discriminate]. cbn [bind].
  intros H. injection H as <- <-.
  destruct (var_local _ _ _ E1) as (a1 & -> & N1 & L1). destruct (ws_split s1) as (w1 & Ew1 & W1).
  destruct (op_local _ _ _ E2) as (a2 & Ea2 & N2 & L2). destruct (ws_split s2) as (w2 & Ew2 & W2).
  destruct (var_local _ _ _ E3) as (a3 & Ea3 & N3 & L3).
  exists (a1 ++ w1 ++ a2 ++ w2 ++ a3). split.
  - rewrite <- !app_assoc. rewrite <- Ea3, <- Ew2, <- Ea2, <- Ew1. reflexivity.
  - split; [destruct a1; [contradiction|discriminate]|]. intros r2 L. rewrite <- !app_assoc.
    assert (K3 : like (ws s2) (a3 ++ r2)) by (rewrite Ea3; now apply like_app).
    assert (K2 : like s2 (w2 ++ a3 ++ r2)) by (rewrite Ew2; now apply like_app).
    assert (K1 : like (ws s1) (a2 ++ w2 ++ a3 ++ r2)) by (rewrite Ea2; now apply like_app).
    assert (K0 : like s1 (w1 ++ a2 ++ w2 ++ a3 ++ r2)) by (rewrite Ew1; now apply like_app).
    rewrite (L1 _ K0). cbn [bind]. rewrite (W1 _ K1), (L2 _ K2). cbn [bind]. rewrite (W2 _ K3), (L3 _ L). reflexivity.
Qed.
(** a compound expression ends before a semicolon, a closing parenthesis or at the end *)
Definition local_end (f : str -> res (mark * str)) : Prop :=
  forall s x r, f s = Ok (x, r) -> at_end r = true /\ exists a, s = a ++ r /\ forall r2, at_end r2 = true -> f (a ++ r2) = Ok (x, r2).
Lemma expr_local : forall compound, local_end compound -> local (read_expr compound).
Proof.
  intros compound C s x r. unfold read_expr. destruct (ws_split s) as (w & Ew & W).
  destruct (smatch "(" (ws s)) as [s1|] eqn:Em.
  - destruct (compound s1) as [[e s2]|] eqn:Ec; [|discriminate]. cbn [bind].
    destruct (smatch ")" s2) as [s3|] eqn:Em2; [|discriminate]. intros H. injection H as <- <-.
    destruct (C _ _ _ Ec) as (_ & a & Ea & L). apply smatch_split in Em. apply smatch_split in Em2.
    exists (w ++ lit "(" ++ a ++ lit ")"). split.
    + rewrite <- !app_assoc. rewrite <- Em2, <- Ea, <- Em. exact Ew.
    + split; [destruct w; discriminate|]. intros r2 _. rewrite <- !app_assoc.
      rewrite (W (lit "(" ++ a ++ lit ")" ++ r2)) by (rewrite Em; left; reflexivity).
      rewrite smatch_app. rewrite (L (lit ")" ++ r2) eq_refl). cbn [bind]. now rewrite smatch_app.
  - intros H. destruct (atom_local _ _ _ H) as (a & Ea & Na & L).
    exists (w ++ a). split; [now rewrite <- app_assoc, <- Ea|]. split; [destruct w; [exact Na|discriminate]|].
    intros r2 Lr. rewrite <- app_assoc.
    rewrite (W (a ++ r2)) by (rewrite Ea; now apply like_app).
    assert (Np : smatch "(" (a ++ r2) = None).
    { destruct a as [|c a]; [contradiction|]. rewrite Ea in Em. cbn [app] in Em |- *. unfold smatch in Em |- *.
      cbn [lit list_ascii_of_string starts_with] in Em |- *. rewrite andb_true_r in Em |- *. destruct (Ascii.eqb "(" c); [discriminate|reflexivity]. }
    rewrite Np. exact (L r2 Lr).
Qed.
Lemma logic_local : forall s op r, smatch_any [lit "and"; lit "or"] s = Some (op, r) ->
  s = op ++ r /\ op <> [] /\ forall r2, smatch_any [lit "and"; lit "or"] (op ++ r2) = Some (op, r2).
Proof.
  intros s op r. cbn [smatch_any].
  destruct (smatch "and" s) as [s1|] eqn:E1; [intros H; injection H as <- <-; apply smatch_split in E1; subst s; split; [reflexivity|split; [discriminate|intros r2; reflexivity]]|].
  destruct (smatch "or" s) as [s2|] eqn:E2; [intros H; injection H as <- <-; apply smatch_split in E2; subst s; split; [reflexivity|split; [discriminate|intros r2; reflexivity]]|].
  discriminate.
Qed.
Lemma head_of : forall s a r, s = a ++ r -> at_end s = false -> at_end r = true -> forall r2, at_end (a ++ r2) = false.
Proof. intros s [|c a] r Es E1 E2 r2; cbn [app] in *; [subst; congruence|]. subst s. exact E1. Qed.
Lemma loop_local : forall fuel expr ors s x r, loop fuel expr ors s = Ok (x, r) ->
  at_end r = true /\ exists a, s = a ++ r /\ forall r2, at_end r2 = true -> loop fuel expr ors (a ++ r2) = Ok (x, r2).
Proof.
  induction fuel as [|fuel IH]; intros expr ors s x r; cbn [loop].
  - destruct (at_end s) eqn:Ee; [|discriminate]. destruct (finish expr ors) as [e|]; [|discriminate]. cbn [bind].
    intros H. injection H as <- <-. split; [exact Ee|]. exists []. split; [reflexivity|]. intros r2 E2. cbn [app]. now rewrite E2.
  - destruct (at_end s) eqn:Ee.
    + destruct (finish expr ors) as [e|]; [|discriminate]. cbn [bind].
      intros H. injection H as <- <-. split; [exact Ee|]. exists []. split; [reflexivity|]. intros r2 E2. cbn [app]. now rewrite E2.
    + assert (C : local_end (fun s => loop fuel None [] (ws s))).
      { intros s0 x0 r0 H. destruct (IH _ _ _ _ _ H) as (E0 & a & Ea & L). split; [exact E0|].
        destruct (ws_split s0) as (w & Ew & W). exists (w ++ a). split; [now rewrite <- app_assoc, <- Ea|].
        intros r2 E2. rewrite <- app_assoc, (W (a ++ r2)); [now apply L|].
        rewrite Ea. apply like_app. now right. }
      assert (F : forall e o s1, loop fuel (Some e) o (ws s1) = Ok (x, r) -> at_end r = true /\
                    exists w a, s1 = w ++ a ++ r /\ forall r2, at_end r2 = true -> like s1 (w ++ a ++ r2) /\ loop fuel (Some e) o (ws (w ++ a ++ r2)) = Ok (x, r2)).
      { intros e o s1 H. destruct (IH _ _ _ _ _ H) as (E0 & a & Ea & L). split; [exact E0|].
        destruct (ws_split s1) as (w & Ew & W). exists w, a. split; [rewrite Ew at 1; now rewrite Ea|].
        intros r2 E2. assert (K : like (ws s1) (a ++ r2)) by (rewrite Ea; apply like_app; now right). split.
        - rewrite Ew at 1. now apply like_app.
        - rewrite (W _ K). now apply L. }
      destruct expr as [e|].
      * destruct (smatch_any [lit "and"; lit "or"] s) as [[op s1]|] eqn:Eo; [|discriminate].
        destruct (logic_local _ _ _ Eo) as (Es & Nop & Lop).
        destruct (read_expr _ s1) as [[n s2]|] eqn:Er; [|discriminate]. cbn [bind].
        destruct (expr_local _ C _ _ _ Er) as (a1 & Ea1 & Na1 & L1).
        assert (G : forall e' o', loop fuel (Some e') o' (ws s2) = Ok (x, r) -> at_end r = true /\ exists a, s = a ++ r /\ forall r2, at_end r2 = true ->
                   exists s2', smatch_any [lit "and"; lit "or"] (a ++ r2) = Some (op, a1 ++ s2') /\ read_expr (fun s => loop fuel None [] (ws s)) (a1 ++ s2') = Ok (n, s2') /\
                   loop fuel (Some e') o' (ws s2') = Ok (x, r2)).
        { intros e' o' H. destruct (F _ _ _ H) as (E0 & w & a & Ew & L2). split; [exact E0|].
          exists (op ++ a1 ++ w ++ a). split.
          - rewrite <- !app_assoc. rewrite <- Ew, <- Ea1. exact Es.
          - intros r2 E2. destruct (L2 r2 E2) as [K L3]. exists (w ++ a ++ r2). rewrite <- !app_assoc. split; [apply Lop|]. split; [now apply L1|exact L3]. }
        destruct (str_eqb op "and") eqn:Ea.
        -- intros H. destruct (G _ _ H) as (E0 & a & Esa & L). split; [exact E0|]. exists a. split; [exact Esa|]. intros r2 E2.
           rewrite (head_of s a r Esa Ee E0 r2). destruct (L r2 E2) as (s2' & -> & -> & Lf). cbn [bind]. rewrite Ea. exact Lf.
        -- intros H. destruct (G _ _ H) as (E0 & a & Esa & L). split; [exact E0|]. exists a. split; [exact Esa|]. intros r2 E2.
           rewrite (head_of s a r Esa Ee E0 r2). destruct (L r2 E2) as (s2' & -> & -> & Lf). cbn [bind]. rewrite Ea. exact Lf.
      * destruct (read_expr _ s) as [[n s2]|] eqn:Er; [|discriminate]. cbn [bind]. intros H.
        destruct (expr_local _ C _ _ _ Er) as (a1 & Ea1 & Na1 & L1).
        destruct (F _ _ _ H) as (E0 & w & a & Ew & L2). split; [exact E0|].
        exists (a1 ++ w ++ a). assert (Esa : s = (a1 ++ w ++ a) ++ r) by (rewrite <- !app_assoc, <- Ew; exact Ea1).
        split; [exact Esa|]. intros r2 E2. rewrite (head_of s _ r Esa Ee E0 r2). destruct (L2 r2 E2) as [K L3].
        rewrite <- !app_assoc, (L1 _ K). cbn [bind]. exact L3.
Qed.

(** * The fuel is enough *)
Lemma local_shorter : forall A (f : str -> res (A * str)) s x r, local f -> f s = Ok (x, r) -> length r < length s.
Proof.
  intros A f s x r L H. destruct (L _ _ _ H) as (a & -> & N & _). rewrite app_length. destruct a; [contradiction|cbn [length]; lia].
Qed.
Lemma ws_length : forall s, length (ws s) <= length s.
Proof. intros s. destruct (ws_split s) as (w & E & _). rewrite E at 2. rewrite app_length. lia. Qed.
Lemma compound_local : forall fuel, local_end (fun s => loop fuel None [] (ws s)).
Proof.
  intros fuel s x r H. destruct (loop_local _ _ _ _ _ _ H) as (E0 & a & Ea & L). split; [exact E0|].
  destruct (ws_split s) as (w & Ew & W). exists (w ++ a). split; [now rewrite <- app_assoc, <- Ea|].
  intros r2 E2. rewrite <- app_assoc, (W (a ++ r2)); [now apply L|]. rewrite Ea. apply like_app. now right.
Qed.
Lemma read_expr_ext : forall f g s, (forall t, length t < length s -> f t = g t) -> read_expr f s = read_expr g s.
Proof.
  intros f g s H. unfold read_expr. destruct (smatch "(" (ws s)) as [s1|] eqn:E; [|reflexivity].
  apply smatch_split in E. pose proof (ws_length s) as L. rewrite E, app_length in L. cbn [length lit list_ascii_of_string] in L.
  rewrite (H s1) by lia. reflexivity.
Qed.
Lemma loop_fuel : forall f g expr ors s, length s < f -> length s < g -> loop f expr ors s = loop g expr ors s.
Proof.
  induction f as [|f IH]; intros g expr ors s Lf Lg; [lia|]. destruct g as [|g]; [lia|]. cbn [loop].
  destruct (at_end s); [reflexivity|].
  assert (X : forall s1, length s1 <= length s -> read_expr (fun s => loop f None [] (ws s)) s1 = read_expr (fun s => loop g None [] (ws s)) s1).
  { intros s1 L1. apply read_expr_ext. intros t Lt. pose proof (ws_length t). apply IH; lia. }
  assert (Y : forall s1 n s2 e o, length s1 <= length s -> read_expr (fun s => loop g None [] (ws s)) s1 = Ok (n, s2) ->
                loop f (Some e) o (ws s2) = loop g (Some e) o (ws s2)).
  { intros s1 n s2 e o L1 E. apply local_shorter in E; [|apply expr_local, compound_local]. pose proof (ws_length s2). apply IH; lia. }
  destruct expr as [e|].
  - destruct (smatch_any [lit "and"; lit "or"] s) as [[op s1]|] eqn:Eo; [|reflexivity].
    destruct (logic_local _ _ _ Eo) as (Es & _ & _). assert (L1 : length s1 <= length s) by (rewrite Es, app_length; lia).
    rewrite (X s1 L1). destruct (read_expr _ s1) as [[n s2]|] eqn:Er; [|reflexivity]. cbn [bind].
    rewrite !(Y s1 n s2 _ _ L1 Er). reflexivity.
  - rewrite (X s (le_n _)). destruct (read_expr _ s) as [[n s2]|] eqn:Er; [|reflexivity]. cbn [bind].
    exact (Y s n s2 _ _ (le_n _) Er).
Qed.

(** * Reading again what was read *)
Theorem print_parse : forall s m r, read_marker s = Ok (m, r) -> read_marker (marker_str m) = Ok (m, []).
Proof.
  intros s m r. unfold read_marker, read_compound. destruct (loop _ None [] (ws s)) as [[e r0]|] eqn:E; [|discriminate]. cbn [bind].
  intros H. injection H as <- <-. destruct (compound_local _ _ _ _ E) as (_ & a & Es & L).
  assert (Ea : firstn (length s - length r0) s = a).
  { rewrite Es, app_length, Nat.add_sub, firstn_app, firstn_all, Nat.sub_diag, firstn_O, app_nil_r. reflexivity. }
  unfold marker_str. cbn [m_text]. rewrite Ea. specialize (L [] eq_refl). rewrite app_nil_r in L.
  assert (La : length a <= length s) by (rewrite Es, app_length; lia).
  pose proof (ws_length a) as Lw.
  rewrite (loop_fuel (S (length a)) (S (length s)) None [] (ws a)) by lia. rewrite L. cbn [bind].
  cbn [length]. now rewrite Nat.sub_0_r, firstn_all.
Qed.
(** * The errors *)
Definition plain_err {A} (r : res A) : Prop := match r with Ok _ => True | Err e => e = ValueError \/ e = TypeError end.
Lemma plain_bind : forall A B (r : res A) (k : A -> res B), plain_err r -> (forall x, r = Ok x -> plain_err (k x)) -> plain_err (bind r k).
Proof. intros A B [x|e] k P K; [now apply K|exact P]. Qed.
Lemma var_plain : forall s, plain_err (read_var s).
Proof.
  intros s. unfold read_var. destruct s as [|c s]; [cbn; auto|].
  destruct (_ || _) eqn:E.
  - apply plain_bind; [|intros [t r] _; exact Logic.I]. unfold read_str. destruct (Ascii.eqb c squote || _); [|cbn; auto].
    destruct (span _ s) as [x r]. destruct (smatch [c] r); cbn; auto.
  - apply plain_bind; [|intros [t r] _; exact Logic.I]. unfold read_ident. destruct (is_alpha c); [exact Logic.I|cbn; auto].
Qed.
Lemma op_plain : forall s, plain_err (read_op s).
Proof.
  intros s. unfold read_op. destruct (smatch_any _ s) as [[op r]|]; [exact Logic.I|].
  destruct (smatch "in" s); [exact Logic.I|]. destruct (smatch "not" s) as [r|]; [|cbn; auto].
  destruct (smatch "in" (line_ws r)); [exact Logic.I|cbn; auto].
Qed.
Lemma atom_plain : forall s, plain_err (read_atom s).
Proof.
  intros s. unfold read_atom. apply plain_bind; [apply var_plain|]. intros [a s1] _.
  apply plain_bind; [apply op_plain|]. intros [o s2] _. apply plain_bind; [apply var_plain|]. intros [b s3] _. exact Logic.I.
Qed.
Lemma expr_plain : forall f s, (forall t, length t < length s -> plain_err (f t)) -> plain_err (read_expr f s).
Proof.
  intros f s H. unfold read_expr. destruct (smatch "(" (ws s)) as [s1|] eqn:E; [|apply atom_plain].
  apply smatch_split in E. pose proof (ws_length s) as L. rewrite E, app_length in L. cbn [length lit list_ascii_of_string] in L.
  apply plain_bind; [apply H; lia|]. intros [e s2] _. destruct (smatch ")" s2); [exact Logic.I|cbn; auto].
Qed.
Lemma loop_plain : forall f expr ors s, length s < f -> plain_err (loop f expr ors s).
Proof.
  induction f as [|f IH]; intros expr ors s L; [lia|]. cbn [loop]. destruct (at_end s).
  { destruct expr; [exact Logic.I|cbn; auto]. }
  assert (X : forall s1, length s1 <= length s -> plain_err (read_expr (fun s => loop f None [] (ws s)) s1)).
  { intros s1 L1. apply expr_plain. intros t Lt. pose proof (ws_length t). apply IH. lia. }
  assert (Y : forall s1 n s2 e o, length s1 <= length s -> read_expr (fun s => loop f None [] (ws s)) s1 = Ok (n, s2) ->
                plain_err (loop f (Some e) o (ws s2))).
  { intros s1 n s2 e o L1 E. apply local_shorter in E; [|apply expr_local, compound_local]. pose proof (ws_length s2). apply IH; lia. }
  destruct expr as [e|].
  - destruct (smatch_any [lit "and"; lit "or"] s) as [[op s1]|] eqn:Eo; [|cbn; auto].
    destruct (logic_local _ _ _ Eo) as (Es & _ & _). assert (L1 : length s1 <= length s) by (rewrite Es, app_length; lia).
    apply plain_bind; [now apply X|]. intros [n s2] Er. destruct (str_eqb op "and"); exact (Y s1 n s2 _ _ L1 Er).
  - apply plain_bind; [apply X; lia|]. intros [n s2] Er. exact (Y s n s2 _ _ (le_n _) Er).
Qed.
Theorem parse_plain : forall s, plain_err (parse_marker s).
Proof.
  intros s. unfold parse_marker, read_marker, read_compound. apply plain_bind; [|intros [m r] _; exact Logic.I].
  apply plain_bind; [|intros [m r] _; exact Logic.I]. apply loop_plain. pose proof (ws_length s). lia.
Qed.

(** * The grammar *)
Lemma letter_alpha : forall c, letter c -> is_alpha c = true.
Proof. intros c [H|H]; unfold letter in *; revert H; by_char c; intros [H1 H2]; exfalso; revert H1 H2; vm_compute; congruence. Qed.
Lemma letter_ident : forall c, letter c -> ident_char c = true.
Proof. intros c H. apply letter_alpha in H. unfold is_alpha in H. unfold ident_char, is_alnum. destruct (is_lower c), (is_upper c), (is_digit c); try reflexivity; discriminate. Qed.
Lemma digit_is : forall c, digit c -> is_digit c = true.
Proof. intros c [H1 H2]. unfold is_digit, in_range. apply andb_true_intro. split; now apply N.leb_le. Qed.
Lemma ident_ok : forall c, letter c \/ digit c \/ c = "_"%char \/ c = "."%char -> ident_char c = true.
Proof.
  intros c [H|[H|[H|H]]]; [now apply letter_ident| |now subst|now subst].
  apply digit_is in H. unfold ident_char, is_alnum. rewrite H. now rewrite ?orb_true_r, ?orb_true_l.
Qed.
Lemma in_chars_In : forall c s, In c s -> in_chars c s = true.
Proof. intros c s H. unfold in_chars. apply existsb_exists. exists c. split; [exact H|apply Ascii.eqb_refl]. Qed.
Lemma alnum_str : forall c, letter c \/ digit c -> c <> "J"%char -> in_chars c str_chars = true.
Proof.
  intros c H N. assert (E : is_alnum c = true).
  { destruct H as [H|H]; [apply letter_alpha in H; unfold is_alpha in H|apply digit_is in H]; unfold is_alnum.
    - destruct (is_digit c), (is_lower c), (is_upper c); try reflexivity; discriminate.
    - rewrite H. now rewrite ?orb_true_r, ?orb_true_l. }
  clear H. revert E N. by_char c.
Qed.
Lemma quotable_char : forall q c, quotable q c -> c <> "J"%char ->
  Ascii.eqb c (if Ascii.eqb q dquote then squote else dquote) || in_chars c str_chars = true.
Proof.
  intros q c [H|[[Hq Hc]|[Hq Hc]]] N.
  - apply orb_true_intro. right. destruct H as [H|[H|[H|[H|H]]]]; [now subst|now subst|apply alnum_str; auto|apply alnum_str; auto|].
    cbn [lit list_ascii_of_string In] in H.
    repeat (destruct H as [H|H]; [subst c; reflexivity|]). contradiction.
  - subst. reflexivity.
  - subst. reflexivity.
Qed.
Lemma var_read : forall v t r, var_text v t -> no_J t -> head_not ident_char r -> read_var (t ++ r) = Ok (v, r).
Proof.
  intros v t r V J F. destruct V as [q s Q S| |c n Lc Ln Ne].
  - assert (E : read_str ((q :: s ++ [q]) ++ r) = Ok (s, r)).
    { cbn [app read_str]. destruct (Ascii.eqb q squote || Ascii.eqb q dquote) eqn:Eq.
      2:{ destruct Q; subst q; discriminate. }
      rewrite <- app_assoc. cbn [app].
      rewrite span_app; [unfold smatch; cbn [starts_with]; rewrite Ascii.eqb_refl; reflexivity| |].
      - apply forallb_forall. intros c I. apply quotable_char; [now apply S|]. intros ->. apply J. right. apply in_or_app. now left.
      - unfold head_not. cbn [hd_error opt_test]. destruct Q; subst q; reflexivity. }
    cbn [app] in E |- *. unfold read_var.
    destruct (Ascii.eqb q dquote || Ascii.eqb q squote) eqn:Eq.
    2:{ destruct Q; subst q; discriminate. }
    now rewrite E.
  - unfold read_var. cbn [app lit list_ascii_of_string]. 
    change (Ascii.eqb "e" dquote || Ascii.eqb "e" squote) with false. cbv iota.
    unfold read_ident. change (is_alpha "e") with true. cbv iota.
    change ("e"%char :: "x"%char :: "t"%char :: "r"%char :: "a"%char :: r) with (lit "extra" ++ r).
    rewrite span_app; [reflexivity|reflexivity|exact F].
  - unfold read_var. cbn [app].
    assert (Eq : Ascii.eqb c dquote || Ascii.eqb c squote = false) by (apply letter_alpha in Lc; revert Lc; clear; by_char c).
    rewrite Eq. unfold read_ident. rewrite (letter_alpha _ Lc). change (c :: n ++ r) with ((c :: n) ++ r).
    rewrite span_app; [|cbn [forallb]; rewrite (letter_ident _ Lc); apply forallb_forall; intros x I; apply ident_ok; now apply Ln|exact F].
    cbn [bind]. destruct (str_eqb (c :: n) "extra") eqn:En; [apply str_eqb_eq in En; contradiction|reflexivity].
Qed.
Lemma blank_space : forall w, blank w -> forallb is_space w = true.
Proof. intros w B. apply forallb_forall. intros c I. destruct (B c I) as [E|E]; subst c; reflexivity. Qed.
Lemma ws_blank : forall w r, blank w -> head_not is_space r -> ws (w ++ r) = r.
Proof. intros w r B H. unfold ws. rewrite span_app; [reflexivity|now apply blank_space|exact H]. Qed.
Lemma op_read : forall o t r, op_text o t -> head_not (Ascii.eqb "=") r -> read_op (t ++ r) = Ok (o, r).
Proof.
  intros o t r O F. assert (N : starts_with "=" r = false).
  { destruct r as [|c r]; [reflexivity|]. cbn [starts_with lit list_ascii_of_string]. rewrite andb_true_r. exact F. }
  destruct O as [op I| |w B Nw].
  - destruct I as [<-|[<-|[<-|[<-|[<-|[<-|[<-|[]]]]]]]]; try reflexivity; unfold read_op; cbn [smatch_any].
    + apply lt_eq_none in N. now rewrite N, smatch_app.
    + change (smatch "<=" (lit ">" ++ r)) with (@None str). change (smatch "<" (lit ">" ++ r)) with (@None str). cbv iota.
      apply gt_eq_none in N. now rewrite N, smatch_app.
  - reflexivity.
  - unfold read_op. rewrite <- !app_assoc.
    change (smatch_any [lit "<="; lit "<"; lit ">="; lit ">"; lit "!="; lit "=="; lit "==="; lit "~="] (lit "not" ++ w ++ lit "in" ++ r)) with (@None (str * str)).
    change (smatch "in" (lit "not" ++ w ++ lit "in" ++ r)) with (@None str). cbv iota. rewrite smatch_app.
    unfold line_ws. rewrite span_app; [|apply forallb_forall; intros c I; destruct (B c I) as [E|E]; subst c; reflexivity|reflexivity].
    cbn [snd]. now rewrite smatch_app.
Qed.
(** the first character of the parts *)
Lemma var_head : forall v t, var_text v t -> exists c t', t = c :: t' /\
  ident_char c || (Ascii.eqb c squote || Ascii.eqb c dquote) = true.
Proof.
  intros v t V. destruct V as [q s Q S| |c n Lc Ln Ne].
  - exists q, (s ++ [q]). split; [reflexivity|]. destruct Q; subst q; reflexivity.
  - eexists _, _. split; reflexivity.
  - exists c, n. split; [reflexivity|]. now rewrite letter_ident.
Qed.
Lemma var_start_facts : forall c, ident_char c || (Ascii.eqb c squote || Ascii.eqb c dquote) = true ->
  is_space c = false /\ Ascii.eqb "=" c = false /\ Ascii.eqb "(" c = false /\ at_end [c] = false.
Proof. intros c. by_char c; intros _; repeat split. Qed.
Lemma op_head : forall o t, op_text o t -> exists c t', t = c :: t' /\ is_space c = false /\ (match o with OCmp _ => ident_char c = false | _ => True end).
Proof.
  intros o t O. destruct O as [op I| |w B Nw].
  - destruct I as [<-|[<-|[<-|[<-|[<-|[<-|[<-|[]]]]]]]]; eexists _, _; repeat split.
  - eexists _, _; repeat split.
  - eexists _, _; repeat split.
Qed.
Lemma blank_head : forall (f : ascii -> bool) w r, f " "%char = false -> f "009"%char = false -> blank w -> (w = [] -> head_not f r) -> head_not f (w ++ r).
Proof.
  intros f [|c w] r F1 F2 B H; [now apply H|]. unfold head_not. cbn [app hd_error opt_test].
  destruct (B c (or_introl eq_refl)) as [E|E]; subst c; assumption.
Qed.
Lemma atom_read : forall a ta w o tw w' b tb r,
  var_text a ta -> blank w -> op_text o tw -> blank w' -> var_text b tb -> apart a o w -> no_J (ta ++ w ++ tw ++ w' ++ tb) ->
  head_not ident_char r -> read_atom (ta ++ w ++ tw ++ w' ++ tb ++ r) = Ok (MAtom a o b, r).
Proof.
  intros a ta w o tw w' b tb r Va Bw O Bw' Vb Ap J F. unfold read_atom.
  destruct (op_head _ _ O) as (co & to & Eo & So & Io). destruct (var_head _ _ Vb) as (cb & tb' & Eb & Hb).
  destruct (var_start_facts _ Hb) as (Sb & Nb & _ & _).
  assert (Fa : (exists s, a = VText s) \/ head_not ident_char (w ++ tw ++ w' ++ tb ++ r)).
  { destruct a as [s| |n]; [left; now exists s| |]; right; apply blank_head; try reflexivity; try assumption; intros ->;
      destruct o as [op| |]; cbn [apart] in Ap; try contradiction; rewrite Eo; exact Io. }
  assert (Ja : no_J ta) by (intros I; apply J; apply in_or_app; now left).
  assert (Jb : no_J tb) by (intros I; apply J; rewrite !in_app_iff; auto).
  assert (Ra : read_var (ta ++ w ++ tw ++ w' ++ tb ++ r) = Ok (a, w ++ tw ++ w' ++ tb ++ r)).
  { destruct Fa as [[s ->]|Fa]; [|now apply var_read].
    (* a quoted text ends at its quote *)
    inversion Va as [q s' Q S| |]; subst. 
    unfold read_var. cbn [app].
    destruct (Ascii.eqb q dquote || Ascii.eqb q squote) eqn:Eq.
    2:{ destruct Q; subst q; discriminate. }
    cbn [read_str]. destruct (Ascii.eqb q squote || Ascii.eqb q dquote) eqn:Eq'.
    2:{ destruct Q; subst q; discriminate. }
    rewrite <- app_assoc. cbn [app].
    rewrite span_app; [unfold smatch; cbn [starts_with]; rewrite Ascii.eqb_refl; reflexivity| |].
    - apply forallb_forall. intros c I. apply quotable_char; [now apply S|]. intros ->. apply Ja. right. apply in_or_app. now left.
    - unfold head_not. cbn [hd_error opt_test]. destruct Q; subst q; reflexivity. }
  rewrite Ra. cbn [bind].
  rewrite ws_blank; [|exact Bw|rewrite Eo; exact So].
  rewrite (op_read _ _ _ O).
  2:{ apply blank_head; try reflexivity; [assumption|]. intros _. rewrite Eb. exact Nb. }
  cbn [bind]. rewrite ws_blank; [|exact Bw'|rewrite Eb; exact Sb].
  now rewrite (var_read _ _ _ Vb Jb F).
Qed.

(** the loop with enough fuel *)
Definition full (x : option mark) (ors : list mark) (s : str) : res (mark * str) := loop (S (length s)) x ors s.
Definition fcomp (s : str) : res (mark * str) := full None [] (ws s).
Definition next (ors : list mark) (s : str) : res (mark * str) := do (n, s') <- read_expr fcomp s; full (Some n) ors (ws s').
Lemma fcomp_eq : forall f s, length s < f -> loop f None [] (ws s) = fcomp s.
Proof. intros f s L. unfold fcomp, full. pose proof (ws_length s). apply loop_fuel; lia. Qed.
Lemma fcomp_local : local_end fcomp.
Proof.
  intros s x r H. unfold fcomp, full in H. pose proof (ws_length s) as L0.
  rewrite (loop_fuel _ (S (length s)) None [] (ws s)) in H by lia.
  destruct (compound_local _ _ _ _ H) as (E & a & Es & L). split; [exact E|]. exists a. split; [exact Es|].
  intros r2 E2. specialize (L r2 E2). pose proof (ws_length (a ++ r2)) as L1.
  unfold fcomp, full. destruct (Nat.le_gt_cases (length (ws (a ++ r2))) (length s)) as [C|C].
  - rewrite (loop_fuel _ (S (length s)) None [] _) by lia. exact L.
  - (* more fuel does not change a result *)
    assert (M : forall f g expr ors s x r, f <= g -> loop f expr ors s = Ok (x, r) -> loop g expr ors s = Ok (x, r)).
    { clear. induction f as [|f IH]; intros g expr ors s x r Lg H.
      - cbn [loop] in H. destruct (at_end s) eqn:E; [|discriminate]. destruct g; cbn [loop]; now rewrite E.
      - destruct g as [|g]; [lia|]. cbn [loop] in H |- *. destruct (at_end s); [exact H|].
        assert (X : forall s1 n s2, read_expr (fun s => loop f None [] (ws s)) s1 = Ok (n, s2) -> read_expr (fun s => loop g None [] (ws s)) s1 = Ok (n, s2)).
        { intros s1 n s2. unfold read_expr. destruct (smatch "(" (ws s1)) as [s3|]; [|auto].
          destruct (loop f None [] (ws s3)) as [[e s4]|] eqn:E; [|discriminate]. rewrite (IH g _ _ _ _ _ ltac:(lia) E). auto. }
        destruct expr as [e|].
        + destruct (smatch_any [lit "and"; lit "or"] s) as [[op s1]|]; [|discriminate].
          destruct (read_expr (fun s => loop f None [] (ws s)) s1) as [[n s2]|] eqn:Er; [|discriminate].
          rewrite (X _ _ _ Er). cbn [bind] in H |- *. destruct (str_eqb op "and"); apply IH; try lia; exact H.
        + destruct (read_expr (fun s => loop f None [] (ws s)) s) as [[n s2]|] eqn:Er; [|discriminate].
          rewrite (X _ _ _ Er). cbn [bind] in H |- *. apply IH; [lia|exact H]. }
    apply (M (S (length s))); [lia|exact L].
Qed.
Lemma full_end : forall e ors s, at_end s = true -> full (Some e) ors s = Ok (match ors with [] => e | _ => MAny (ors ++ [e]) end, s).
Proof. intros e ors s E. unfold full. cbn [loop]. rewrite E. reflexivity. Qed.
Lemma fexpr_eq : forall f s, length s <= f -> read_expr (fun s => loop f None [] (ws s)) s = read_expr fcomp s.
Proof. intros f s L. apply read_expr_ext. intros t Lt. apply fcomp_eq. lia. Qed.
Lemma full_next : forall f e o s1 n s2, length s1 <= f -> read_expr fcomp s1 = Ok (n, s2) -> loop f (Some e) o (ws s2) = full (Some e) o (ws s2).
Proof.
  intros f e o s1 n s2 L E. apply local_shorter in E; [|apply expr_local, fcomp_local]. pose proof (ws_length s2). apply loop_fuel; lia.
Qed.
Lemma full_start : forall ors s, at_end s = false -> full None ors s = next ors s.
Proof.
  intros ors s E. unfold full, next. cbn [loop]. rewrite E, (fexpr_eq _ _ (le_n _)).
  destruct (read_expr fcomp s) as [[n s2]|] eqn:Er; [|reflexivity]. cbn [bind]. exact (full_next _ _ _ _ _ _ (le_n _) Er).
Qed.
Lemma full_or : forall e ors s, full (Some e) ors (lit "or" ++ s) = next (ors ++ [e]) s.
Proof.
  intros e ors s. unfold full, next. cbn [loop].
  change (at_end (lit "or" ++ s)) with false. change (smatch_any [lit "and"; lit "or"] (lit "or" ++ s)) with (Some (lit "or", s)). cbv iota beta.
  change (str_eqb "or" "and") with false. cbv iota.
  assert (L : length s <= length (lit "or" ++ s)) by (rewrite app_length; lia).
  rewrite (fexpr_eq _ _ L). destruct (read_expr fcomp s) as [[n s2]|] eqn:Er; [|reflexivity]. cbn [bind]. exact (full_next _ _ _ _ _ _ L Er).
Qed.
Lemma full_and : forall e ors s, full (Some e) ors (lit "and" ++ s) = do (n, s') <- read_expr fcomp s; full (Some (MAnd e n)) ors (ws s').
Proof.
  intros e ors s. unfold full at 1. cbn [loop].
  change (at_end (lit "and" ++ s)) with false. change (smatch_any [lit "and"; lit "or"] (lit "and" ++ s)) with (Some (lit "and", s)). cbv iota beta.
  change (str_eqb "and" "and") with true. cbv iota.
  assert (L : length s <= length (lit "and" ++ s)) by (rewrite app_length; lia).
  rewrite (fexpr_eq _ _ L). destruct (read_expr fcomp s) as [[n s2]|] eqn:Er; [|reflexivity]. cbn [bind]. exact (full_next _ _ _ _ _ _ L Er).
Qed.
(** what may follow an expression *)
Definition follow (r : str) : Prop := match r with [] => True | c :: _ => c = " "%char \/ c = "009"%char \/ c = ";"%char \/ c = ")"%char end.
Lemma follow_ident : forall r, follow r -> head_not ident_char r.
Proof. intros [|c r] F; [reflexivity|]. destruct F as [E|[E|[E|E]]]; subst c; reflexivity. Qed.
Lemma follow_blank : forall w r, blank w -> w <> [] -> follow (w ++ r).
Proof. intros [|c w] r B N; [contradiction|]. cbn [app follow]. destruct (B c (or_introl eq_refl)) as [E|E]; subst c; auto. Qed.
Lemma follow_end : forall w r, blank w -> at_end r = true -> follow (w ++ r).
Proof.
  intros [|c w] r B E; [|apply follow_blank; [exact B|discriminate]]. cbn [app]. destruct r as [|c r]; [exact Logic.I|].
  apply end_char in E. cbn [follow]. tauto.
Qed.
(** the first character of an expression *)
Definition starts (t : str) : Prop := exists c t', t = c :: t' /\ is_space c = false /\ at_end [c] = false.
Scheme base_mind := Induction for base_text Sort Prop
with and_mind := Induction for and_text Sort Prop
with or_mind := Induction for or_text Sort Prop.
Combined Scheme texts_ind from base_mind, and_mind, or_mind.
Lemma starts_app : forall a b, starts a -> starts (a ++ b).
Proof. intros a b (c & t & -> & H). exists c, (t ++ b). split; [reflexivity|exact H]. Qed.
Lemma texts_start :
  (forall e t, base_text e t -> starts t) /\ (forall e t, and_text e t -> starts t) /\ (forall e t, or_text e t -> starts t).
Proof.
  apply (texts_ind (fun e t _ => starts t) (fun e t _ => starts t) (fun e t _ => starts t)); intros; try (now apply starts_app); try assumption.
  - apply starts_app. destruct (var_head _ _ v) as (c & t & -> & H). destruct (var_start_facts _ H) as (S1 & _ & _ & S2). exists c, t. auto.
  - eexists _, _. split; [reflexivity|]. split; reflexivity.
Qed.
Lemma starts_space : forall t r, starts t -> head_not is_space (t ++ r).
Proof. intros t r (c & t' & -> & S1 & _). exact S1. Qed.
Lemma starts_end : forall t r, starts t -> at_end (t ++ r) = false.
Proof. intros t r (c & t' & -> & _ & S2). exact S2. Qed.
Definition means (m : mark) (e : expr) : Prop := forall atom, eval atom m = sem atom e.
Lemma eval_any : forall atom l, eval atom (MAny l) = fold_right (fun m r => match eval atom m with Ok false => r | v => v end) (Ok false) l.
Proof. intros atom l. cbn [eval]. induction l as [|m l IH]; [reflexivity|]. cbn [fold_right]. now rewrite IH. Qed.
Definition all_of (ors : list mark) (m : mark) : mark := match ors with [] => m | _ => MAny (ors ++ [m]) end.
Lemma eval_all : forall atom ors m, eval atom (all_of ors m) = fold_right (fun m r => match eval atom m with Ok false => r | v => v end) (eval atom m) ors.
Proof.
  intros atom ors m. unfold all_of. destruct ors as [|x ors]; [reflexivity|]. rewrite eval_any, fold_right_app. cbn [fold_right].
  replace (match eval atom m with Ok false => Ok false | v => v end) with (eval atom m); [reflexivity|].
  destruct (eval atom m) as [[|]|]; reflexivity.
Qed.
Lemma no_J_app : forall a b, no_J (a ++ b) -> no_J a /\ no_J b.
Proof. intros a b H. split; intros I; apply H; apply in_or_app; auto. Qed.
Lemma grammar :
  (forall e t, base_text e t -> no_J t -> forall w r, blank w -> follow r -> exists m, read_expr fcomp (w ++ t ++ r) = Ok (m, r) /\ means m e) /\
  (forall e t, and_text e t -> no_J t -> forall w r, blank w -> follow r ->
     exists m, (forall ors, next ors (w ++ t ++ r) = full (Some m) ors (ws r)) /\ means m e) /\
  (forall e t, or_text e t -> no_J t -> forall w r, blank w -> follow r ->
     exists ors m, next [] (w ++ t ++ r) = full (Some m) ors (ws r) /\ means (all_of ors m) e).
Proof.
  apply (texts_ind
    (fun e t _ => no_J t -> forall w r, blank w -> follow r -> exists m, read_expr fcomp (w ++ t ++ r) = Ok (m, r) /\ means m e)
    (fun e t _ => no_J t -> forall w r, blank w -> follow r -> exists m, (forall ors, next ors (w ++ t ++ r) = full (Some m) ors (ws r)) /\ means m e)
    (fun e t _ => no_J t -> forall w r, blank w -> follow r -> exists ors m, next [] (w ++ t ++ r) = full (Some m) ors (ws r) /\ means (all_of ors m) e)).
  - intros a ta w o tw w' b tb Va Bw O Bw' Vb Ap J w0 r B0 F. exists (MAtom a o b). split; [|intros atom; reflexivity].
    destruct (var_head _ _ Va) as (c & t & Et & H). destruct (var_start_facts _ H) as (S1 & _ & S3 & S2).
    unfold read_expr. rewrite ws_blank; [|exact B0|rewrite Et; exact S1].
    assert (Np : smatch "(" ((ta ++ w ++ tw ++ w' ++ tb) ++ r) = None).
    { rewrite Et. unfold smatch. cbn [app starts_with lit list_ascii_of_string]. now rewrite S3. }
    rewrite Np, <- !app_assoc. apply atom_read; try assumption. now apply follow_ident.
  - intros e t w w' T IH Bw Bw' J w0 r B0 F.
    apply no_J_app in J. destruct J as [_ J]. apply no_J_app in J. destruct J as [_ J]. apply no_J_app in J. destruct J as [J _].
    assert (F' : follow (w' ++ lit ")" ++ r)) by (apply follow_end; [exact Bw'|reflexivity]).
    destruct (IH J [] (w' ++ lit ")" ++ r)) as (ors & m & E & M); [intros c []|exact F'|].
    exists (all_of ors m). split; [|exact M].
    unfold read_expr. rewrite ws_blank; [|exact B0|reflexivity]. rewrite <- !app_assoc, smatch_app.
    pose proof (proj2 (proj2 texts_start) _ _ T) as St.
    unfold fcomp at 1. rewrite ws_blank; [|exact Bw|now apply starts_space].
    rewrite full_start by now apply starts_end. cbn [app] in E. rewrite E.
    rewrite ws_blank; [|exact Bw'|reflexivity]. rewrite full_end by reflexivity. cbn [bind]. now rewrite smatch_app.
  - intros e t T IH J w r B F. destruct (IH J w r B F) as (m & E & M). exists m. split; [|exact M].
    intros ors. unfold next. rewrite E. reflexivity.
  - intros a ta w w' b tb Ta IHa Bw Nw Bw' Tb IHb J w0 r B0 F.
    apply no_J_app in J. destruct J as [Ja J]. apply no_J_app in J. destruct J as [_ J]. apply no_J_app in J. destruct J as [_ J].
    apply no_J_app in J. destruct J as [_ Jb].
    destruct (IHb Jb w' r Bw' F) as (mb & Eb & Mb).
    destruct (IHa Ja w0 (w ++ lit "and" ++ w' ++ tb ++ r)) as (ma & Ea & Ma); [exact B0|now apply follow_blank|].
    exists (MAnd ma mb). split.
    + intros ors. rewrite <- !app_assoc, Ea. rewrite ws_blank; [|exact Bw|reflexivity]. rewrite full_and, Eb. reflexivity.
    + intros atom. cbn [eval sem]. now rewrite Ma, Mb.
  - intros e t T IH J w r B F. destruct (IH J w r B F) as (m & E & M). exists [], m. split; [apply E|exact M].
  - intros a ta w w' b tb Ta IHa Bw Nw Bw' Tb IHb J w0 r B0 F.
    apply no_J_app in J. destruct J as [Ja J]. apply no_J_app in J. destruct J as [_ J]. apply no_J_app in J. destruct J as [_ J].
    apply no_J_app in J. destruct J as [_ Jb].
    destruct (IHb Jb w' r Bw' F) as (mb & Eb & Mb).
    destruct (IHa Ja w0 (w ++ lit "or" ++ w' ++ tb ++ r)) as (ors & ma & Ea & Ma); [exact B0|now apply follow_blank|].
    exists (ors ++ [ma]), mb. split.
    + rewrite <- !app_assoc, Ea. rewrite ws_blank; [|exact Bw|reflexivity]. rewrite full_or. apply Eb.
    + intros atom. cbn [sem]. rewrite eval_all, fold_right_app. cbn [fold_right]. rewrite <- Ma, eval_all, <- Mb.
      generalize (eval atom mb) as v. intros v. clear Ea Ma. induction ors as [|x ors IH]; cbn [fold_right]; [reflexivity|].
      destruct (eval atom x) as [[|]|]; [reflexivity|exact IH|reflexivity].
Qed.
Theorem parse_grammar : forall e t w w' r, or_text e t -> no_J t -> blank w -> blank w' -> at_end r = true ->
  exists m, read_marker (w ++ t ++ w' ++ r) = Ok (m, r) /\ marker_str m = w ++ t ++ w' /\ means (m_exec m) e.
Proof.
  intros e t w w' r T J B B' E. destruct (proj2 (proj2 grammar) e t T J [] (w' ++ r)) as (ors & m & En & M); [intros c []|now apply follow_end|].
  cbn [app] in En. pose proof (proj2 (proj2 texts_start) _ _ T) as St.
  assert (Hr : head_not is_space r) by (destruct r as [|c r]; [reflexivity|apply end_char in E; destruct E as [E|E]; subst c; reflexivity]).
  assert (C : read_compound (w ++ t ++ w' ++ r) = Ok (all_of ors m, r)).
  { unfold read_compound. rewrite fcomp_eq by lia. unfold fcomp. rewrite ws_blank; [|exact B|now apply starts_space].
    rewrite full_start by now apply starts_end. rewrite En. rewrite ws_blank; [|exact B'|exact Hr]. now rewrite full_end. }
  exists (Marker (w ++ t ++ w') (all_of ors m)). split; [|split; [reflexivity|exact M]].
  unfold read_marker. rewrite C. cbn [bind]. do 3 f_equal.
  replace (w ++ t ++ w' ++ r) with ((w ++ t ++ w') ++ r) by now rewrite <- !app_assoc.
  now rewrite app_length, Nat.add_sub, firstn_app, firstn_all, Nat.sub_diag, firstn_O, app_nil_r.
Qed.
