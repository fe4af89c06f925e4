(** Lemmas about projects (ProjectModel). *)
From Coq Require Import String Ascii List Bool NArith Arith Lia.
From Verif Require Import Base BaseFacts ParserModel ParserFacts FsModel FsFacts VersionModel MarkerModel MarkerSpec MarkerProofs
  DependencyModel SharedModel SharedProofs ProjectModel.
Import ListNotations.
Open Scope string_scope.
Open Scope nat_scope.
Open Scope list_scope.
Open Scope bool_scope.

(** * The text of a marker does not end with a semicolon *)
Definition no_semi (a : str) : Prop := last a " "%char <> ";"%char.
Definition tidy (s r : str) : Prop := exists a, s = a ++ r /\ no_semi a.
Lemma no_semi_app : forall a b, no_semi a -> no_semi b -> no_semi (a ++ b).
Proof.
  intros a b A B. unfold no_semi in *. destruct b as [|c b] using rev_ind; [rewrite app_nil_r; exact A|].
  rewrite app_assoc, last_last. rewrite last_last in B. exact B.
Qed.
Lemma tidy_trans : forall s t r, tidy s t -> tidy t r -> tidy s r.
Proof. intros s t r (a & -> & A) (b & -> & B). exists (a ++ b). rewrite app_assoc. split; [reflexivity|]. apply no_semi_app; assumption. Qed.
Lemma no_semi_all : forall f a, f ";"%char = false -> forallb f a = true -> no_semi a.
Proof.
  intros f a F H. unfold no_semi. destruct a as [|c a] using rev_ind; [discriminate|]. rewrite last_last. rewrite forallb_app in H.
  apply andb_true_iff in H. destruct H as [_ H]. cbn [forallb] in H. rewrite andb_true_r in H. intros ->. congruence.
Qed.
Lemma tidy_span : forall f s a r, f ";"%char = false -> span f s = (a, r) -> tidy s r.
Proof. intros f s a r F H. destruct (span_split _ _ _ _ H) as (E & A & _). exists a. split; [exact E|apply (no_semi_all f a F A)]. Qed.
Lemma tidy_ws : forall s, tidy s (ws s).
Proof. intro s. unfold ws. destruct (span is_space s) as [a r] eqn:E. eapply tidy_span; [|exact E]. reflexivity. Qed.
Lemma tidy_smatch : forall x s r, no_semi x -> smatch x s = Some r -> tidy s r.
Proof. intros x s r N H. apply smatch_split in H. exists x. auto. Qed.
Lemma tidy_smatch_any : forall l x s r, (forall y, In y l -> no_semi y) -> smatch_any l s = Some (x, r) -> tidy s r.
Proof.
  induction l as [|y l IH]; intros x s r N; cbn [smatch_any]; [discriminate|].
  destruct (smatch y s) as [s1|] eqn:E.
  - intro H. injection H as <- <-. eapply tidy_smatch; [|exact E]. apply N. left. reflexivity.
  - apply IH. intros z Hz. apply N. right. exact Hz.
Qed.
Lemma tidy_ident : forall s x r, read_ident s = Ok (x, r) -> tidy s r.
Proof.
  intros s x r. unfold read_ident. destruct s as [|c s]; [discriminate|]. destruct (is_alpha c); [|discriminate].
  intro H. assert (H' : span ident_char (c :: s) = (x, r)) by congruence. eapply tidy_span; [|exact H']. reflexivity.
Qed.
Lemma tidy_str : forall s x r, read_str s = Ok (x, r) -> tidy s r.
Proof.
  intros s x r. unfold read_str. destruct s as [|q s]; [discriminate|].
  destruct (Ascii.eqb q squote || Ascii.eqb q dquote) eqn:Q; [|discriminate].
  destruct (span _ s) as [c r1] eqn:E. destruct (smatch [q] r1) as [r2|] eqn:M; [|discriminate]. intro H. injection H as <- <-.
  destruct (span_split _ _ _ _ E) as (-> & _ & _). apply smatch_split in M. subst r1. exists (q :: c ++ [q]). split.
  - cbn [app]. rewrite <- app_assoc. reflexivity.
  - unfold no_semi. change (q :: c ++ [q]) with ((q :: c) ++ [q]). rewrite last_last. intros ->. discriminate.
Qed.
Lemma tidy_var : forall s x r, read_var s = Ok (x, r) -> tidy s r.
Proof.
  intros s x r. unfold read_var. destruct (match s with [] => true | _ => _ end).
  - destruct (read_str s) as [[t r1]|] eqn:E; [|discriminate]. cbn [bind]. intro H. injection H as <- <-. eapply tidy_str, E.
  - destruct (read_ident s) as [[t r1]|] eqn:E; [|discriminate]. cbn [bind]. intro H. injection H as <- <-. eapply tidy_ident, E.
Qed.
Lemma tidy_op : forall s x r, read_op s = Ok (x, r) -> tidy s r.
Proof.
  intros s x r. unfold read_op. destruct (smatch_any _ s) as [[op r1]|] eqn:E.
  - intro H. injection H as <- <-. eapply tidy_smatch_any; [|exact E]. intros y Hy.
    repeat (destruct Hy as [<-|Hy]; [discriminate|]). contradiction.
  - destruct (smatch "in" s) as [r1|] eqn:E1; [intro H; injection H as <- <-; eapply tidy_smatch; [|exact E1]; discriminate|].
    destruct (smatch "not" s) as [r1|] eqn:E2; [|discriminate]. destruct (smatch "in" (line_ws r1)) as [r2|] eqn:E3; [|discriminate].
    intro H. injection H as <- <-. eapply tidy_trans; [eapply tidy_smatch; [|exact E2]; discriminate|].
    eapply tidy_trans; [|eapply tidy_smatch; [|exact E3]; discriminate].
    unfold line_ws. destruct (span _ r1) as [a r3] eqn:E4. eapply tidy_span; [|exact E4]. reflexivity.
Qed.
Lemma tidy_atom : forall s x r, read_atom s = Ok (x, r) -> tidy s r.
Proof.
  intros s x r. unfold read_atom. destruct (read_var s) as [[a s1]|] eqn:E1; [|discriminate]. cbn [bind].
  destruct (read_op (ws s1)) as [[o s2]|] eqn:E2; [|discriminate]. cbn [bind].
  destruct (read_var (ws s2)) as [[b s3]|] eqn:E3; [|discriminate]. cbn [bind]. intro H. injection H as <- <-.
  eapply tidy_trans; [eapply tidy_var, E1|]. eapply tidy_trans; [apply tidy_ws|]. eapply tidy_trans; [eapply tidy_op, E2|].
  eapply tidy_trans; [apply tidy_ws|]. eapply tidy_var, E3.
Qed.
Lemma tidy_expr : forall f s x r, (forall s x r, f s = Ok (x, r) -> tidy s r) -> read_expr f s = Ok (x, r) -> tidy s r.
Proof.
  intros f s x r F. unfold read_expr. destruct (smatch "(" (ws s)) as [s1|] eqn:E.
  - destruct (f s1) as [[e s2]|] eqn:E2; [|discriminate]. cbn [bind]. destruct (smatch ")" s2) as [s3|] eqn:E3; [|discriminate].
    intro H. injection H as <- <-. eapply tidy_trans; [apply tidy_ws|]. eapply tidy_trans; [eapply tidy_smatch; [|exact E]; discriminate|].
    eapply tidy_trans; [eapply F, E2|]. eapply tidy_smatch; [|exact E3]. discriminate.
  - intro H. eapply tidy_trans; [apply tidy_ws|]. eapply tidy_atom, H.
Qed.
Lemma tidy_loop : forall fuel e o s x r, loop fuel e o s = Ok (x, r) -> tidy s r.
Proof.
  induction fuel as [|fuel IH]; intros e o s x r; cbn [loop]; destruct (at_end s) eqn:A.
  1,3: destruct (finish e o); [|discriminate]; cbn [bind]; intro H; injection H as <- <-; exists []; split; [reflexivity|discriminate].
  - discriminate.
  - assert (F : forall s x r, (fun s => loop fuel None [] (ws s)) s = Ok (x, r) -> tidy s r).
    { intros s0 x0 r0 H. eapply tidy_trans; [apply tidy_ws|]. eapply IH, H. }
    destruct e as [e|].
    + destruct (smatch_any [lit "and"; lit "or"] s) as [[op s1]|] eqn:E; [|discriminate].
      destruct (read_expr _ s1) as [[n s2]|] eqn:E2; [|discriminate]. cbn [bind]. intro H.
      eapply tidy_trans; [eapply tidy_smatch_any; [|exact E]; intros y Hy; repeat (destruct Hy as [<-|Hy]; [discriminate|]); contradiction|].
      eapply tidy_trans; [eapply tidy_expr; [exact F|exact E2]|]. eapply tidy_trans; [apply tidy_ws|].
      destruct (str_eqb op "and"); eapply IH, H.
    + destruct (read_expr _ s) as [[n s2]|] eqn:E2; [|discriminate]. cbn [bind]. intro H.
      eapply tidy_trans; [eapply tidy_expr; [exact F|exact E2]|]. eapply tidy_trans; [apply tidy_ws|]. eapply IH, H.
Qed.
Lemma marker_no_semi : forall s m r, read_marker s = Ok (m, r) -> no_semi (marker_str m).
Proof.
  intros s m r. unfold read_marker, read_compound. destruct (loop _ None [] (ws s)) as [[e r0]|] eqn:E; [|discriminate]. cbn [bind].
  intro H. injection H as <- <-. assert (T : tidy s r0) by (eapply tidy_trans; [apply tidy_ws|eapply tidy_loop, E]).
  destruct T as (a & Ea & N). unfold marker_str. cbn [m_text].
  assert (Q : firstn (length s - length r0) s = a).
  { rewrite Ea, app_length, Nat.add_sub, firstn_app, firstn_all, Nat.sub_diag, firstn_O, app_nil_r. reflexivity. }
  rewrite Q. exact N.
Qed.
Lemma rstrip_no_semi : forall a, no_semi a -> rstrip_semi a = a.
Proof.
  intros a N. unfold rstrip_semi. destruct a as [|c a] using rev_ind; [reflexivity|]. unfold no_semi in N. rewrite last_last in N.
  rewrite rev_unit. cbn [span]. destruct (Ascii.eqb c ";") eqn:E; [apply Ascii.eqb_eq in E; contradiction|]. cbn [snd].
  cbn [rev]. rewrite rev_involutive. reflexivity.
Qed.
(** reading again the text of a marker stops at a semicolon that follows *)
Lemma print_parse_semi : forall s m r t, read_marker s = Ok (m, r) -> read_marker (marker_str m ++ lit ";" ++ t) = Ok (m, lit ";" ++ t).
Proof.
  intros s m r t. unfold read_marker, read_compound. destruct (loop _ None [] (ws s)) as [[e r0]|] eqn:E; [|discriminate]. cbn [bind].
  intros H. injection H as <- <-. destruct (compound_local _ _ _ _ E) as (_ & a & Es & L).
  assert (Ea : firstn (length s - length r0) s = a).
  { rewrite Es, app_length, Nat.add_sub, firstn_app, firstn_all, Nat.sub_diag, firstn_O, app_nil_r. reflexivity. }
  unfold marker_str. cbn [m_text]. rewrite Ea. specialize (L (lit ";" ++ t) eq_refl).
  assert (Q : loop (S (length (a ++ lit ";" ++ t))) None [] (ws (a ++ lit ";" ++ t)) = Ok (e, lit ";" ++ t)).
  { pose proof (ws_length (a ++ lit ";" ++ t)) as Lw.
    rewrite (loop_fuel (S (length (a ++ lit ";" ++ t))) (S (length s) + S (length (a ++ lit ";" ++ t))) None [] (ws (a ++ lit ";" ++ t))) by lia.
    assert (M : forall f g e0 o s0 x, loop f e0 o s0 = Ok x -> f <= g -> loop g e0 o s0 = Ok x).
    { clear. induction f as [|f IH]; intros g e0 o s0 x; cbn [loop].
      - destruct (at_end s0) eqn:A; [|discriminate]. intros H _. destruct g; cbn [loop]; rewrite A; exact H.
      - intros H G. destruct g as [|g]; [lia|]. cbn [loop]. destruct (at_end s0); [exact H|].
        assert (R : forall s1 y, read_expr (fun s => loop f None [] (ws s)) s1 = Ok y -> read_expr (fun s => loop g None [] (ws s)) s1 = Ok y).
        { intros s1 y. unfold read_expr. destruct (smatch "(" (ws s1)) as [s2|]; [|auto].
          destruct (loop f None [] (ws s2)) as [p|] eqn:Q; [|discriminate]. rewrite (IH g None [] (ws s2) p Q) by lia. auto. }
        destruct e0 as [e0|].
        + destruct (smatch_any [lit "and"; lit "or"] s0) as [[op s1]|]; [|discriminate].
          destruct (read_expr _ s1) as [[n s2]|] eqn:Q in H; [|discriminate]. rewrite (R _ _ Q). cbn [bind] in H |- *.
          destruct (str_eqb op "and"); apply IH; (exact H || lia).
        + destruct (read_expr _ s0) as [[n s2]|] eqn:Q in H; [|discriminate]. rewrite (R _ _ Q). cbn [bind] in H |- *. apply IH; (exact H || lia). }
    apply (M (S (length s))); [exact L|lia]. }
  rewrite Q. cbn [bind]. rewrite !app_length, Nat.add_sub, firstn_app, firstn_all, Nat.sub_diag, firstn_O, app_nil_r. reflexivity.
Qed.
(** a dependency with a marker of its own stays as it is *)
Lemma guard_marked : forall g d s m r, d_marker d = Some m -> read_marker s = Ok (m, r) -> guard_dep g d = Ok d.
Proof.
  intros g d s m r D H. unfold guard_dep. rewrite D. destruct (guards g (marker_str m)); [reflexivity|].
  rewrite rstrip_no_semi by (eapply marker_no_semi, H). unfold parse_marker. rewrite (print_parse_semi s m r _ H). cbn [bind].
  unfold with_marker. rewrite <- D. destruct d; reflexivity.
Qed.

(** * A dependency without a marker *)
Lemma str_mem_in : forall x l, str_mem x l = true <-> In x l.
Proof.
  intros x l. unfold str_mem. rewrite existsb_exists. split.
  - intros (y & H & E). apply str_eqb_eq in E. now subst.
  - intros H. exists x. split; [exact H|apply str_eqb_refl].
Qed.
Lemma guard_plain : forall g d, d_marker d = None -> (forall c, In c g -> quotable squote c) -> no_J g ->
  exists m, guard_dep g d = Ok (with_marker d m) /\ forall u env extras, is_applicable_for u (with_marker d m) env extras = Ok (str_mem g extras).
Proof.
  intros g d D Q J. unfold guard_dep. rewrite D.
  assert (T : or_text (EAtom VExtra (OCmp "==") (VText g)) (extra_is g)).
  { apply T_ands, T_base. change (extra_is g) with (lit "extra" ++ [] ++ lit "==" ++ [] ++ (squote :: g ++ [squote])).
    apply T_atom; [apply T_extra|intros c []| |intros c []|apply T_text; [left; reflexivity|exact Q]|exact Logic.I].
    apply T_cmp. do 5 right. left. reflexivity. }
  assert (NJ : no_J (extra_is g)).
  { unfold no_J, extra_is, quoted_by. intro X. apply in_app_or in X. destruct X as [X|X].
    - cbn in X. repeat (destruct X as [X|X]; [discriminate|]). contradiction.
    - destruct X as [X|X]; [discriminate|]. apply in_app_or in X. destruct X as [X|[X|[]]]; [exact (J X)|discriminate]. }
  destruct (parse_grammar _ _ [] [] [] T NJ) as (m & E & _ & M); [intros c []|intros c []|reflexivity|].
  cbn [app] in E. rewrite !app_nil_r in E. exists m. unfold parse_marker. rewrite E. cbn [bind]. split; [reflexivity|].
  intros u env extras. unfold is_applicable_for, with_marker, evaluate_on. cbn [d_marker]. rewrite M. reflexivity.
Qed.
Lemma guard_deps_length : forall g l r, guard_deps g l = Ok r -> length r = length l.
Proof.
  induction l as [|d l IH]; intros r; cbn [guard_deps]; [intro H; injection H as <-; reflexivity|].
  destruct (guard_dep g d); [|discriminate]. cbn [bind]. destruct (guard_deps g l) as [r1|]; [|discriminate]. cbn [bind].
  intro H. injection H as <-. cbn [length]. f_equal. apply IH. reflexivity.
Qed.
Lemma guard_deps_in : forall g l r d, guard_deps g l = Ok r -> (In d r <-> exists d0, In d0 l /\ guard_dep g d0 = Ok d).
Proof.
  induction l as [|d0 l IH]; intros r d; cbn [guard_deps].
  - intro H. injection H as <-. split; [intros []|intros (x & [] & _)].
  - destruct (guard_dep g d0) as [d1|] eqn:E; [|discriminate]. cbn [bind]. destruct (guard_deps g l) as [r1|]; [|discriminate]. cbn [bind].
    intro H. injection H as <-. specialize (IH r1 d eq_refl). split.
    + intros [<-|X]; [exists d0; split; [left; reflexivity|exact E]|]. apply IH in X. destruct X as (x & X & Y). exists x. split; [right; exact X|exact Y].
    + intros (x & [<-|X] & Y); [left; congruence|right]. apply IH. exists x. auto.
Qed.
Lemma all_deps_in : forall deps groups l d, all_dependencies deps groups = Ok l ->
  (In d l <-> In d deps \/ exists g ds d0, In (g, ds) groups /\ In d0 ds /\ guard_dep g d0 = Ok d).
Proof.
  intros deps groups l d. unfold all_dependencies. destruct (optional_deps groups) as [o|] eqn:E; [|discriminate]. cbn [bind].
  intro H. injection H as <-. rewrite in_app_iff. apply or_iff_compat_l. revert o E.
  induction groups as [|[g ds] groups IH]; intros o; cbn [optional_deps].
  - intro H. injection H as <-. split; [intros []|intros (? & ? & ? & [] & _)].
  - destruct (guard_deps g ds) as [l1|] eqn:E1; [|discriminate]. cbn [bind]. destruct (optional_deps groups) as [o1|]; [|discriminate]. cbn [bind].
    intro H. injection H as <-. rewrite in_app_iff, (guard_deps_in g ds l1 d E1), (IH o1 eq_refl). split.
    + intros [(d0 & A & B)|(g' & ds' & d0 & A & B & C)]; [exists g, ds, d0|exists g', ds', d0]; (split; [|auto]); [left; reflexivity|right; exact A].
    + intros (g' & ds' & d0 & [A|A] & B & C).
      * injection A as <- <-. left. exists d0. auto.
      * right. exists g', ds', d0. auto.
Qed.

(** * Cleaning the build directory *)
Definition g_entry (names : list str) (dist : path) (c : str) (L : path -> option node) (q : path) : Prop :=
  match L (c :: dist) with
  | Some Dir => ~ In c names /\ under (c :: dist) q = true
  | _ => q = c :: dist
  end.
Lemma entry_spec : forall names dist f c q,
  (g_entry names dist c (lookup f) q /\ lookup (clean_entry names dist f c) q = None) \/
  (~ g_entry names dist c (lookup f) q /\ lookup (clean_entry names dist f c) q = lookup f q).
Proof.
  intros names dist f c q. unfold g_entry, clean_entry, is_dir.
  assert (R : (q = c :: dist /\ lookup (remove_path f (c :: dist)) q = None) \/ (q <> c :: dist /\ lookup (remove_path f (c :: dist)) q = lookup f q)).
  { rewrite lookup_remove. destruct (path_eqb q (c :: dist)) eqn:Q; [apply path_eqb_eq in Q; left; auto|apply path_eqb_neq in Q; right; auto]. }
  destruct (lookup f (c :: dist)) as [[|]|] eqn:D; [exact R| |exact R].
  destruct (str_mem c names) eqn:M.
  - right. split; [|reflexivity]. apply str_mem_in in M. tauto.
  - rewrite lookup_remove_tree. destruct (under (c :: dist) q) eqn:U; [left|right]; (split; [|reflexivity]).
    + split; [|reflexivity]. intro X. apply str_mem_in in X. congruence.
    + intros [_ X]. discriminate.
Qed.
Lemma clean_spec : forall f dist keep f' q, clean_dist f dist keep = Ok f' -> is_dir f dist = true ->
  ((exists c, lookup f (c :: dist) <> None /\ g_entry (map version_str keep) dist c (lookup f) q) /\ lookup f' q = None) \/
  ((forall c, lookup f (c :: dist) <> None -> ~ g_entry (map version_str keep) dist c (lookup f) q) /\ lookup f' q = lookup f q).
Proof.
  intros f dist keep f' q. unfold clean_dist, iterdir. intros H D. rewrite D in H. cbn [bind] in H.
  assert (X : exists_at f dist = true) by (apply exists_at_true; apply is_dir_true in D; congruence). rewrite X in H. cbn [negb] in H.
  injection H as <-.
  destruct (loop_spec dist (clean_entry (map version_str keep) dist) (g_entry (map version_str keep) dist)) with (l := children f dist) (f := f) (q := q)
    as [[(c & A & B) R]|[A R]].
  - intros. apply entry_spec.
  - intros c L L' q0 E. unfold g_entry. rewrite (E (c :: dist)) by apply under_refl. auto.
  - intros c L q0. unfold g_entry. destruct (L (c :: dist)) as [[|]|]; [intros ->; apply under_refl|tauto|intros ->; apply under_refl].
  - apply children_nodup.
  - left. split; [exists c; split; [apply children_in, A|exact B]|exact R].
  - right. split; [intros c C; apply A, children_in, C|exact R].
Qed.

(** * References *)
Definition without (c : ascii) (s : str) : Prop := ~ In c s.
Lemma forallb_without : forall c s, without c s -> forallb (fun x => negb (Ascii.eqb x c)) s = true.
Proof. intros c s W. apply forallb_forall. intros x Hx. destruct (Ascii.eqb x c) eqn:E; [|reflexivity]. apply Ascii.eqb_eq in E. subst. contradiction. Qed.
Lemma span_to : forall c a r, without c a -> span (fun x => negb (Ascii.eqb x c)) (a ++ c :: r) = (a, c :: r).
Proof. intros c a r W. apply span_app; [apply forallb_without, W|]. unfold head_not. cbn. rewrite Ascii.eqb_refl. reflexivity. Qed.
Lemma span_end : forall c a, without c a -> span (fun x => negb (Ascii.eqb x c)) a = (a, []).
Proof. intros c a W. rewrite <- (app_nil_r a) at 1. apply span_app; [apply forallb_without, W|reflexivity]. Qed.
(** no blanks at the ends *)
Definition trimmed (s : str) : Prop := match s with [] => True | c :: _ => is_space c = false /\ is_space (last s c) = false end.
Lemma strip_trimmed : forall s, trimmed s -> strip s = s.
Proof.
  intros s T. unfold strip. destruct s as [|c s]; [reflexivity|]. destruct T as [A B]. cbn [span]. rewrite A. cbn [snd].
  destruct s as [|d s] using rev_ind.
  - cbn [rev app span]. rewrite A. reflexivity.
  - change (c :: s ++ [d]) with ((c :: s) ++ [d]) in *. rewrite last_last in B. rewrite rev_unit. cbn [span]. rewrite B. cbn [snd].
    change (d :: rev (c :: s)) with ([d] ++ rev (c :: s)). rewrite rev_app_distr, rev_involutive. reflexivity.
Qed.
Lemma strip_space : forall s, strip (" "%char :: s) = strip s.
Proof. intro s. unfold strip. cbn [span]. change (is_space " ") with true. cbv iota. destruct (span is_space s). reflexivity. Qed.
Lemma split_extras_join : forall x l, (forall y, In y (x :: l) -> without "," y /\ trimmed y) -> split_extras (join (lit ", ") (x :: l)) = x :: l.
Proof.
  intros x l. unfold split_extras. revert x. induction l as [|y l IH]; intros x H.
  - cbn [join]. rewrite split_on_single by (apply H; left; reflexivity). cbn [map]. rewrite strip_trimmed by (apply H; left; reflexivity). reflexivity.
  - change (join (lit ", ") (x :: y :: l)) with (x ++ ","%char :: " "%char :: join (lit ", ") (y :: l)).
    rewrite split_on_app by (apply H; left; reflexivity). cbn [map]. rewrite strip_trimmed by (apply H; left; reflexivity). f_equal.
    specialize (IH y (fun z Hz => H z (or_intror Hz))).
    assert (S : forall t, map strip (split_on "," (" "%char :: t)) = map strip (split_on "," t)).
    { intro t. cbn [split_on]. change (Ascii.eqb " " ",") with false. cbv iota. destruct (split_on "," t) as [|a b] eqn:E.
      - exfalso. exact (split_on_nonempty _ _ E).
      - cbn [map]. rewrite strip_space. reflexivity. }
    rewrite S. exact IH.
Qed.

Lemma oref_plain : forall m o, without ":" m -> without "[" o -> o <> [] -> oref_parse (oref_str (ORef m (Some o) None)) = ORef m (Some o) None.
Proof.
  intros m o M O N. unfold oref_str. cbn [o_module o_object o_extras]. destruct o as [|c o]; [contradiction|]. rewrite app_nil_r.
  change (lit ":" ++ c :: o) with (":"%char :: c :: o). unfold oref_parse. rewrite (span_to ":" m _ M). rewrite (span_end "[" _ O). reflexivity.
Qed.
Lemma oref_module : forall m, without ":" m -> oref_parse (oref_str (ORef m None None)) = ORef m None None.
Proof. intros m M. unfold oref_str. cbn [o_module o_object o_extras app]. rewrite app_nil_r. unfold oref_parse. rewrite (span_end ":" _ M). reflexivity. Qed.
Definition extra_ok (x : str) : Prop := without "," x /\ without "]" x /\ trimmed x.
Lemma join_without : forall c sep l, without c sep -> (forall x, In x l -> without c x) -> without c (join sep l).
Proof.
  intros c sep l S. induction l as [|x l IH]; intros H; [intros []|]. destruct l as [|y l]; [apply H; left; reflexivity|].
  change (join sep (x :: y :: l)) with (x ++ sep ++ join sep (y :: l)). intro X. apply in_app_or in X. destruct X as [X|X]; [exact (H x (or_introl eq_refl) X)|].
  apply in_app_or in X. destruct X as [X|X]; [exact (S X)|]. apply IH in X; [exact X|]. intros z Hz. apply H. right. exact Hz.
Qed.
Lemma oref_extras : forall m o x l, without ":" m -> without "[" o -> o <> [] -> x <> [] -> (forall y, In y (x :: l) -> extra_ok y) ->
  oref_parse (oref_str (ORef m (Some o) (Some (x :: l)))) = ORef m (Some (o ++ lit " ")) (Some (x :: l)).
Proof.
  intros m o x l M O N X H. unfold oref_str. cbn [o_module o_object o_extras]. destruct o as [|c o]; [contradiction|].
  set (j := join (lit ", ") (x :: l)).
  assert (E : m ++ (lit ":" ++ c :: o) ++ lit " [" ++ j ++ lit "]" = m ++ ":"%char :: ((c :: o) ++ lit " ") ++ "["%char :: j ++ lit "]").
  { rewrite <- !app_assoc. reflexivity. }
  rewrite E. unfold oref_parse. rewrite (span_to ":" m _ M).
  assert (O' : without "[" ((c :: o) ++ lit " ")).
  { intro Y. apply in_app_or in Y. destruct Y as [Y|[Y|[]]]; [exact (O Y)|discriminate]. }
  rewrite (span_to "[" _ _ O').
  assert (J : without "]" j).
  { apply join_without; [intros [Y|[Y|[]]]; discriminate|]. intros y Hy. apply H, Hy. }
  assert (W : exists d j', j = d :: j' /\ is_space d = false).
  { unfold j. destruct x as [|d x]; [contradiction|]. destruct (H (d :: x) (or_introl eq_refl)) as (_ & _ & T & _). exists d.
    destruct l as [|y l]; [exists x; split; [reflexivity|exact T]|]. exists (x ++ lit ", " ++ join (lit ", ") (y :: l)). split; [reflexivity|exact T]. }
  destruct W as (d & j' & Ej & Sd).
  assert (Q : ws (j ++ lit "]") = j ++ lit "]"). { rewrite Ej. cbn [app]. unfold ws. cbn [span]. rewrite Sd. reflexivity. }
  rewrite Q. change (lit "]") with ("]"%char :: []). rewrite (span_to "]" j [] J). rewrite Ej. rewrite <- Ej. unfold j.
  rewrite split_extras_join; [reflexivity|]. intros y Hy. destruct (H y Hy) as (A & _ & B). auto.
Qed.

(** * Entry points of a project and their file *)
Lemma entry_points_tables : forall fuel t tables scripts guis, entry_points fuel (t :: tables) scripts guis = Err RecursionErr.
Proof. induction fuel as [|fuel IH]; intros t tables scripts guis; cbn [entry_points]; [reflexivity|]. rewrite IH. reflexivity. Qed.
Lemma entry_points_scripts : forall fuel scripts guis,
  all_entrypoints (S fuel) [] scripts guis = Ok (entries_of console scripts ++ entries_of console guis).
Proof.
  intros fuel scripts guis. unfold all_entrypoints. cbn [entry_points bind]. unfold add_entries.
  destruct scripts as [|s scripts], guis as [|g guis]; cbn [dict_get opt_or dict_set app map concat]; rewrite ?app_nil_r; try reflexivity.
  change (str_eqb console gui) with false. cbn [map snd concat app]. change (str_eqb gui console) with false. cbn [opt_or dict_set app map snd concat].
  rewrite app_nil_r. reflexivity.
Qed.
Definition written (d : list (str * list (str * str))) (g n : str) : option str := dict_get n (opt_or (dict_get g d) []).
Lemma add_entry_written : forall d e g n, written (add_entry d e) g n =
  if str_eqb g (e_group e) && str_eqb n (e_name e) then Some (oref_str (e_ref e)) else written d g n.
Proof.
  intros d e g n. unfold written, add_entry. destruct (str_eqb g (e_group e)) eqn:G; cbn [andb].
  - apply str_eqb_eq in G. subst g. rewrite dict_get_set_same. cbn [opt_or]. destruct (str_eqb n (e_name e)) eqn:N.
    + apply str_eqb_eq in N. subst n. apply dict_get_set_same.
    + apply dict_get_set_other. apply str_eqb_neq in N. congruence.
  - rewrite dict_get_set_other; [reflexivity|]. apply str_eqb_neq in G. congruence.
Qed.
Definition keys_ok (d : list (str * list (str * str))) : Prop := NoDup (map fst d) /\ forall g t, In (g, t) d -> NoDup (map fst t).
Lemma dict_set_nodup : forall V k (v : V) d, NoDup (map fst d) -> NoDup (map fst (dict_set k v d)).
Proof.
  intros V k v d. induction d as [|[k' w] d IH]; intro N; cbn [dict_set map fst].
  - constructor; [intros []|constructor].
  - inversion N as [|? ? N1 N2]; subst. destruct (str_eqb k k') eqn:E.
    + apply str_eqb_eq in E. subst k'. cbn [map fst]. constructor; assumption.
    + cbn [map fst]. constructor; [|apply IH, N2]. intro X. apply N1. clear - X E. apply in_map_iff in X. destruct X as ([a b] & <- & X). cbn [fst] in *.
      assert (Y : In a (map fst d) \/ a = k).
      { clear E. induction d as [|[c e] d IH]; cbn [dict_set] in X; [destruct X as [X|[]]; injection X as <- <-; right; reflexivity|].
        destruct (str_eqb k c) eqn:Q; [destruct X as [X|X]|destruct X as [X|X]].
        - injection X as <- <-. right. apply str_eqb_eq in Q. congruence.
        - left. right. apply in_map_iff. exists (a, b). auto.
        - injection X as <- <-. left. left. reflexivity.
        - destruct (IH X) as [Y|Y]; [left; right; exact Y|right; exact Y]. }
      destruct Y as [Y|Y]; [exact Y|]. subst a. rewrite str_eqb_refl in E. discriminate.
Qed.
Lemma nodup_get : forall V (d : list (str * V)) k v, NoDup (map fst d) -> In (k, v) d -> dict_get k d = Some v.
Proof.
  intros V d k v. induction d as [|[k' w] d IH]; intros N H; [destruct H|]. inversion N as [|? ? N1 N2]; subst. cbn [dict_get].
  destruct H as [H|H]; [injection H as -> ->; rewrite str_eqb_refl; reflexivity|].
  destruct (str_eqb k k') eqn:E; [|apply IH; assumption]. apply str_eqb_eq in E. subst k'. exfalso. apply N1. cbn [fst]. apply in_map_iff. exists (k, v). auto.
Qed.
Lemma add_entry_ok : forall d e, keys_ok d -> keys_ok (add_entry d e).
Proof.
  intros d e [A B]. unfold add_entry. assert (A' := dict_set_nodup _ (e_group e) (dict_set (e_name e) (oref_str (e_ref e)) (opt_or (dict_get (e_group e) d) [])) d A).
  split; [exact A'|]. intros g t H. assert (G := nodup_get _ _ _ _ A' H). destruct (str_eqb g (e_group e)) eqn:E.
  - apply str_eqb_eq in E. subst g. rewrite dict_get_set_same in G. injection G as <-. apply dict_set_nodup.
    destruct (dict_get (e_group e) d) as [t|] eqn:Q; [cbn [opt_or]; apply (B (e_group e)), dict_get_in, Q|constructor].
  - rewrite dict_get_set_other in G by (apply str_eqb_neq in E; congruence). apply (B g), dict_get_in, G.
Qed.
(** the last entry with the given group and name *)
Definition last_entry (l : list entry) (g n : str) : option oref :=
  fold_left (fun acc e => if str_eqb g (e_group e) && str_eqb n (e_name e) then Some (e_ref e) else acc) l None.
Lemma entries_data_spec : forall l, keys_ok (entries_data l) /\ forall g n, written (entries_data l) g n = option_map oref_str (last_entry l g n).
Proof.
  intro l. unfold entries_data, last_entry.
  assert (X : forall d (acc : str -> str -> option oref), keys_ok d -> (forall g n, written d g n = option_map oref_str (acc g n)) ->
    keys_ok (fold_left add_entry l d) /\ forall g n, written (fold_left add_entry l d) g n =
      option_map oref_str (fold_left (fun a e => if str_eqb g (e_group e) && str_eqb n (e_name e) then Some (e_ref e) else a) l (acc g n))).
  { induction l as [|e l IH]; intros d acc K W; cbn [fold_left]; [auto|].
    apply (IH (add_entry d e) (fun g n => if str_eqb g (e_group e) && str_eqb n (e_name e) then Some (e_ref e) else acc g n)).
    - apply add_entry_ok, K.
    - intros g n. rewrite add_entry_written, W. destruct (_ && _); reflexivity. }
  apply (X [] (fun _ _ => None)); [split; [constructor|intros g t []]|reflexivity].
Qed.
Lemma data_entries_in : forall d e, keys_ok d -> (In e (data_entries d) <-> exists s, written d (e_group e) (e_name e) = Some s /\ e_ref e = oref_parse s).
Proof.
  intros d e [A B]. unfold data_entries, written. rewrite in_concat. split.
  - intros (l & L & H). apply in_map_iff in L. destruct L as ([g t] & <- & G). cbn [fst snd] in H. unfold entries_of in H.
    apply in_map_iff in H. destruct H as ([n s] & <- & N). cbn [fst snd e_group e_name e_ref]. exists s. split; [|reflexivity].
    rewrite (nodup_get _ _ _ _ A G). cbn [opt_or]. apply nodup_get; [eapply B, G|exact N].
  - intros (s & W & R). destruct (dict_get (e_group e) d) as [t|] eqn:G; [|discriminate]. cbn [opt_or] in W.
    apply dict_get_in in G. apply dict_get_in in W. exists (entries_of (e_group e) t). split.
    + apply in_map_iff. exists (e_group e, t). auto.
    + unfold entries_of. apply in_map_iff. exists (e_name e, s). split; [|exact W]. cbn [fst snd]. rewrite <- R. destruct e; reflexivity.
Qed.
Lemma read_written : forall l e, In e (data_entries (entries_data l)) <->
  exists r, last_entry l (e_group e) (e_name e) = Some r /\ e_ref e = oref_parse (oref_str r).
Proof.
  intros l e. destruct (entries_data_spec l) as [K W]. rewrite (data_entries_in _ e K). rewrite W. split.
  - intros (s & E & R). destruct (last_entry l (e_group e) (e_name e)) as [r|]; [|discriminate]. injection E as <-. exists r. auto.
  - intros (r & E & R). rewrite E. exists (oref_str r). auto.
Qed.
Lemma last_entry_in : forall l e, NoDup (map (fun e => (e_group e, e_name e)) l) ->
  (last_entry l (e_group e) (e_name e) = Some (e_ref e) <-> In e l).
Proof.
  intros l e N. unfold last_entry.
  assert (X : forall l acc g n, fold_left (fun a x => if str_eqb g (e_group x) && str_eqb n (e_name x) then Some (e_ref x) else a) l acc =
            match fold_left (fun a x => if str_eqb g (e_group x) && str_eqb n (e_name x) then Some (e_ref x) else a) l None with Some r => Some r | None => acc end).
  { clear. induction l as [|x l IH]; intros acc g n; cbn [fold_left]; [reflexivity|].
    destruct (str_eqb g (e_group x) && str_eqb n (e_name x)); [rewrite IH; destruct (fold_left _ l None); reflexivity|apply IH]. }
  induction l as [|x l IH]; cbn [fold_left]; [split; [discriminate|intros []]|]. inversion N as [|? ? N1 N2]; subst. specialize (IH N2).
  rewrite X. cbn [In]. destruct (fold_left _ l None) as [r|] eqn:F.
  - assert (D : str_eqb (e_group e) (e_group x) && str_eqb (e_name e) (e_name x) = false).
    { destruct (_ && _) eqn:Q; [|reflexivity]. exfalso. apply andb_true_iff in Q. destruct Q as [Q1 Q2]. apply str_eqb_eq in Q1, Q2.
      apply N1. rewrite <- Q1, <- Q2. clear - F.
      assert (Y : forall acc, fold_left (fun a x => if str_eqb (e_group e) (e_group x) && str_eqb (e_name e) (e_name x) then Some (e_ref x) else a) l acc = acc \/
                  In (e_group e, e_name e) (map (fun e => (e_group e, e_name e)) l)).
      { clear F. induction l as [|y l IH]; intro acc; cbn [fold_left map In]; [left; reflexivity|].
        destruct (str_eqb (e_group e) (e_group y) && str_eqb (e_name e) (e_name y)) eqn:Q.
        - right. left. apply andb_true_iff in Q. destruct Q as [Q1 Q2]. apply str_eqb_eq in Q1, Q2. congruence.
        - destruct (IH acc) as [Z|Z]; [left; exact Z|right; right; exact Z]. }
      destruct (Y None) as [Z|Z]; [congruence|exact Z]. }
    split; intro H.
    + right. apply IH. exact H.
    + destruct H as [->|H]; [rewrite !str_eqb_refl in D; discriminate|]. apply IH in H. exact H.
  - destruct (str_eqb (e_group e) (e_group x) && str_eqb (e_name e) (e_name x)) eqn:Q.
    + apply andb_true_iff in Q. destruct Q as [Q1 Q2]. apply str_eqb_eq in Q1, Q2. split.
      * intro H. left. injection H as H. destruct e, x. cbn in *. congruence.
      * intros [->|H]; [reflexivity|]. apply IH in H. discriminate.
    + split; [discriminate|]. intros [->|H]; [rewrite !str_eqb_refl in Q; discriminate|]. apply IH in H. exact H.
Qed.

(** * Groups *)
Lemma root_none : forall fuel k p r, group_root fuel k p = Ok r -> r = None.
Proof.
  induction fuel as [|fuel IH]; intros k p r; cbn [group_root]; [discriminate|].
  destruct (group_parent k p) as [q|]; [apply IH|]. intro H. injection H as <-. reflexivity.
Qed.
(** the projects below a group *)
Inductive below (k : disk) : path -> path -> Prop :=
| B_here : forall p q, In q (g_children (load_group k p)) -> In q (d_projects k) -> below k p q
| B_down : forall p r q, In r (g_children (load_group k p)) -> ~ In r (d_projects k) -> below k r q -> below k p q.
Definition step_child (fuel : nat) (k : disk) (acc : res (list path)) (c : child) : res (list path) :=
  do l <- acc;
  match c with
  | CProject q => Ok (l ++ [q])
  | CGroup q => do r <- projects_below fuel k q; Ok (l ++ r)
  end.
Lemma fold_err : forall fuel k cs e, fold_left (step_child fuel k) cs (Err e) = Err e.
Proof. induction cs as [|c cs IH]; intro e; [reflexivity|]. cbn [fold_left]. apply IH. Qed.
Lemma existsb_path : forall p l, existsb (path_eqb p) l = true <-> In p l.
Proof. intros p l. apply path_mem_iff. Qed.
Lemma projects_below_spec : forall fuel k p l, projects_below fuel k p = Ok l -> forall q, In q l <-> below k p q.
Proof.
  induction fuel as [|fuel IH]; intros k p l; cbn [projects_below]; [discriminate|].
  change (fold_left (step_child fuel k) (group_children k p) (Ok []) = Ok l -> forall q, In q l <-> below k p q).
  intros H q.
  assert (X : forall ps acc l, fold_left (step_child fuel k) (map (child_of k) ps) (Ok acc) = Ok l ->
    (In q l <-> In q acc \/ exists r, In r ps /\ ((In r (d_projects k) /\ r = q) \/ (~ In r (d_projects k) /\ below k r q)))).
  { clear H l. induction ps as [|r ps IHp]; intros acc l H; cbn [map fold_left] in H.
    - injection H as <-. split; [auto|]. intros [H|(r & [] & _)]. exact H.
    - unfold step_child at 2 in H. cbn [bind] in H. change (child_of k r) with (if existsb (path_eqb r) (d_projects k) then CProject r else CGroup r) in H. destruct (existsb (path_eqb r) (d_projects k)) eqn:E.
      + apply existsb_path in E. apply IHp in H. rewrite H. rewrite in_app_iff. cbn [In]. split.
        * intros [[A|[A|[]]]|(s & A & B)]; [left; exact A|right; exists r; auto|right; exists s; auto].
        * intros [A|(s & [<-|A] & B)]; [left; left; exact A| |right; exists s; auto]. destruct B as [[_ ->]|[B _]]; [left; right; left; reflexivity|contradiction].
      + assert (E' : ~ In r (d_projects k)) by (intro Y; apply existsb_path in Y; congruence).
        destruct (projects_below fuel k r) as [lr|] eqn:R; cbn [bind] in H; [|rewrite fold_err in H; discriminate].
        apply IHp in H. rewrite H, in_app_iff, (IH _ _ _ R). split.
        * intros [[A|A]|(s & A & B)]; [left; exact A|right; exists r; split; [left; reflexivity|right; auto]|right; exists s; split; [right; exact A|exact B]].
        * intros [A|(s & [<-|A] & B)]; [left; left; exact A| |right; exists s; auto]. destruct B as [[B _]|[_ B]]; [contradiction|left; right; exact B]. }
  unfold group_children in H. apply X in H. rewrite H. split.
  - intros [[]|(r & A & [[B <-]|[B C]])]; [apply B_here; assumption|eapply B_down; eassumption].
  - intro B. right. inversion B as [p0 q0 A C|p0 r q0 A C D]; subst; [exists q|exists r]; auto.
Qed.
Lemma projects_below_ends : forall k (rank : path -> nat),
  (forall p r, In r (g_children (load_group k p)) -> ~ In r (d_projects k) -> rank r < rank p) ->
  forall fuel p, rank p < fuel -> exists l, projects_below fuel k p = Ok l.
Proof.
  intros k rank R. induction fuel as [|fuel IH]; intros p L; [lia|]. cbn [projects_below].
  change (exists l, fold_left (step_child fuel k) (group_children k p) (Ok []) = Ok l). unfold group_children.
  assert (X : forall ps acc, (forall r, In r ps -> In r (g_children (load_group k p))) -> exists l, fold_left (step_child fuel k) (map (child_of k) ps) (Ok acc) = Ok l).
  { induction ps as [|r ps IHp]; intros acc S; cbn [map fold_left]; [eauto|]. unfold step_child at 2. cbn [bind]. change (child_of k r) with (if existsb (path_eqb r) (d_projects k) then CProject r else CGroup r).
    destruct (existsb (path_eqb r) (d_projects k)) eqn:E; [apply IHp; intros; apply S; right; assumption|].
    assert (E' : ~ In r (d_projects k)) by (intro Y; apply existsb_path in Y; congruence).
    destruct (IH r) as [lr Er]. { assert (Q := R p r (S r (or_introl eq_refl)) E'). lia. }
    rewrite Er. cbn [bind]. apply IHp. intros; apply S; right; assumption. }
  apply X. auto.
Qed.
Lemma find_in_spec : forall k p dirs d, find_in k p dirs = Some d <->
  exists a b g, dirs = a ++ d :: b /\ group_at (d_groups k) d = Some g /\ In p (g_children g) /\
    forall e ge, In e a -> group_at (d_groups k) e = Some ge -> ~ In p (g_children ge).
Proof.
  intros k p. induction dirs as [|x dirs IH]; intro d; cbn [find_in].
  - split; [discriminate|]. intros (a & b & g & E & _). destruct a; discriminate.
  - assert (Skip : (match group_at (d_groups k) x with Some g => ~ In p (g_children g) | None => True end) ->
      ((exists a b g, dirs = a ++ d :: b /\ group_at (d_groups k) d = Some g /\ In p (g_children g) /\
        forall e ge, In e a -> group_at (d_groups k) e = Some ge -> ~ In p (g_children ge)) <->
      exists a b g, x :: dirs = a ++ d :: b /\ group_at (d_groups k) d = Some g /\ In p (g_children g) /\
        forall e ge, In e a -> group_at (d_groups k) e = Some ge -> ~ In p (g_children ge))).
    { intro S. split; intros (a & b & g & E & G & I & F).
      - exists (x :: a), b, g. split; [cbn [app]; rewrite E; reflexivity|]. split; [exact G|]. split; [exact I|].
        intros e ge [<-|He] Q; [rewrite Q in S; exact S|apply (F e ge He Q)].
      - destruct a as [|y a]; cbn [app] in E; injection E as E1 E2; [subst d; rewrite G in S; contradiction|subst y].
        exists a, b, g. split; [exact E2|]. split; [exact G|]. split; [exact I|]. intros e ge He. apply F. right. exact He. }
    destruct (group_at (d_groups k) x) as [g|] eqn:G; [|rewrite IH; apply Skip; exact Logic.I].
    destruct (existsb (path_eqb p) (g_children g)) eqn:E.
    + apply existsb_path in E. split.
      * intro H. injection H as <-. exists [], dirs, g. split; [reflexivity|]. split; [exact G|]. split; [exact E|]. intros e ge [].
      * intros (a & b & g' & Ea & G' & I & F). destruct a as [|y a]; cbn [app] in Ea; injection Ea as E1 E2; [congruence|subst y].
        exfalso. exact (F x g (or_introl eq_refl) G E).
    + rewrite IH. apply Skip. intro Y. apply existsb_path in Y. congruence.
Qed.
Lemma remove_spec : forall P (resolve from_cwd : P -> path) entries p,
  group_remove resolve from_cwd entries p = filter (fun e => negb (path_eqb (resolve e) (from_cwd p))) entries.
Proof.
  intros P resolve from_cwd entries p. unfold group_remove. induction entries as [|e l IH]; [reflexivity|]. cbn [map combine filter snd].
  destruct (negb (path_eqb (resolve e) (from_cwd p))); cbn [map fst]; rewrite IH; reflexivity.
Qed.
