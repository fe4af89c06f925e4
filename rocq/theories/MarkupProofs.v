(** Lemmas about MarkupModel. *)
From Coq Require Import String Ascii List Bool NArith Arith Lia.
From Verif Require Import Base BaseFacts MarkupModel.
Import ListNotations.
Open Scope string_scope.
Open Scope nat_scope.
Open Scope list_scope.
Open Scope bool_scope.

Definition piece_text (p : piece) : str := match p with Text s => unescape s | Tag _ => [] end.
Definition shown_text (l : list piece) : str := concat (map piece_text l).

Lemma Ok_inj : forall A (a b : A), Ok a = Ok b -> a = b.
Proof. intros A a b H. injection H as H. exact H. Qed.
Lemma render_text : forall norm l stack t, render_pieces norm l stack = Ok t -> t = shown_text l.
Proof.
  intros norm l. induction l as [|[s|n] l IH]; intros stack t H.
  - apply Ok_inj in H. symmetry. exact H.
  - cbn [render_pieces] in H. destruct (render_pieces norm l stack) as [u|e] eqn:E; [|discriminate H]. cbn [bind] in H. apply Ok_inj in H. subst t.
    unfold shown_text. cbn [map concat piece_text]. f_equal. apply (IH stack). exact E.
  - cbn [render_pieces] in H. change (shown_text (Tag n :: l)) with (shown_text l). destruct n as [|c name]; [eapply IH; exact H|].
    destruct (Ascii.eqb c "/"); [|eapply IH; exact H]. destruct (strip name) as [|x y].
    + destruct stack as [|z stack]; [discriminate H|]. eapply IH; exact H.
    + destruct (pop_style (norm (x :: y)) stack) as [st|]; [|discriminate H]. eapply IH; exact H.
Qed.
Lemma render_one_text : forall norm s stack, render_pieces norm (text_piece s) stack = Ok (unescape s).
Proof. intros norm [|c s] stack; [reflexivity|]. cbn [text_piece render_pieces bind]. rewrite app_nil_r. reflexivity. Qed.
Lemma shown_app : forall a b, shown_text (a ++ b) = shown_text a ++ shown_text b.
Proof. intros a b. unfold shown_text. rewrite map_app, concat_app. reflexivity. Qed.
Lemma shown_piece : forall s, shown_text (text_piece s) = unescape s.
Proof. intros [|c s]; [reflexivity|]. unfold shown_text. cbn [text_piece map concat piece_text]. apply app_nil_r. Qed.

(** ** unescape *)
Lemma unescape_cons : forall a b r, unescape (a :: b :: r) = if Ascii.eqb a "\" && Ascii.eqb b "[" then unescape (b :: r) else a :: unescape (b :: r).
Proof. reflexivity. Qed.
Lemma unescape_len : forall s, length (unescape s) <= length s.
Proof.
  induction s as [|a [|b r] IH]; [apply le_n|apply le_n|]. rewrite unescape_cons. destruct (Ascii.eqb a "\" && Ascii.eqb b "["); cbn [length] in *; lia.
Qed.
Lemma unescape_plain : forall s, (forall pre post, s <> pre ++ "\"%char :: "["%char :: post) -> unescape s = s.
Proof.
  induction s as [|a [|b r] IH]; intro N; [reflexivity|reflexivity|]. rewrite unescape_cons. destruct (Ascii.eqb a "\" && Ascii.eqb b "[") eqn:E.
  - apply andb_prop in E. destruct E as [E1 E2]. apply Ascii.eqb_eq in E1, E2. subst. exfalso. exact (N [] r eq_refl).
  - f_equal. apply IH. intros pre post X. apply (N (a :: pre) post). rewrite X. reflexivity.
Qed.
Lemma unescape_shorter : forall pre post, length (unescape (pre ++ "\"%char :: "["%char :: post)) < length (pre ++ "\"%char :: "["%char :: post).
Proof.
  induction pre as [|a pre IH]; intro post.
  - cbn [app]. rewrite unescape_cons. rewrite !Ascii.eqb_refl. cbn [andb]. assert (L := unescape_len ("["%char :: post)). cbn [length] in *. lia.
  - specialize (IH post). cbn [app]. destruct (pre ++ "\"%char :: "["%char :: post) as [|b r] eqn:Q; [destruct pre; discriminate Q|].
    rewrite unescape_cons. destruct (Ascii.eqb a "\" && Ascii.eqb b "["); cbn [length] in *; lia.
Qed.

(** ** parse *)
Lemma slashes_spec : forall s, s = repeat "\"%char (fst (slashes s)) ++ snd (slashes s) /\ (forall r, snd (slashes s) <> "\"%char :: r).
Proof.
  induction s as [|c s [IH1 IH2]]; [split; [reflexivity|discriminate]|]. cbn [slashes]. destruct (Ascii.eqb c "\") eqn:E.
  - apply Ascii.eqb_eq in E. subst c. cbn [fst snd repeat app]. split; [f_equal; exact IH1|exact IH2].
  - cbn [fst snd repeat app]. split; [reflexivity|]. intros r H. injection H as H _. subst c. discriminate E.
Qed.
Lemma take_tag_spec : forall s t r, take_tag s = Some (t, r) -> s = t ++ "]"%char :: r /\ ~ In "["%char t /\ ~ In "]"%char t.
Proof.
  induction s as [|c s IH]; intros t r H; [discriminate H|]. cbn [take_tag] in H. destruct (Ascii.eqb c "]") eqn:E.
  - apply Ascii.eqb_eq in E. subst c. injection H as <- <-. repeat split; intros [].
  - destruct (Ascii.eqb c "[") eqn:E'; [discriminate H|]. destruct (take_tag s) as [[u v]|]; [|discriminate H]. cbn [option_map fst snd] in H. injection H as <- <-.
    destruct (IH u v eq_refl) as (A & B & C). split; [cbn [app]; f_equal; exact A|]. split; intros [X|X]; try contradiction; subst c; discriminate.
Qed.
Lemma take_tag_first : forall t r, ~ In "["%char t -> ~ In "]"%char t -> take_tag (t ++ "]"%char :: r) = Some (t, r).
Proof.
  induction t as [|c t IH]; intros r A B; [reflexivity|]. cbn [app take_tag]. destruct (Ascii.eqb c "]") eqn:E; [apply Ascii.eqb_eq in E; subst c; exfalso; apply B; left; reflexivity|].
  destruct (Ascii.eqb c "[") eqn:E'; [apply Ascii.eqb_eq in E'; subst c; exfalso; apply A; left; reflexivity|].
  rewrite IH; [reflexivity|intro X; apply A; right; exact X|intro X; apply B; right; exact X].
Qed.
Lemma take_tag_some : forall t r, ~ In "["%char t -> take_tag (t ++ "]"%char :: r) <> None.
Proof.
  induction t as [|c t IH]; intros r A; [discriminate|]. cbn [app take_tag]. destruct (Ascii.eqb c "]"); [discriminate|].
  destruct (Ascii.eqb c "[") eqn:E'; [apply Ascii.eqb_eq in E'; subst c; exfalso; apply A; left; reflexivity|].
  specialize (IH r (fun X => A (or_intror X))). destruct (take_tag (t ++ "]"%char :: r)); [discriminate|contradiction].
Qed.
Lemma tag_at_spec : forall s t r, tag_at s = Some (t, r) -> exists c u, t = c :: u /\ tag_start c = true /\ s = "["%char :: c :: u ++ "]"%char :: r /\ ~ In "["%char u.
Proof.
  intros [|o [|c s]] t r H; try discriminate H. cbn [tag_at] in H. destruct (Ascii.eqb o "[" && tag_start c) eqn:E; [|discriminate H].
  apply andb_prop in E. destruct E as [E1 E2]. apply Ascii.eqb_eq in E1. subst o. destruct (take_tag s) as [[u v]|] eqn:T; [|discriminate H]. cbn [option_map fst snd] in H. injection H as <- <-.
  destruct (take_tag_spec s u v T) as (A & B & _). exists c, u. repeat split; [exact E2|rewrite A; reflexivity|exact B].
Qed.
Lemma div2_less : forall k, k <> 0 -> Nat.div2 k < k.
Proof. intros k H. apply Nat.lt_div2. lia. Qed.
Lemma unescape_repeat : forall k, unescape (repeat "\"%char k) = repeat "\"%char k.
Proof.
  intro k. apply unescape_plain. intros pre post H. assert (I : In "["%char (repeat "\"%char k)) by (rewrite H; apply in_app_iff; right; right; left; reflexivity).
  apply repeat_spec in I. discriminate I.
Qed.
Lemma tag_pieces_len : forall k t, t <> [] -> length (shown_text (text_piece (repeat "\"%char (Nat.div2 k)) ++ (if Nat.odd k then [Text ("["%char :: t ++ lit "]")] else [Tag (before_equals t)])))
  < k + (length t + 2).
Proof.
  intros k t T. rewrite shown_app, shown_piece, unescape_repeat, app_length, repeat_length. destruct (Nat.odd k) eqn:O.
  - assert (K : k <> 0) by (intro X; subst k; discriminate O). assert (D := div2_less k K). unfold shown_text. cbn [map concat piece_text]. rewrite app_nil_r.
    assert (L := unescape_len ("["%char :: t ++ lit "]")). cbn [length] in L. rewrite app_length in L. change (length (lit "]")) with 1 in L. lia.
  - change (shown_text [Tag (before_equals t)]) with (@nil ascii). cbn [length]. assert (L := Nat.div2_div k). assert (Nat.div2 k <= k) by (destruct k; [apply le_n|apply Nat.lt_le_incl; apply div2_less; discriminate]). lia.
Qed.
Lemma parse_len : forall f pend s, length s < f -> length (shown_text (parse f pend s)) <= length pend + length s.
Proof.
  induction f as [|f IH]; intros pend s L; [lia|]. cbn [parse]. destruct s as [|c r].
  - rewrite shown_piece. assert (X := unescape_len pend). cbn [length]. lia.
  - destruct (slashes (c :: r)) as [k after] eqn:S. destruct (slashes_spec (c :: r)) as [Q _]. rewrite S in Q. cbn [fst snd] in Q.
    assert (LQ : length (c :: r) = k + length after) by (rewrite Q, app_length, repeat_length; reflexivity).
    destruct (tag_at after) as [[t rest]|] eqn:T.
    + destruct (tag_at_spec _ _ _ T) as (d & u & -> & _ & A & _). assert (LA : length after = length (d :: u) + 2 + length rest) by (rewrite A; cbn [length]; rewrite app_length; cbn [length]; lia).
      rewrite app_assoc, app_assoc, <- (app_assoc (text_piece pend)). rewrite !shown_app with (b := parse f [] rest). rewrite shown_app, shown_piece, !app_length.
      assert (P := tag_pieces_len k (d :: u)). specialize (P ltac:(discriminate)). assert (X := unescape_len pend). assert (Y := IH [] rest ltac:(lia)). cbn [length] in Y. cbn [length] in *. lia.
    + destruct k as [|k].
      * assert (Y := IH (pend ++ [c]) r ltac:(cbn [length] in L; lia)). rewrite app_length in Y. cbn [length] in *. lia.
      * assert (Y := IH (pend ++ repeat "\"%char (Datatypes.S k)) after ltac:(lia)). rewrite app_length, repeat_length in Y. lia.
Qed.
Lemma repeat_prefix : forall k (after pre post : str), repeat "\"%char k ++ after = pre ++ post -> (exists j, post = repeat "\"%char (Datatypes.S j) ++ after) \/ exists m, after = m ++ post /\ pre = repeat "\"%char k ++ m.
Proof.
  induction k as [|k IH]; intros after pre post H; [right; exists pre; split; [exact H|reflexivity]|]. cbn [repeat app] in H. destruct pre as [|p pre].
  - left. exists k. symmetry. exact H.
  - injection H as <- H. destruct (IH after pre post H) as [[j J]|(m & A & B)]; [left; exists j; exact J|right; exists m; split; [exact A|rewrite B; reflexivity]].
Qed.
Lemma parse_tagged : forall f pend s pre post, length s < f -> s = pre ++ post -> tag_at post <> None -> length (shown_text (parse f pend s)) < length pend + length s.
Proof.
  induction f as [|f IH]; intros pend s pre post L E T0; [lia|]. cbn [parse]. destruct s as [|c r].
  - destruct pre; [|discriminate E]. cbn [app] in E. subst post. exfalso. apply T0. reflexivity.
  - destruct (slashes (c :: r)) as [k after] eqn:S. destruct (slashes_spec (c :: r)) as [Q _]. rewrite S in Q. cbn [fst snd] in Q.
    assert (LQ : length (c :: r) = k + length after) by (rewrite Q, app_length, repeat_length; reflexivity).
    destruct (tag_at after) as [[t rest]|] eqn:T.
    + destruct (tag_at_spec _ _ _ T) as (d & u & -> & _ & A & _). assert (LA : length after = length (d :: u) + 2 + length rest) by (rewrite A; cbn [length]; rewrite app_length; cbn [length]; lia).
      rewrite app_assoc, app_assoc, <- (app_assoc (text_piece pend)). rewrite !shown_app with (b := parse f [] rest). rewrite shown_app, shown_piece, !app_length.
      assert (P := tag_pieces_len k (d :: u)). specialize (P ltac:(discriminate)). assert (X := unescape_len pend). assert (Y := parse_len f [] rest ltac:(cbn [length] in *; lia)). cbn [length] in Y. cbn [length] in *. lia.
    + assert (E' := E). rewrite Q in E'. destruct (repeat_prefix k after pre post E') as [[j J]|(m & A & B)].
      * exfalso. apply T0. destruct (tag_at post) as [[t0 r0]|] eqn:TP; [|reflexivity]. destruct (tag_at_spec _ _ _ TP) as (d & u & _ & _ & A & _). rewrite J in A. discriminate A.
      * destruct k as [|k].
        -- cbn [repeat app] in Q. subst after. destruct m as [|x m]; [cbn [app] in A; rewrite <- A in T0; contradiction|]. cbn [app] in A. injection A as <- A.
           assert (Y := IH (pend ++ [c]) r m post ltac:(cbn [length] in L; lia) A T0). rewrite app_length in Y. cbn [length] in *. lia.
        -- assert (Y := IH (pend ++ repeat "\"%char (Datatypes.S k)) after m post ltac:(lia) A T0). rewrite app_length, repeat_length in Y. lia.
Qed.
Lemma parse_plain : forall f pend s, length s < f -> (forall pre post, s = pre ++ post -> tag_at post = None) -> parse f pend s = text_piece (pend ++ s).
Proof.
  induction f as [|f IH]; intros pend s L N; [lia|]. cbn [parse]. destruct s as [|c r]; [rewrite app_nil_r; reflexivity|].
  destruct (slashes (c :: r)) as [k after] eqn:S. destruct (slashes_spec (c :: r)) as [Q _]. rewrite S in Q. cbn [fst snd] in Q.
  assert (LQ : length (c :: r) = k + length after) by (rewrite Q, app_length, repeat_length; reflexivity).
  rewrite (N _ _ Q). destruct k as [|k].
  - rewrite IH; [rewrite <- app_assoc; reflexivity|cbn [length] in L; lia|]. intros pre post E. apply (N (c :: pre)). rewrite E. reflexivity.
  - rewrite IH; [rewrite <- app_assoc, <- Q; reflexivity|lia|]. intros pre post E. apply (N (repeat "\"%char (Datatypes.S k) ++ pre)). rewrite Q, E, app_assoc. reflexivity.
Qed.
(** over texts without brackets and backslashes *)
Lemma parse_skip : forall a f pend s, length (a ++ s) < f -> ~ In "["%char a -> ~ In "\"%char a -> exists g, length s < g /\ parse f pend (a ++ s) = parse g (pend ++ a) s.
Proof.
  induction a as [|c a IH]; intros f pend s L N N'; [exists f; rewrite app_nil_r; split; [exact L|reflexivity]|].
  destruct f as [|f]; [cbn [app length] in L; lia|]. destruct (IH f (pend ++ [c]) s) as (g & G & P).
  - cbn [app length] in L. lia.
  - intro X. apply N. right. exact X.
  - intro X. apply N'. right. exact X.
  - exists g. split; [exact G|]. rewrite <- app_assoc in P. cbn [app] in P. rewrite <- P. cbn [app parse].
    assert (S : slashes (c :: a ++ s) = (0, c :: a ++ s)).
    { cbn [slashes]. destruct (Ascii.eqb c "\") eqn:E; [|reflexivity]. apply Ascii.eqb_eq in E. subst c. exfalso. apply N'. left. reflexivity. }
    rewrite S. assert (T : tag_at (c :: a ++ s) = None).
    { destruct (tag_at (c :: a ++ s)) as [[t r]|] eqn:T; [|reflexivity]. destruct (tag_at_spec _ _ _ T) as (d & u & _ & _ & A & _). injection A as A _. subst c. exfalso. apply N. left. reflexivity. }
    rewrite T. reflexivity.
Qed.
Lemma parse_tag : forall f pend c u s, length ("["%char :: c :: u ++ "]"%char :: s) < f -> tag_start c = true -> c <> "]"%char -> ~ In "["%char u -> ~ In "]"%char u ->
  exists g, length s < g /\ parse f pend ("["%char :: c :: u ++ "]"%char :: s) = text_piece pend ++ Tag (before_equals (c :: u)) :: parse g [] s.
Proof.
  intros f pend c u s L C _ A B. destruct f as [|f]; [cbn [length] in L; lia|]. exists f. split; [cbn [length] in L; rewrite app_length in L; cbn [length] in L; lia|].
  cbn [parse]. assert (S : slashes ("["%char :: c :: u ++ "]"%char :: s) = (0, "["%char :: c :: u ++ "]"%char :: s)) by reflexivity. rewrite S.
  assert (T : tag_at ("["%char :: c :: u ++ "]"%char :: s) = Some (c :: u, s)) by (cbn [tag_at]; rewrite Ascii.eqb_refl, C; cbn [andb]; rewrite take_tag_first by assumption; reflexivity).
  rewrite T. reflexivity.
Qed.
Lemma no_bracket_plain : forall s : str, ~ In "["%char s -> (forall pre post, s = pre ++ post -> tag_at post = None).
Proof.
  intros s N pre post E. destruct (tag_at post) as [[t r]|] eqn:T; [|reflexivity]. destruct (tag_at_spec _ _ _ T) as (d & u & _ & _ & A & _). exfalso. apply N. rewrite E, A. apply in_app_iff. right. left. reflexivity.
Qed.
Lemma no_bracket_unescape : forall s : str, ~ In "["%char s -> unescape s = s.
Proof. intros s N. apply unescape_plain. intros pre post E. apply N. rewrite E. apply in_app_iff. right. right. left. reflexivity. Qed.
Lemma has_bracket : forall s : str, existsb (fun c => Ascii.eqb c "[") s = true <-> In "["%char s.
Proof.
  intro s. rewrite existsb_exists. split.
  - intros (c & I & E). apply Ascii.eqb_eq in E. subst c. exact I.
  - intro I. exists "["%char. split; [exact I|reflexivity].
Qed.
Lemma render_bracket : forall norm s, In "["%char s -> render norm s = render_pieces norm (parse (Datatypes.S (length s)) [] s) [].
Proof. intros norm s I. unfold render. rewrite (proj2 (has_bracket s) I). reflexivity. Qed.
Lemma render_no_bracket : forall norm s, ~ In "["%char s -> render norm s = Ok s.
Proof. intros norm s I. unfold render. destruct (existsb (fun c => Ascii.eqb c "[") s) eqn:E; [apply has_bracket in E; contradiction|reflexivity]. Qed.
(** a text, a tag, and anything *)
Lemma render_first_tag : forall norm a c u s, ~ In "["%char a -> ~ In "\"%char a -> tag_start c = true -> ~ In "["%char u -> ~ In "]"%char u ->
  exists g, length s < g /\ render norm (a ++ "["%char :: c :: u ++ "]"%char :: s) = render_pieces norm (text_piece a ++ Tag (before_equals (c :: u)) :: parse g [] s) [].
Proof.
  intros norm a c u s A A' C U U'. assert (CC : c <> "]"%char) by (intro X; subst c; discriminate C).
  destruct (parse_skip a (Datatypes.S (length (a ++ "["%char :: c :: u ++ "]"%char :: s))) [] ("["%char :: c :: u ++ "]"%char :: s) ltac:(lia) A A') as (g & G & P).
  destruct (parse_tag g a c u s G C CC U U') as (g' & G' & P'). exists g'. split; [exact G'|].
  rewrite render_bracket by (apply in_app_iff; right; left; reflexivity). rewrite P. cbn [app]. rewrite P'. reflexivity.
Qed.
Lemma render_text_app : forall norm a l stack, render_pieces norm (text_piece a ++ l) stack = do t <- render_pieces norm l stack; Ok (unescape a ++ t).
Proof.
  intros norm [|c a] l stack.
  - cbn [text_piece app unescape]. destruct (render_pieces norm l stack) as [t|e]; reflexivity.
  - cbn [text_piece app render_pieces]. reflexivity.
Qed.
Lemma in_join : forall (x : ascii) sep l, In x (join sep l) -> In x sep \/ exists w, In w l /\ In x w.
Proof.
  intros x sep l. induction l as [|w l IH]; intro I; [destruct I|]. destruct l as [|w' l].
  - right. exists w. split; [left; reflexivity|exact I].
  - change (join sep (w :: w' :: l)) with (w ++ sep ++ join sep (w' :: l)) in I. apply in_app_iff in I. destruct I as [I|I]; [right; exists w; split; [left; reflexivity|exact I]|].
    apply in_app_iff in I. destruct I as [I|I]; [left; exact I|]. destruct (IH I) as [J|(v & V & J)]; [left; exact J|right; exists v; split; [right; exact V|exact J]].
Qed.
