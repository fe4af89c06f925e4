(** Properties of messages: C288, C289. *)
From Coq Require Import String Ascii List Bool NArith Arith Lia.
From Verif Require Import Base BaseFacts MarkupModel MarkupProofs.
Import ListNotations.
Open Scope string_scope.
Open Scope nat_scope.
Open Scope list_scope.
Open Scope bool_scope.

(** ** C288: a message is shown as it is *)
(** neither a tag in it nor an escaped bracket *)
Definition plain (s : str) : Prop :=
  (forall pre c t post, s = pre ++ "["%char :: c :: t ++ "]"%char :: post -> tag_start c = true -> In "["%char t)
  /\ (forall pre post, s <> pre ++ "\"%char :: "["%char :: post).

(** exactly these are *)
Theorem C288_exactly : forall normalize s, print normalize true s = Ok s <-> plain s.
Proof.
  intros norm s. unfold print. split.
  - intro H. destruct (existsb (fun c => Ascii.eqb c "[") s) eqn:B.
    + apply has_bracket in B. rewrite (render_bracket _ _ B) in H. apply render_text in H. split.
      * intros pre c t post E C. destruct (in_dec ascii_dec "["%char t) as [I|N]; [exact I|exfalso].
        assert (T : tag_at ("["%char :: c :: t ++ "]"%char :: post) <> None).
        { cbn [tag_at]. rewrite Ascii.eqb_refl, C. cbn [andb]. assert (X := take_tag_some t post N). destruct (take_tag (t ++ "]"%char :: post)); [discriminate|contradiction]. }
        assert (L := parse_tagged (Datatypes.S (length s)) [] s pre _ ltac:(lia) E T). rewrite <- H in L. cbn [length] in L. lia.
      * intros pre post E. destruct (existsb (fun i => match tag_at (skipn i s) with Some _ => true | None => false end) (seq 0 (length s))) eqn:X.
        -- apply existsb_exists in X. destruct X as (i & _ & X). assert (L := parse_tagged (Datatypes.S (length s)) [] s (firstn i s) (skipn i s) ltac:(lia) (eq_sym (firstn_skipn i s))).
           destruct (tag_at (skipn i s)); [|discriminate X]. specialize (L ltac:(discriminate)). rewrite <- H in L. cbn [length] in L. lia.
        -- assert (P : parse (Datatypes.S (length s)) [] s = text_piece ([] ++ s)).
           { apply parse_plain; [lia|]. intros a b Q. destruct b as [|b0 b]; [reflexivity|]. destruct (tag_at (b0 :: b)) eqn:T; [|reflexivity]. exfalso.
             assert (Y : existsb (fun i => match tag_at (skipn i s) with Some _ => true | None => false end) (seq 0 (length s)) = true).
             { apply existsb_exists. exists (length a). split; [apply in_seq; rewrite Q, app_length; cbn [length]; lia|]. rewrite Q, skipn_app, skipn_all, Nat.sub_diag. cbn [skipn app]. rewrite T. reflexivity. }
             congruence. }
           rewrite P in H. cbn [app] in H. rewrite shown_piece in H. assert (L := unescape_shorter pre post). rewrite <- E, <- H in L. lia.
    + assert (N : ~ In "["%char s) by (intro I; apply has_bracket in I; congruence). split.
      * intros pre c t post E _. exfalso. apply N. rewrite E. apply in_app_iff. right. left. reflexivity.
      * intros pre post E. apply N. rewrite E. apply in_app_iff. right. right. left. reflexivity.
  - intros [A B]. destruct (in_dec ascii_dec "["%char s) as [I|N]; [|apply render_no_bracket; exact N]. rewrite (render_bracket _ _ I). rewrite parse_plain.
    + rewrite render_one_text. cbn [app]. rewrite unescape_plain by exact B. reflexivity.
    + lia.
    + intros pre post E. destruct (tag_at post) as [[t r]|] eqn:T; [|reflexivity]. exfalso. destruct (tag_at_spec _ _ _ T) as (c & u & _ & C & Q & N). rewrite Q in E. apply N. exact (A pre c u r E C).
Qed.

(** the extras of a package are not shown *)
Theorem C288_extras_refuted : forall normalize before c extras after,
  ~ In "["%char before -> ~ In "\"%char before -> is_lower c = true -> ~ In "["%char extras -> ~ In "]"%char extras -> ~ In "["%char after ->
  print normalize true (before ++ "["%char :: c :: extras ++ "]"%char :: after) = Ok (before ++ after).
Proof.
  intros norm a c u s A A' C U U' S. unfold print. destruct (render_first_tag norm a c u s A A' ltac:(unfold tag_start; rewrite C; reflexivity) U U') as (g & G & ->).
  rewrite render_text_app. cbn [render_pieces]. rewrite (parse_plain g [] s G (no_bracket_plain s S)). cbn [app].
  assert (NC : Ascii.eqb c "/" = false) by (destruct (Ascii.eqb c "/") eqn:E; [apply Ascii.eqb_eq in E; subst c; discriminate C|reflexivity]).
  assert (NE : Ascii.eqb c "=" = false) by (destruct (Ascii.eqb c "=") eqn:E; [apply Ascii.eqb_eq in E; subst c; discriminate C|reflexivity]).
  cbn [before_equals]. rewrite NE, NC, render_one_text. cbn [bind]. rewrite !no_bracket_unescape by assumption. reflexivity.
Qed.

(** a bracket with a slash makes that nothing is shown and an exception is raised *)
Theorem C288_slash_refuted : forall normalize before t after,
  ~ In "["%char before -> ~ In "\"%char before -> ~ In "["%char t -> ~ In "]"%char t ->
  print normalize true (before ++ lit "[/" ++ t ++ lit "]" ++ after) = Err OtherErr.
Proof.
  intros norm a u s A A' U U'. unfold print. destruct (render_first_tag norm a "/" u s A A' eq_refl U U') as (g & _ & R).
  change (a ++ lit "[/" ++ u ++ lit "]" ++ s) with (a ++ "["%char :: "/"%char :: u ++ "]"%char :: s). rewrite R, render_text_app. cbn [render_pieces before_equals].
  change (Ascii.eqb "/" "=") with false. cbn match. change (Ascii.eqb "/" "/") with true. cbn match. destruct (strip (before_equals u)); reflexivity.
Qed.

(** ** C289: the conclusion of a resolution *)

(** shown in full if no package has extras *)
Theorem C289_shown_partial : forall normalize decisions,
  (forall p v, In (p, v) decisions -> snd p = [] /\ ~ In "["%char (fst p) /\ ~ In "["%char v) ->
  print normalize true (resolved_message decisions) = Ok (resolved_message decisions).
Proof.
  intros norm l H. unfold print. apply render_no_bracket. intro I. unfold resolved_message in I. apply in_app_iff in I. destruct I as [I|I].
  { cbv in I. repeat (destruct I as [I|I]; [discriminate I|]). exact I. }
  apply in_app_iff in I. destruct I as [I|I]; [|cbv in I; destruct I as [I|[]]; discriminate I].
  apply in_join in I. destruct I as [I|(w & W & I)]; [cbv in I; repeat (destruct I as [I|I]; [discriminate I|]); exact I|].
  apply in_map_iff in W. destruct W as ([p v] & <- & W). apply filter_In in W. destruct W as [W _]. destruct p as [pn pe]. destruct (H (pn, pe) v W) as (E & N1 & N2). cbn [fst snd] in E, N1, N2, I. subst pe.
  apply in_app_iff in I. destruct I as [I|I].
  - unfold pkg_repr in I. cbn [fst snd] in I. rewrite app_nil_r in I. contradiction.
  - apply in_app_iff in I. destruct I as [I|I]; [cbv in I; repeat (destruct I as [I|I]; [discriminate I|]); exact I|contradiction].
Qed.

(** every other decision is in the message *)
Theorem C289_complete : forall decisions p v, In (p, v) decisions -> pkg_repr p <> lit "installation-request" ->
  exists pre post, resolved_message decisions = pre ++ pkg_repr p ++ lit ": " ++ v ++ post.
Proof.
  intros l p v I N. unfold resolved_message.
  assert (J : In (pkg_repr p ++ lit ": " ++ v) (map (fun e => pkg_repr (fst e) ++ lit ": " ++ snd e) (filter (fun e => negb (str_eqb (pkg_repr (fst e)) (lit "installation-request"))) l))).
  { apply in_map_iff. exists (p, v). split; [reflexivity|]. apply filter_In. split; [exact I|]. cbn [fst]. apply negb_true_iff. apply str_eqb_neq. exact N. }
  revert J. generalize (map (fun e : str * list str * str => pkg_repr (fst e) ++ lit ": " ++ snd e) (filter (fun e => negb (str_eqb (pkg_repr (fst e)) (lit "installation-request"))) l)). intro ws.
  assert (G : forall x ws, In x ws -> exists pre post, join (lit ", ") ws = pre ++ x ++ post).
  { intros x. induction ws0 as [|w ws0 IH]; intros [].
    - subst w. destruct ws0 as [|w' ws0]; [exists [], []; rewrite app_nil_r; reflexivity|exists [], (lit ", " ++ join (lit ", ") (w' :: ws0)); reflexivity].
    - destruct ws0 as [|w' ws0]; [destruct H|]. destruct (IH H) as (pre & post & E). change (join (lit ", ") (w :: w' :: ws0)) with (w ++ lit ", " ++ join (lit ", ") (w' :: ws0)). rewrite E.
      exists (w ++ lit ", " ++ pre), post. rewrite <- !app_assoc. reflexivity. }
  intro J. destruct (G _ _ J) as (pre & post & ->). exists (lit "Resolved Requirements: {" ++ pre), (post ++ lit "}"). rewrite <- !app_assoc. reflexivity.
Qed.

(** with extras two packages look the same *)
Theorem C289_extras_refuted : forall normalize,
  resolved_message [((lit "requests", []), lit "2.0"); ((lit "requests", [lit "socks"]), lit "2.0")] = lit "Resolved Requirements: {requests: 2.0, requests[socks]: 2.0}"
  /\ print normalize true (resolved_message [((lit "requests", []), lit "2.0"); ((lit "requests", [lit "socks"]), lit "2.0")]) = Ok (lit "Resolved Requirements: {requests: 2.0, requests: 2.0}").
Proof. intro norm. split; reflexivity. Qed.

(** a process whose command has such a bracket cannot be announced *)
Theorem C289_process_refuted : forall normalize name, ~ In "["%char name -> ~ In "\"%char name ->
  print normalize true (process_message name [lit "python"; lit "/work/app[/v2]/setup.py"]) = Err OtherErr
  /\ print normalize true (start_message (process_message name [lit "python"; lit "/work/app[/v2]/setup.py"])) = Err OtherErr.
Proof.
  intros norm name N N'. assert (A : forall c, c <> "["%char -> c <> "\"%char -> True) by (intros; exact Logic.I). clear A.
  assert (NB : forall x, x = "["%char \/ x = "\"%char -> ~ In x (lit "Executing process " ++ name ++ lit ": 'python /work/app")).
  { intros x X I. apply in_app_iff in I. destruct I as [I|I]; [cbv in I; repeat (destruct I as [I|I]; [subst x; destruct X as [X|X]; discriminate X|]); exact I|].
    apply in_app_iff in I. destruct I as [I|I]; [destruct X; subst x; contradiction|]. cbv in I. repeat (destruct I as [I|I]; [subst x; destruct X as [X|X]; discriminate X|]). exact I. }
  assert (E : process_message name [lit "python"; lit "/work/app[/v2]/setup.py"] = (lit "Executing process " ++ name ++ lit ": 'python /work/app") ++ lit "[/" ++ lit "v2" ++ lit "]" ++ lit "/setup.py'").
  { unfold process_message. rewrite <- !app_assoc. reflexivity. }
  split.
  - rewrite E. apply C288_slash_refuted; [apply NB; left; reflexivity|apply NB; right; reflexivity| |]; intro I; cbv in I; repeat (destruct I as [I|I]; [discriminate I|]); exact I.
  - rewrite E. unfold start_message, print. set (b := lit "Executing process " ++ name ++ lit ": 'python /work/app") in *.
    rewrite render_bracket by (left; reflexivity).
    change (lit "[START] " ++ b ++ lit "[/" ++ lit "v2" ++ lit "]" ++ lit "/setup.py'") with ("["%char :: (lit "START] " ++ b) ++ "["%char :: "/"%char :: lit "v2" ++ "]"%char :: lit "/setup.py'").
    set (rest := "["%char :: "/"%char :: lit "v2" ++ "]"%char :: lit "/setup.py'"). set (f := Datatypes.S (length ("["%char :: (lit "START] " ++ b) ++ rest))).
    assert (P0 : parse f [] ("["%char :: (lit "START] " ++ b) ++ rest) = parse (length ("["%char :: (lit "START] " ++ b) ++ rest)) ["["%char] ((lit "START] " ++ b) ++ rest)) by reflexivity.
    rewrite P0. destruct (parse_skip (lit "START] " ++ b) (length ("["%char :: (lit "START] " ++ b) ++ rest)) ["["%char] rest) as (g & G & P).
    + cbn [length]. lia.
    + intro I. apply in_app_iff in I. destruct I as [I|I]; [cbv in I; repeat (destruct I as [I|I]; [discriminate I|]); exact I|exact (NB _ (or_introl eq_refl) I)].
    + intro I. apply in_app_iff in I. destruct I as [I|I]; [cbv in I; repeat (destruct I as [I|I]; [discriminate I|]); exact I|exact (NB _ (or_intror eq_refl) I)].
    + rewrite P. destruct (parse_tag g (["["%char] ++ lit "START] " ++ b) "/" (lit "v2") (lit "/setup.py'") G) as (g' & _ & P').
      * reflexivity.
      * discriminate.
      * intro I. cbv in I. repeat (destruct I as [I|I]; [discriminate I|]). exact I.
      * intro I. cbv in I. repeat (destruct I as [I|I]; [discriminate I|]). exact I.
      * unfold rest. rewrite P', render_text_app. reflexivity.
Qed.

(** and a message printed without markup is shown as it is, whatever it holds *)
Theorem C288_any_mode : forall normalize use_markup s, print normalize use_markup s = Ok s <-> use_markup = false \/ plain s.
Proof.
  intros norm [|] s; [rewrite C288_exactly; intuition discriminate|]. split; [left; reflexivity|reflexivity].
Qed.

Example C288_example : let n (s : str) := s in
  print n true (lit "Packages Removed: a, b") = Ok (lit "Packages Removed: a, b")
  /\ print n true (lit "[START] a [1] list[") = Ok (lit "[START] a [1] list[")
  /\ print n true (lit "[blue]12 MB[/] used") = Ok (lit "12 MB used")
  /\ print n true (lit "\[blue] stays") = Ok (lit "[blue] stays")
  /\ print n true (lit "a [b]c[/i]") = Err OtherErr
  /\ print n false (lit "[red]x[/i]") = Ok (lit "[red]x[/i]")
  /\ plain (lit "[START] building package: a 1.0").
Proof.
  repeat (split; [reflexivity|]).
  apply (C288_exactly (fun s => s)). reflexivity.
Qed.
Example C289_example : let n (s : str) := s in
  print n true (resolved_message [((lit "installation-request", []), lit "1"); ((lit "b", []), lit "2.0"); ((lit "a", []), lit "1.1")]) = Ok (lit "Resolved Requirements: {b: 2.0, a: 1.1}")
  /\ print n true (process_message (lit "hook") [lit "python"; lit "x.py"]) = Ok (lit "Executing process hook: 'python x.py'").
Proof. split; reflexivity. Qed.
