(** Lemmas about dependencies (DependencyModel). *)
From Coq Require Import String Ascii List Bool NArith Arith Lia.
From Verif Require Import Base BaseFacts ParserModel ParserFacts VersionModel VersionParserProofs SpecifierModel SpecParse SpecParseSpec SpecParseProofs
  NamesModel NamesProofs MarkerModel MarkerProofs DependencyModel.
Import ListNotations.
Open Scope string_scope.
Open Scope nat_scope.
Open Scope list_scope.
Open Scope bool_scope.

Definition ident (n : str) : Prop := exists c t, n = c :: t /\ ident_start c = true /\ forallb ident_char t = true.
Definition extras_ok (e : option (list str)) : Prop := forall l, e = Some l -> l <> [] /\ Forall ident l.
Definition line_blank (c : ascii) : bool := if Ascii.eqb c "010"%char then false else is_space c.
Definition marker_ok (m : option marker) : Prop :=
  forall x, m = Some x -> read_marker (m_text x) = Ok (x, []) /\ head_not line_blank (m_text x).

Lemma start_char : forall c, ident_start c = true -> ident_char c = true /\ is_space c = false /\ invalid_char c = false /\ Ascii.eqb c "-" = false.
Proof. intros c. by_char c; intros _; repeat split. Qed.
Lemma ws_skip : forall b r, head_not is_space r -> match_ws true (PS b r) = PS b r.
Proof. intros b [|c r] H; [reflexivity|]. now apply match_ws_nospace. Qed.
Lemma ident_read : forall n b r, ident n -> head_not ident_char r -> dep_ident (PS b (n ++ r)) = Ok (n, PS (rev n ++ b) r).
Proof.
  intros n b r (c & t & -> & S & T) H. unfold dep_ident. change (peek (PS b ((c :: t) ++ r))) with (Some c). cbv iota. rewrite S.
  rewrite take_while_app; [reflexivity| |exact H]. cbn [forallb]. rewrite T. destruct (start_char c S) as (-> & _). reflexivity.
Qed.
Lemma ident_nospace : forall n r, ident n -> head_not is_space (n ++ r).
Proof. intros n r (c & t & -> & S & _). destruct (start_char c S) as (_ & H & _). exact H. Qed.
Lemma extras_read : forall l fuel acc b r, l <> [] -> Forall ident l -> length l <= fuel ->
  exists b', extras_loop fuel acc (PS b (join (lit ",") l ++ lit "]" ++ r)) = Ok (acc ++ l, PS b' (lit "]" ++ r)).
Proof.
  induction l as [|e l IH]; intros fuel acc b r N F L; [contradiction|]. inversion F as [|? ? Fe Fl]; subst.
  destruct fuel as [|fuel]; [cbn [length] in L; lia|].
  assert (NE : forall x, not_empty (PS b (e ++ x)) = true) by (intros x; destruct Fe as (c & t & -> & _); reflexivity).
  destruct l as [|e2 l].
  - cbn [join]. cbn [extras_loop]. rewrite NE. cbn [negb]. rewrite ws_skip by now apply ident_nospace.
    rewrite ident_read; [|exact Fe|reflexivity]. cbn [bind]. rewrite ws_skip by reflexivity.
    eexists. reflexivity.
  - change (join (lit ",") (e :: e2 :: l)) with (e ++ lit "," ++ join (lit ",") (e2 :: l)). rewrite <- !app_assoc.
    cbn [extras_loop]. rewrite NE. cbn [negb]. rewrite ws_skip by now apply ident_nospace.
    rewrite ident_read; [|exact Fe|reflexivity]. cbn [bind]. rewrite ws_skip by reflexivity. rewrite pmatch_app.
    destruct (IH fuel (acc ++ [e]) (rev (lit ",") ++ rev e ++ b) r) as (b' & E); [discriminate|exact Fl|cbn [length] in *; lia|].
    exists b'. rewrite E, <- app_assoc. reflexivity.
Qed.
Lemma join_length : forall l, Forall ident l -> length l <= length (join (lit ",") l).
Proof.
  induction l as [|e l IH]; intros F; [cbn; lia|]. inversion F as [|? ? (c & t & -> & _) Fl]; subst. specialize (IH Fl).
  destruct l as [|e2 l]; [cbn; lia|]. change (join (lit ",") ((c :: t) :: e2 :: l)) with ((c :: t) ++ lit "," ++ join (lit ",") (e2 :: l)).
  rewrite !app_length. cbn [length lit list_ascii_of_string] in *. lia.
Qed.
Definition marker_part (m : option marker) : str := match m with None => [] | Some m => lit ";" ++ marker_str m end.
Definition spec_part (s : spec) : str := if is_allow s then [] else spec_str s.
Definition version_part (s : spec) : str := if is_allow s then [] else lit " " ++ spec_str s.
Definition extras_part (e : option (list str)) : str :=
  match e with None | Some [] => [] | Some l => lit "[" ++ join (lit ",") l ++ lit "]" end.
Lemma dep_str_parts : forall d, dep_str d = d_name d ++ extras_part (d_extras d) ++ version_part (d_spec d) ++ marker_part (d_marker d).
Proof. reflexivity. Qed.
Lemma marker_tail : forall m, tail (marker_part m).
Proof. intros [m|]; [right; eexists; reflexivity|now left]. Qed.
Lemma marker_head : forall f m, f ";"%char = false -> head_not f (marker_part m).
Proof. intros f [m|] H; [exact H|reflexivity]. Qed.
Lemma spec_ws : forall b s m, printable s -> exists b', match_ws true (PS b (version_part s ++ marker_part m)) = PS b' (spec_part s ++ marker_part m).
Proof.
  intros b s m P. unfold version_part, spec_part. destruct (is_allow s).
  - exists b. apply ws_skip. now apply marker_head.
  - destruct (printable_head s (marker_part m) P) as (d & l & E & S & _). rewrite <- app_assoc, E.
    exists (" "%char :: b). now apply ws_space.
Qed.
Lemma printable_semi : forall s r, printable s -> is_allow s = false -> opt_is ";" (hd_error (spec_str s ++ r)) = false.
Proof.
  intros [| |l|bl s|v al|mn mx i j] r H A; try contradiction; cbn [spec_str]; try discriminate.
  - destruct v as [| |v]; try contradiction. destruct al; reflexivity.
  - destruct H as (W & _). unfold range_str. destruct mn as [m|], mx as [n|].
    + destruct (i && negb j && compat_release m n); reflexivity.
    + reflexivity.
    + reflexivity.
    + destruct W as ([X|X] & _); congruence.
Qed.
Lemma peek_hd : forall b r, peek (PS b r) = hd_error r.
Proof. intros b [|c r]; reflexivity. Qed.
Lemma spec_read : forall u b s m, printable s ->
  exists b', (if opt_is ";" (peek (PS b (spec_part s ++ marker_part m))) then Ok (AllowAll, PS b (spec_part s ++ marker_part m))
              else do (x, s') <- read_specifier u (PS b (spec_part s ++ marker_part m)); Ok (x, match_ws true s'))
             = Ok (s, PS b' (marker_part m)).
Proof.
  intros u b s m P. rewrite peek_hd. unfold spec_part. destruct (is_allow s) eqn:A.
  - destruct s; try discriminate. cbn [app]. exists b. destruct m as [m|]; reflexivity.
  - rewrite printable_semi by assumption. destruct (print_read u s b (marker_part m) P (marker_tail m)) as (b' & E).
    rewrite E. cbn [bind]. exists b'. rewrite ws_skip; [reflexivity|]. now apply marker_head.
Qed.
Lemma line_skip : forall b r, head_not line_blank r -> match_ws false (PS b r) = PS b r.
Proof.
  intros b r H. unfold match_ws. rewrite take_while_none; [reflexivity|]. destruct r as [|c r]; [reflexivity|].
  unfold head_not in *. cbn [hd_error opt_test negb] in *. rewrite andb_true_r. exact H.
Qed.
Lemma marker_read : forall b (m : option marker), marker_ok m ->
  (match pmatch_ws ";" (PS b (marker_part m)) with
   | Some (_, s) => if not_empty s then do (m, _) <- read_marker (rest s); Ok (Some m) else Ok None
   | None => Ok None
   end) = Ok m.
Proof.
  intros b [m|] H; [|reflexivity]. destruct (H m eq_refl) as [R Hd]. cbn [marker_part]. unfold pmatch_ws. rewrite pmatch_app.
  unfold marker_str. rewrite line_skip by exact Hd. cbn [rest].
  destruct (m_text m) as [|c t] eqn:E; [discriminate R|]. change (not_empty (PS (rev (lit ";") ++ b) (c :: t))) with true. cbv iota.
  rewrite R. reflexivity.
Qed.
Lemma ws_drop : forall w l, forallb is_space w = true -> ws (w ++ l) = ws l.
Proof.
  intros w l S. unfold ws. induction w as [|c w IH]; [reflexivity|]. cbn [app span]. cbn [forallb] in S. apply andb_prop in S. destruct S as [Sc Sw].
  rewrite Sc. specialize (IH Sw). destruct (span is_space (w ++ l)). cbn [snd] in *. exact IH.
Qed.
(** a marker that is printed with leading blanks is read without them *)
Lemma marker_read_blank : forall b m, read_marker (m_text m) = Ok (m, []) ->
  exists m', m_exec m' = m_exec m /\
  (match pmatch_ws ";" (PS b (marker_part (Some m))) with
   | Some (_, s) => if not_empty s then do (m, _) <- read_marker (rest s); Ok (Some m) else Ok None
   | None => Ok None
   end) = Ok (Some m').
Proof.
  intros b m R. cbn [marker_part]. unfold pmatch_ws. rewrite pmatch_app. unfold marker_str. set (t := m_text m) in *.
  unfold match_ws, take_while. cbn [rest prev]. destruct (span _ t) as [w l] eqn:E. cbn [snd rest].
  destruct (span_split _ _ _ _ E) as (Et & Hw & _).
  assert (Sw : forallb is_space w = true).
  { apply forallb_forall. intros c I. rewrite forallb_forall in Hw. specialize (Hw c I). cbn [negb] in Hw. rewrite andb_true_r in Hw.
    destruct (Ascii.eqb c "010"); [discriminate|exact Hw]. }
  assert (Ew : ws t = ws l) by (rewrite Et; now apply ws_drop).
  unfold read_marker in R. unfold read_compound in R. rewrite fcomp_eq in R by lia. unfold fcomp in R.
  destruct (full None [] (ws t)) as [[e r]|] eqn:Ef; [|discriminate]. cbn [bind] in R.
  assert (r = []) as -> by congruence. assert (Me : m_exec m = e) by (pose proof (f_equal (fun z => match z with Ok (a, _) => m_exec a | _ => e end) R) as K; symmetry; exact K).
  exists (Marker l e). split; [exact (eq_sym Me)|].
  destruct l as [|c l]; [rewrite Ew in Ef; discriminate Ef|].
  match goal with |- context [not_empty ?z] => change (not_empty z) with true end. cbv iota.
  unfold read_marker, read_compound. rewrite fcomp_eq by lia. unfold fcomp. rewrite <- Ew, Ef. cbn [bind]. change (length (@nil ascii)) with 0. now rewrite Nat.sub_0_r, (firstn_all (c :: l)).
Qed.
Lemma print_parse_gen : forall u d m', ident (d_name d) -> normalize_name (d_name d) = Ok (d_name d) -> extras_ok (d_extras d) ->
  printable (d_spec d) ->
  (forall b, (match pmatch_ws ";" (PS b (marker_part (d_marker d))) with
   | Some (_, s) => if not_empty s then do (m, _) <- read_marker (rest s); Ok (Some m) else Ok None
   | None => Ok None
   end) = Ok m') -> parse_dependency u (dep_str d) = Ok (Dep (d_name d) (d_spec d) (d_extras d) m').
Proof.
  intros u [n sp ex m] m' I N X P M. cbn [d_name d_spec d_extras d_marker] in *. rewrite dep_str_parts. cbn [d_name d_spec d_extras d_marker].
  unfold parse_dependency, read_dependency, pinit. rewrite ws_skip by now apply ident_nospace.
  assert (H : head_not ident_char (extras_part ex ++ version_part sp ++ marker_part m)).
  { unfold extras_part, version_part. destruct ex as [[|e l]|]; [|reflexivity|]; destruct (is_allow sp); try reflexivity; now apply marker_head. }
  rewrite ident_read by assumption. cbn [bind]. rewrite N. cbn [bind].
  destruct ex as [l|].
  - destruct (X l eq_refl) as [Nl Fl]. destruct l as [|e l]; [contradiction|]. unfold extras_part.
    set (L := e :: l) in *. rewrite <- !app_assoc. rewrite ws_skip by reflexivity.
    match goal with |- context [peek ?z] => change (opt_is "[" (peek z)) with true end. cbv iota.
    unfold read_extras. rewrite pmatch_app. cbn [rest].
    destruct (extras_read L (length (join (lit ",") L ++ lit "]" ++ version_part sp ++ marker_part m)) [] (rev (lit "[") ++ rev n ++ []) (version_part sp ++ marker_part m)) as (b' & E); [exact Nl|exact Fl| |].
    { rewrite app_length. pose proof (join_length L Fl). lia. }
    rewrite E. cbn [bind app]. rewrite pmatch_app. cbn [bind].
    destruct (spec_ws (rev (lit "]") ++ b') sp m P) as (b3 & E3). rewrite E3.
    destruct (spec_read u b3 sp m P) as (b2 & E2). rewrite E2. cbn [bind]. now rewrite M.
  - unfold extras_part. cbn [app]. destruct (spec_ws (rev n ++ []) sp m P) as (b' & E). rewrite E.
    assert (O : opt_is "[" (peek (PS b' (spec_part sp ++ marker_part m))) = false).
    { rewrite peek_hd. unfold spec_part. destruct (is_allow sp) eqn:A; [destruct m; reflexivity|]. clear - P A.
      destruct sp as [| |l|bl s|v al|mn mx i j]; try contradiction; cbn [spec_str]; try discriminate.
      - destruct v as [| |v]; try contradiction. destruct al; reflexivity.
      - destruct P as (W & _). unfold range_str. destruct mn as [m1|], mx as [n|].
        + destruct (i && negb j && compat_release m1 n); reflexivity.
        + reflexivity.
        + reflexivity.
        + destruct W as ([X|X] & _); congruence. }
    rewrite O. cbn [bind]. destruct (spec_read u b' sp m P) as (b2 & E2). rewrite E2. cbn [bind]. now rewrite M.
Qed.

Theorem print_parse_dep : forall u d, ident (d_name d) -> normalize_name (d_name d) = Ok (d_name d) -> extras_ok (d_extras d) ->
  printable (d_spec d) -> marker_ok (d_marker d) -> parse_dependency u (dep_str d) = Ok d.
Proof.
  intros u d I N X P M. rewrite (print_parse_gen u d (d_marker d) I N X P); [now destruct d|]. intros b. now apply marker_read.
Qed.
Theorem print_parse_equiv : forall u d, ident (d_name d) -> normalize_name (d_name d) = Ok (d_name d) ->
  (forall l, d_extras d = Some l -> Forall ident l) -> printable (d_spec d) ->
  (forall m, d_marker d = Some m -> exists t r, read_marker t = Ok (m, r)) ->
  exists d', parse_dependency u (dep_str d) = Ok d' /\ d_name d' = d_name d /\ d_spec d' = d_spec d /\
    match d_extras d' with Some l => l | None => [] end = match d_extras d with Some l => l | None => [] end /\
    option_map m_exec (d_marker d') = option_map m_exec (d_marker d).
Proof.
  intros u d I N X P M. set (ex := match d_extras d with Some [] => None | e => e end).
  set (d0 := Dep (d_name d) (d_spec d) ex (d_marker d)).
  assert (Es : dep_str d = dep_str d0).
  { rewrite !dep_str_parts. unfold d0. cbn [d_name d_spec d_extras d_marker]. unfold ex. destruct (d_extras d) as [[|e l]|]; reflexivity. }
  assert (X0 : extras_ok (d_extras d0)).
  { unfold d0, ex. cbn [d_extras]. intros l. destruct (d_extras d) as [[|e k]|] eqn:E; intros H; try discriminate. injection H as <-.
    split; [discriminate|exact (X _ eq_refl)]. }
  assert (Ex : match ex with Some l => l | None => [] end = match d_extras d with Some l => l | None => [] end).
  { unfold ex. destruct (d_extras d) as [[|e l]|]; reflexivity. }
  rewrite Es. destruct (d_marker d) as [m|] eqn:Em.
  - destruct (M m eq_refl) as (t & r & R). apply print_parse in R. unfold marker_str in R.
    assert (K : exists m', m_exec m' = m_exec m /\ forall b,
      (match pmatch_ws ";" (PS b (marker_part (Some m))) with
       | Some (_, s) => if not_empty s then do (m, _) <- read_marker (rest s); Ok (Some m) else Ok None
       | None => Ok None end) = Ok (Some m')).
    { destruct (marker_read_blank [] m R) as (m' & E' & B). exists m'. split; [exact E'|]. intros b.
      rewrite <- B. cbn [marker_part]. unfold pmatch_ws. rewrite !pmatch_app. unfold match_ws, take_while. cbn [rest].
      destruct (span _ (marker_str m)) as [w l]. reflexivity. }
    destruct K as (m' & E' & K). exists (Dep (d_name d) (d_spec d) ex (Some m')).
    split; [exact (print_parse_gen u d0 (Some m') I N X0 P K)|]. cbn [d_name d_spec d_extras d_marker option_map]. rewrite E'. auto.
  - exists d0. split; [|unfold d0; cbn [d_name d_spec d_extras d_marker]; auto].
    apply (print_parse_dep u d0 I N X0 P). intros x H. discriminate H.
Qed.

(** * What parsing gives *)
Lemma dep_ident_ident : forall s n s', dep_ident s = Ok (n, s') -> ident n.
Proof.
  intros [b r] n s'. unfold dep_ident. rewrite peek_hd. destruct r as [|c r]; [discriminate|]. cbn [hd_error].
  destruct (ident_start c) eqn:S; [|discriminate]. unfold take_while. cbn [rest].
  destruct (span ident_char (c :: r)) as [a t] eqn:E. intros H. injection H as <- <-.
  destruct (span_split _ _ _ _ E) as (Ea & F & Hd). destruct a as [|c' a].
  - exfalso. cbn [app] in Ea. subst t. unfold head_not in Hd. cbn [hd_error opt_test] in Hd. destruct (start_char c S) as (K & _). congruence.
  - cbn [app] in Ea. injection Ea as <- _. exists c, a. split; [reflexivity|]. split; [exact S|]. cbn [forallb] in F. apply andb_prop in F. apply F.
Qed.
Lemma lstrip_last : forall c l x, Ascii.eqb x c = false -> exists l', lstrip c (l ++ [x]) = l' ++ [x] /\ forall y, In y l' -> In y l.
Proof.
  intros c l x H. induction l as [|z l IH]; cbn [app lstrip].
  - rewrite H. exists []. auto.
  - destruct (Ascii.eqb z c); [|exists (z :: l); auto]. destruct IH as (l' & -> & I). exists l'. split; [reflexivity|]. intros y K. right. now apply I.
Qed.
Lemma strip_first : forall c x l, Ascii.eqb x c = false -> exists l', strip c (x :: l) = x :: l' /\ forall y, In y l' -> In y l.
Proof.
  intros c x l H. unfold strip. cbn [lstrip]. rewrite H. cbn [rev]. destruct (lstrip_last c (rev l) x H) as (l' & -> & I).
  exists (rev l'). rewrite rev_app_distr. split; [reflexivity|]. intros y K. apply in_rev in K. apply I in K. now apply in_rev in K.
Qed.
Lemma sub_runs_ident : forall b s, forallb ident_char (sub_runs invalid_char "-" b s) = true.
Proof.
  intros b s. revert b. induction s as [|c s IH]; intros b; [reflexivity|]. cbn [sub_runs]. destruct (invalid_char c) eqn:E.
  - destruct b; [apply IH|]. cbn [forallb]. now rewrite IH.
  - cbn [forallb]. rewrite IH, andb_true_r. clear - E. revert E. by_char c.
Qed.
Lemma normalize_ident : forall n n', ident n -> normalize_name n = Ok n' -> ident n'.
Proof.
  intros n n' (c & t & -> & S & T). unfold normalize_name. destruct (start_char c S) as (_ & _ & V & D).
  cbn [sub_runs]. rewrite V. destruct (strip_first "-" c (sub_runs invalid_char "-" false t) D) as (l' & -> & I).
  intros H. injection H as <-. exists c, l'. split; [reflexivity|]. split; [exact S|]. apply forallb_forall. intros y Iy.
  pose proof (sub_runs_ident false t) as F. rewrite forallb_forall in F. apply F, I, Iy.
Qed.
Lemma extras_ident : forall fuel acc s l s', extras_loop fuel acc s = Ok (l, s') -> Forall ident acc -> Forall ident l /\ (l = [] -> s' = s /\ not_empty s = false).
Proof.
  induction fuel as [|fuel IH]; intros acc s l s' H F; cbn [extras_loop] in H; destruct (not_empty s) eqn:NE; cbn [negb] in H; try discriminate.
  - injection H as <- <-. auto.
  - destruct (dep_ident (match_ws true s)) as [[e s1]|] eqn:E; [|discriminate]. cbn [bind] in H.
    assert (F2 : Forall ident (acc ++ [e])) by (apply Forall_app; split; [exact F|constructor; [exact (dep_ident_ident _ _ _ E)|constructor]]).
    destruct (pmatch "," (match_ws true s1)) as [s2|].
    + destruct (IH _ _ _ _ H F2) as [Fl Nl]. split; [exact Fl|]. intros L. exfalso. subst l.
      assert (G : forall f a x l y, extras_loop f a x = Ok (l, y) -> a <> [] -> l <> []).
      { clear. induction f as [|f IH]; intros a x l y H N; cbn [extras_loop] in H; destruct (not_empty x); cbn [negb] in H; try discriminate.
        - injection H as <- <-. exact N.
        - destruct (dep_ident (match_ws true x)) as [[e s1]|]; [|discriminate]. cbn [bind] in H.
          destruct (pmatch "," (match_ws true s1)) as [s2|].
          + apply IH in H; [exact H|]. destruct a; discriminate.
          + injection H as <- _. destruct a; discriminate.
        - injection H as <- <-. exact N. }
      exact (G _ _ _ _ _ H ltac:(destruct acc; discriminate) eq_refl).
    + injection H as <- <-. split; [exact F2|]. intros L. destruct acc; discriminate.
  - injection H as <- <-. auto.
Qed.
Lemma parsed_shape : forall u t d, parse_dependency u t = Ok d ->
  ident (d_name d) /\ normalize_name (d_name d) = Ok (d_name d) /\ extras_ok (d_extras d) /\ marker_ok (d_marker d).
Proof.
  intros u t d. unfold parse_dependency, read_dependency.
  destruct (dep_ident (match_ws true (pinit t))) as [[id s]|] eqn:Ei; [|discriminate]. cbn [bind].
  destruct (normalize_name id) as [n|] eqn:En; [|discriminate]. cbn [bind].
  set (s1 := match_ws true s).
  destruct (if opt_is "[" (peek s1) then _ else _) as [[ex s2]|] eqn:Ex; [|discriminate]. cbn [bind].
  destruct (if opt_is ";" (peek s2) then _ else _) as [[sp s3]|] eqn:Es; [|discriminate]. cbn [bind].
  match goal with |- context [bind ?a _] => destruct a as [m|] eqn:Em end; [|discriminate]. cbn [bind]. intros H. injection H as <-.
  cbn [d_name d_spec d_extras d_marker].
  pose proof (dep_ident_ident _ _ _ Ei) as I.
  split; [exact (normalize_ident _ _ I En)|]. split; [exact (normalize_idem _ _ En)|]. split.
  - intros l ->. destruct (opt_is "[" (peek s1)); [|discriminate]. unfold read_extras in Ex.
    destruct (pmatch "[" s1) as [s4|]; [|discriminate].
    destruct (extras_loop (length (rest s4)) [] s4) as [[l' s5]|] eqn:El; [|discriminate]. cbn [bind] in Ex.
    destruct (pmatch "]" s5) as [s6|] eqn:Ep; [|discriminate]. cbn [bind] in Ex. injection Ex as <- _.
    destruct (extras_ident _ _ _ _ _ El (Forall_nil _)) as [F N]. split; [|exact F].
    intros Z. destruct (N Z) as [-> NE]. unfold pmatch in Ep. destruct (rest s4) eqn:R; [discriminate Ep|]. unfold not_empty in NE. rewrite R in NE. discriminate.
  - intros x ->. unfold pmatch_ws in Em. destruct (pmatch ";" s3) as [s4|]; [|discriminate].
    destruct (not_empty (match_ws false s4)); [|discriminate].
    destruct (read_marker (rest (match_ws false s4))) as [[x' r]|] eqn:Er; [|discriminate]. cbn [bind] in Em. injection Em as <-.
    split; [exact (print_parse _ _ _ Er)|].
    assert (Hd : head_not line_blank (rest (match_ws false s4))).
    { unfold match_ws, take_while. destruct (span _ (rest s4)) as [a b] eqn:E. cbn [snd rest].
      destruct (span_split _ _ _ _ E) as (_ & _ & Hb). destruct b as [|c b]; [reflexivity|]. unfold head_not in *. cbn [hd_error opt_test negb] in *.
      rewrite andb_true_r in Hb. exact Hb. }
    pose proof (print_parse _ _ _ Er) as PP. unfold read_marker in Er.
    destruct (read_compound (rest (match_ws false s4))) as [[e r0]|]; [|discriminate]. cbn [bind] in Er. injection Er as <- _.
    unfold marker_str in PP. cbn [m_text] in *. destruct (rest (match_ws false s4)) as [|c w]; [rewrite firstn_nil; reflexivity|].
    destruct (length (c :: w) - length r0) as [|k]; [discriminate PP|]. exact Hd.
Qed.
Theorem parsed_again : forall u t d, parse_dependency u t = Ok d -> printable (d_spec d) -> parse_dependency u (dep_str d) = Ok d.
Proof.
  intros u t d H P. destruct (parsed_shape u t d H) as (I & N & X & M). now apply print_parse_dep.
Qed.
