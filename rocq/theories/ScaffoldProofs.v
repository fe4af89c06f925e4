(** Reading the file of a new project. *)
From Coq Require Import String Ascii List Bool NArith ZArith Arith Lia.
From Verif Require Import Base BaseFacts ParserModel ParserFacts MarkerModel NamesModel TomlModel TomlProofs ScaffoldModel.
Import ListNotations.
Open Scope string_scope. Open Scope nat_scope. Open Scope list_scope. Open Scope bool_scope.

Definition fine (c : ascii) : bool := negb (Ascii.eqb c backslash) && negb (bad_in_literal c).
Lemma scan_fine : forall s R b, forallb fine s = true -> b = false -> scan b (s ++ dquote :: R) = Some (s, R).
Proof.
  induction s as [|c s IH]; intros R b F ->; [reflexivity|]. cbn [forallb] in F. apply andb_prop in F. destruct F as [C F].
  unfold fine in C. apply andb_prop in C. destruct C as [C1 C2]. apply negb_true_iff in C1, C2. unfold bad_in_literal in C2.
  apply orb_false_iff in C2. destruct C2 as [C2 _]. apply orb_false_iff in C2. destruct C2 as [C2 _]. apply orb_false_iff in C2. destruct C2 as [C2 _].
  cbn [app scan]. rewrite C2, C1, (IH R false F eq_refl). reflexivity.
Qed.
Lemma unescape_fine : forall s, forallb fine s = true -> unescape s = Ok s.
Proof.
  induction s as [|c s IH]; intro F; [reflexivity|]. cbn [forallb] in F. apply andb_prop in F. destruct F as [C F].
  unfold fine in C. apply andb_prop in C. destruct C as [C1 C2]. apply negb_true_iff in C1, C2. cbn [unescape]. rewrite C1, C2, (IH F). reflexivity.
Qed.
Lemma read_fine : forall s c R, forallb fine s = true -> Ascii.eqb c dquote = false -> read_string (dquote :: s ++ dquote :: c :: R) = Ok (s, c :: R).
Proof.
  intros s c R F C. unfold read_string.
  replace (starts_with [dquote; dquote; dquote] (dquote :: s ++ dquote :: c :: R)) with false.
  - replace (starts_with [squote; squote; squote] (dquote :: s ++ dquote :: c :: R)) with false by reflexivity. cbn [orb].
    rewrite Ascii.eqb_refl, (scan_fine s _ false F eq_refl), (unescape_fine s F). reflexivity.
  - symmetry. destruct s as [|x s].
    + cbn [app starts_with]. rewrite Ascii.eqb_refl. cbn [andb]. rewrite Ascii.eqb_sym. rewrite C. reflexivity.
    + cbn [forallb] in F. apply andb_prop in F. destruct F as [X _]. unfold fine in X. apply andb_prop in X. destruct X as [_ X]. apply negb_true_iff in X. unfold bad_in_literal in X.
      apply orb_false_iff in X. destruct X as [X _]. apply orb_false_iff in X. destruct X as [X _]. apply orb_false_iff in X. destruct X as [X _].
      cbn [app starts_with]. rewrite Ascii.eqb_refl. cbn [andb]. rewrite Ascii.eqb_sym, X. reflexivity.
Qed.
(** one line with a text *)
Lemma value_text : forall n s R, forallb fine s = true -> read_value (S n) (" "%char :: dquote :: s ++ dquote :: nl :: R) = Ok (TStr s, nl :: R).
Proof.
  intros n s R F. cbn [read_value].
  replace (skip true (" "%char :: dquote :: s ++ dquote :: nl :: R)) with (Ok (dquote :: s ++ dquote :: nl :: R)) by (symmetry; apply (skip_blank true dquote); reflexivity).
  cbn [bind]. change (Ascii.eqb dquote "+" || Ascii.eqb dquote "-" || is_digit dquote) with false. change (is_quote dquote) with true. cbv iota.
  rewrite (read_fine s nl R F eq_refl). reflexivity.
Qed.
Lemma line_text : forall n fuel data k names data' s R, forallb fine s = true ->
  (exists c r, forall T, skip true (k ++ T) = Ok (c :: r ++ T) /\ Ascii.eqb c "[" = false) ->
  (forall T, read_key (k ++ T) = Ok (names, "="%char :: " "%char :: T)) ->
  enter_data data names (TStr s) = Ok data' ->
  assign_loop (read_value (S n)) false (S fuel) data (k ++ dquote :: s ++ dquote :: nl :: R) = assign_loop (read_value (S n)) false fuel data' R.
Proof.
  intros n fuel data k names data' s R F (c & r & H) K E. destruct (H (dquote :: s ++ dquote :: nl :: R)) as [H1 H2].
  cbn [assign_loop]. rewrite H1. destruct (k ++ dquote :: s ++ dquote :: nl :: R) eqn:Z; [destruct k; discriminate Z|]. rewrite <- Z. cbn [bind]. rewrite H2.
  rewrite K. cbn [bind]. change (match_or_err "=" ("="%char :: " "%char :: dquote :: s ++ dquote :: nl :: R)) with (Ok (" "%char :: dquote :: s ++ dquote :: nl :: R)). cbn [bind].
  rewrite value_text by exact F. cbn [bind]. rewrite E. cbn [bind]. reflexivity.
Qed.
Lemma value_quoted : forall n s c R, forallb fine s = true -> stops c = true -> read_value (S n) (dquote :: s ++ dquote :: c :: R) = Ok (TStr s, c :: R).
Proof.
  intros n s c R F C. cbn [read_value].
  replace (skip true (dquote :: s ++ dquote :: c :: R)) with (Ok (dquote :: s ++ dquote :: c :: R)) by (symmetry; apply (skip_plain true dquote); reflexivity).
  cbn [bind]. change (Ascii.eqb dquote "+" || Ascii.eqb dquote "-" || is_digit dquote) with false. change (is_quote dquote) with true. cbv iota.
  rewrite (read_fine s c R F); [cbn [bind]; rewrite (stops_skip c R C); reflexivity|].
  destruct (Ascii.eqb_spec c dquote) as [->|]; [discriminate C|reflexivity].
Qed.
Lemma value_table : forall n s R, forallb fine s = true ->
  read_value (S (S n)) (lit "{name=" ++ dquote :: s ++ dquote :: lit "}]" ++ R) = Ok (TTab [(lit "name", TStr s)], "]"%char :: R).
Proof.
  intros n s R F. remember (S n) as m eqn:M. cbn [read_value]. set (T := dquote :: s ++ dquote :: lit "}]" ++ R).
  change (skip true (lit "{name=" ++ T)) with (Ok (lit "{name=" ++ T)). cbn [bind app lit list_ascii_of_string].
  change (Ascii.eqb "{" "+" || Ascii.eqb "{" "-" || is_digit "{") with false. change (is_quote "{") with false.
  change (Ascii.eqb "{" "t" || Ascii.eqb "{" "f") with false. change (Ascii.eqb "{" "[") with false. change (Ascii.eqb "{" "{") with true. cbv iota.
  unfold read_assignments. cbn [assign_loop]. change (skip true (lit "name=" ++ T)) with (Ok (lit "name=" ++ T)). cbn [bind].
  change (read_key ("n"%char :: "a"%char :: "m"%char :: "e"%char :: "="%char :: T)) with (Ok ([KName (lit "name")], "="%char :: T)). cbn [bind].
  change (match_or_err "=" ("="%char :: T)) with (Ok T). change (Ascii.eqb "n" "[") with false. cbv iota. cbn [bind].
  pose proof (value_quoted n s "}" (lit "]" ++ R) F eq_refl) as V. rewrite <- M in V.
  change (read_value m T = Ok (TStr s, "}"%char :: lit "]" ++ R)) in V.
  rewrite V. reflexivity.
Qed.
Lemma value_authors : forall n s R, forallb fine s = true ->
  read_value (S (S (S n))) (lit " [{name=" ++ dquote :: s ++ dquote :: lit "}]" ++ nl :: R) = Ok (TList [TTab [(lit "name", TStr s)]], nl :: R).
Proof.
  intros n s R F. remember (S (S n)) as m eqn:M. cbn [read_value]. set (T := lit "{name=" ++ dquote :: s ++ dquote :: lit "}]" ++ nl :: R).
  change (skip true (lit " [{name=" ++ dquote :: s ++ dquote :: lit "}]" ++ nl :: R)) with (Ok ("["%char :: T)). cbn [bind].
  change (Ascii.eqb "[" "+" || Ascii.eqb "[" "-" || is_digit "[") with false. change (is_quote "[") with false.
  change (Ascii.eqb "[" "t" || Ascii.eqb "[" "f") with false. change (Ascii.eqb "[" "[") with true. cbv iota.
  assert (L : list_loop (read_value m) (S (length T)) [] T = Ok ([TTab [(lit "name", TStr s)]], "]"%char :: nl :: R)).
  { unfold T at 2. cbn [lit list_ascii_of_string app list_loop]. fold T.
    change (skip true ("{"%char :: "n"%char :: "a"%char :: "m"%char :: "e"%char :: "="%char :: dquote :: s ++ dquote :: "}"%char :: "]"%char :: nl :: R)) with (Ok T). cbn [bind].
    change (smatch "]" T) with (@None str). cbv iota. unfold T. rewrite M, (value_table n s (nl :: R) F). reflexivity. }
  rewrite L. reflexivity.
Qed.
Lemma lines : forall n fuel name version description readme python author license R,
  forallb fine name = true -> forallb fine version = true -> forallb fine description = true -> forallb fine readme = true ->
  forallb fine python = true -> forallb fine author = true -> forallb fine license = true ->
  assign_loop (read_value (S (S (S n)))) false (9 + fuel) (TTab [])
    (lit "name = " ++ dquote :: name ++ dquote :: nl ::
     lit "version = " ++ dquote :: version ++ dquote :: nl ::
     lit "description = " ++ dquote :: description ++ dquote :: nl ::
     lit "readme = " ++ dquote :: readme ++ dquote :: nl ::
     lit "requires-python= " ++ dquote :: python ++ dquote :: nl ::
     lit "authors = [{name=" ++ dquote :: author ++ dquote :: lit "}]" ++ nl ::
     lit "license.text = " ++ dquote :: license ++ dquote :: nl ::
     lit "dependencies = []" ++ nl :: nl :: "["%char :: R)
  = Ok (TTab [(lit "name", TStr name); (lit "version", TStr version); (lit "description", TStr description); (lit "readme", TStr readme);
              (lit "requires-python", TStr python); (lit "authors", TList [TTab [(lit "name", TStr author)]]);
              (lit "license", TTab [(lit "text", TStr license)]); (lit "dependencies", TList [])], nl :: "["%char :: R).
Proof.
  intros n fuel name version description readme python author license R F1 F2 F3 F4 F5 F6 F7.
  change (9 + fuel) with (S (S (S (S (S (S (S (S (S fuel))))))))). remember (S (S n)) as m eqn:M.
  erewrite line_text; [|exact F1|exists "n"%char, (lit "ame = "); intro T; split; reflexivity|intro T; reflexivity|reflexivity].
  erewrite line_text; [|exact F2|exists "v"%char, (lit "ersion = "); intro T; split; reflexivity|intro T; reflexivity|reflexivity].
  erewrite line_text; [|exact F3|exists "d"%char, (lit "escription = "); intro T; split; reflexivity|intro T; reflexivity|reflexivity].
  erewrite line_text; [|exact F4|exists "r"%char, (lit "eadme = "); intro T; split; reflexivity|intro T; reflexivity|reflexivity].
  erewrite line_text; [|exact F5|exists "r"%char, (lit "equires-python= "); intro T; split; reflexivity|intro T; reflexivity|reflexivity].
  set (R7 := lit "license.text = " ++ _).
  assert (A : forall data data', enter_data data [KName (lit "authors")] (TList [TTab [(lit "name", TStr author)]]) = Ok data' ->
    forall fuel, assign_loop (read_value (S m)) false (S fuel) data (lit "authors = [{name=" ++ dquote :: author ++ dquote :: lit "}]" ++ nl :: R7)
    = assign_loop (read_value (S m)) false fuel data' R7).
  { intros data data' E fuel'. set (T := dquote :: author ++ dquote :: lit "}]" ++ nl :: R7).
    change (assign_loop (read_value (S m)) false (S fuel') data (lit "authors = [{name=" ++ T))
      with (do (v, s) <- read_value (S m) (lit " [{name=" ++ T); do data <- enter_data data [KName (lit "authors")] v;
            match (match smatch [nl] s with Some r => Some ([nl], r) | None => None end) with
            | Some (_, s) => assign_loop (read_value (S m)) false fuel' data s
            | None => Ok (data, s)
            end).
    unfold T. rewrite M, (value_authors n author R7 F6). cbn [bind]. rewrite E. reflexivity. }
  erewrite A by reflexivity. unfold R7.
  erewrite line_text; [|exact F7|exists "l"%char, (lit "icense.text = "); intro T; split; reflexivity|intro T; reflexivity|reflexivity].
  subst m. reflexivity.
Qed.
(** a text at the end of the file *)
Lemma value_end : forall n s, forallb fine s = true -> s <> [] -> read_value (S n) (" "%char :: dquote :: s ++ [dquote]) = Ok (TStr s, []).
Proof.
  intros n s F NE. cbn [read_value].
  replace (skip true (" "%char :: dquote :: s ++ [dquote])) with (Ok (dquote :: s ++ [dquote])) by (symmetry; apply (skip_blank true dquote); reflexivity).
  cbn [bind]. change (Ascii.eqb dquote "+" || Ascii.eqb dquote "-" || is_digit dquote) with false. change (is_quote dquote) with true. cbv iota.
  assert (R : read_string (dquote :: s ++ [dquote]) = Ok (s, [])); [|rewrite R; reflexivity].
  unfold read_string. replace (starts_with [dquote; dquote; dquote] (dquote :: s ++ [dquote])) with false.
  - replace (starts_with [squote; squote; squote] (dquote :: s ++ [dquote])) with false by reflexivity. cbn [orb].
    rewrite Ascii.eqb_refl, (scan_fine s [] false F eq_refl), (unescape_fine s F). reflexivity.
  - symmetry. destruct s as [|x s]; [elim NE; reflexivity|]. cbn [forallb] in F. apply andb_prop in F. destruct F as [X _]. unfold fine in X. apply andb_prop in X. destruct X as [_ X]. apply negb_true_iff in X. unfold bad_in_literal in X.
    apply orb_false_iff in X. destruct X as [X _]. apply orb_false_iff in X. destruct X as [X _]. apply orb_false_iff in X. destruct X as [X _].
    cbn [app starts_with]. rewrite Ascii.eqb_refl. cbn [andb]. rewrite Ascii.eqb_sym, X. reflexivity.
Qed.
Lemma path_line : forall n fuel s, forallb fine s = true -> s <> [] ->
  assign_loop (read_value (S n)) false (S fuel) (TTab []) (lit "path = " ++ dquote :: s ++ [dquote]) = Ok (TTab [(lit "path", TStr s)], []).
Proof.
  intros n fuel s F NE. pose proof (value_end n s F NE) as V. remember (read_value (S n)) as rv eqn:E. clear E. set (T := dquote :: s ++ [dquote]) in *.
  cbn [assign_loop lit list_ascii_of_string app].
  change (skip true ("p"%char :: "a"%char :: "t"%char :: "h"%char :: " "%char :: "="%char :: " "%char :: T)) with (Ok (lit "path = " ++ T)). cbn [bind].
  change (match lit "path = " ++ T with [] => true | c :: _ => Ascii.eqb c "[" end) with false. cbv iota.
  change (read_key ("p"%char :: "a"%char :: "t"%char :: "h"%char :: " "%char :: "="%char :: " "%char :: T)) with (Ok ([KName (lit "path")], "="%char :: " "%char :: T)). cbn [bind].
  change (match_or_err ["="%char] ("="%char :: " "%char :: T)) with (Ok (" "%char :: T)). cbn [bind]. rewrite V. reflexivity.
Qed.
