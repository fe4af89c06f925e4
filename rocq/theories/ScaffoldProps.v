(** Properties of new projects (C299). *)
From Coq Require Import String Ascii List Bool NArith ZArith Arith Lia.
From Verif Require Import Base BaseFacts ParserModel MarkerModel VersionModel VersionSpec VersionProofs VersionParse SpecifierModel SpecifierSpec SpecParse SpecParseSpec SpecParseProofs PlanProofs PythonsProofs NamesModel TomlModel TomlProofs ScaffoldModel ScaffoldProofs.
Import ListNotations.
Open Scope string_scope. Open Scope nat_scope. Open Scope list_scope. Open Scope bool_scope.

(** ** C299 *)
(** a text that may stand between two quotes: no quote, no backslash, no line end, no NUL *)
Definition simple (s : str) : Prop := forall c, In c [""""%char; "092"%char; "010"%char; "013"%char; "000"%char] -> ~ In c s.
Lemma simple_fine : forall s, simple s -> forallb fine s = true.
Proof.
  intros s H. apply forallb_forall. intros c C. unfold fine, bad_in_literal.
  assert (N : forall d, In d [""""%char; "092"%char; "010"%char; "013"%char; "000"%char] -> Ascii.eqb c d = false).
  { intros d D. destruct (Ascii.eqb_spec c d) as [->|]; [elim (H d D C)|reflexivity]. }
  rewrite (N dquote), (N backslash), (N nl), (N "013"%char), (N "000"%char) by (cbn; tauto). reflexivity.
Qed.
(** the file of a new project is read as what was answered, with an empty license *)
Definition says (a : answers) (license : str) : tv := TTab [
  (lit "project", TTab [
    (lit "name", TStr (project_name a)); (lit "version", TStr (version a)); (lit "description", TStr (description a));
    (lit "readme", TStr (lit "README." ++ (if markdown a then lit "md" else lit "rst")));
    (lit "requires-python", TStr (lit "~=" ++ required_python a));
    (lit "authors", TList [TTab [(lit "name", TStr (author a))]]);
    (lit "license", TTab [(lit "text", TStr license)]);
    (lit "dependencies", TList [])]);
  (lit "build-system", TTab [(lit "requires", TList [TStr (lit "pkm")]); (lit "build-backend", TStr (lit "pkm.api.buildsys"))])].
Theorem C299_answers_partial : forall a text, pyproject a = Ok text ->
  simple (project_name a) -> simple (version a) -> simple (description a) -> simple (required_python a) -> simple (author a) ->
  loads text = Ok (says a []).
Proof.
  intros a text P H1 H2 H3 H4 H5. unfold pyproject, setup in P. destruct (normalize_src_package_name (project_name a)) as [p|e]; [|discriminate P].
  cbn [bind] in P. injection P as P.
  apply simple_fine in H1, H2, H3, H4, H5.
  set (R := lit "build-system]" ++ [nl] ++ lit "requires=[""pkm""]" ++ [nl] ++ lit "build-backend = ""pkm.api.buildsys""").
  assert (E : text = lit "[project]" ++ nl ::
     lit "name = " ++ dquote :: project_name a ++ dquote :: nl ::
     lit "version = " ++ dquote :: version a ++ dquote :: nl ::
     lit "description = " ++ dquote :: description a ++ dquote :: nl ::
     lit "readme = " ++ dquote :: (lit "README." ++ (if markdown a then lit "md" else lit "rst")) ++ dquote :: nl ::
     lit "requires-python= " ++ dquote :: (lit "~=" ++ required_python a) ++ dquote :: nl ::
     lit "authors = [{name=" ++ dquote :: author a ++ dquote :: lit "}]" ++ nl ::
     lit "license.text = " ++ dquote :: [] ++ dquote :: nl ::
     lit "dependencies = []" ++ nl :: nl :: "["%char :: R).
  { rewrite <- P. unfold R. destruct (markdown a); reflexivity. }
  rewrite E. clear P E text.
  set (S8 := lit "name = " ++ _).
  assert (L := fun n fuel => lines n fuel (project_name a) (version a) (description a) (lit "README." ++ (if markdown a then lit "md" else lit "rst"))
    (lit "~=" ++ required_python a) (author a) [] R H1 H2 H3 (match markdown a as m return forallb fine (lit "README." ++ (if m then lit "md" else lit "rst")) = true with true => eq_refl | false => eq_refl end)
    H4 H5 eq_refl).
  fold S8 in L.
  assert (RT : read_table (lit "[project]" ++ nl :: S8) = do (data, s) <- read_assignments (read_value (S (length S8))) false S8; Ok ([KName (lit "project")], data, s)) by reflexivity.
  assert (RA : read_assignments (read_value (S (length S8))) false S8 = do (data, s) <- assign_loop (read_value (S (length S8))) false (S (length S8)) (TTab []) S8;
    Ok (data, match smatch [nl] s with Some r => r | None => s end)) by reflexivity.
  assert (LL : exists n fuel, S (length S8) = S (S (S n)) /\ S (length S8) = 9 + fuel).
  { eexists (6 + _), _. split; reflexivity. }
  destruct LL as (n & fuel & N1 & N2). rewrite N1 in RA at 2. rewrite N2 in RA at 2. rewrite (L n fuel) in RA. cbn [bind] in RA.
  rewrite RA in RT. cbn [bind] in RT. clear L RA N1 N2 n fuel.
  unfold loads. change (skip true (lit "[project]" ++ nl :: S8)) with (Ok (lit "[project]" ++ nl :: S8)). cbn [bind].
  change (read_assignments (read_value (S (length (lit "[project]" ++ nl :: S8)))) false (lit "[project]" ++ nl :: S8)) with (Ok (TTab [], lit "[project]" ++ nl :: S8)).
  cbn [bind].
  assert (TL : forall fuel, tables_loop (S fuel) (TTab []) (lit "[project]" ++ nl :: S8) = do (key, v, s) <- read_table (lit "[project]" ++ nl :: S8);
    do data <- enter_data (TTab []) key v; tables_loop fuel data s) by reflexivity.
  rewrite TL, RT. cbn [bind]. clear TL RT. reflexivity.
Qed.
(** what is answered for the license never gets into the file *)
Theorem C299_license_ignored : forall n v d m r a l l', pyproject (Answers n v d m r a l) = pyproject (Answers n v d m r a l').
Proof. intros n v d m r a l l'. unfold pyproject, setup. cbn. destruct (normalize_src_package_name n); reflexivity. Qed.
Theorem C299_license_refuted : forall a text, pyproject a = Ok text ->
  simple (project_name a) -> simple (version a) -> simple (description a) -> simple (required_python a) -> simple (author a) -> license a <> [] ->
  loads text <> Ok (says a (license a)).
Proof. intros a text P H1 H2 H3 H4 H5 L E. rewrite (C299_answers_partial a text P H1 H2 H3 H4 H5) in E. injection E as E. apply L. symmetry. exact E. Qed.
Print Assumptions C299_answers_partial.
Print Assumptions C299_license_ignored.
Print Assumptions C299_license_refuted.
(** an answer with quotes makes a project that cannot be read; one with a backslash is read as another text *)
Theorem C299_quote_refuted : exists a text, description a = lit "the ""best"" tool" /\ pyproject a = Ok text /\ loads text = Err ValueError.
Proof. exists (Answers (lit "tool") (lit "0.1.0") (lit "the ""best"" tool") true (lit "3.10") (lit "me") (lit "MIT License")). eexists. split; [reflexivity|]. split; [reflexivity|]. vm_compute. reflexivity. Qed.
Theorem C299_backslash_refuted : exists a text s, description a = lit "for C:\new" /\ pyproject a = Ok text
  /\ loads text = Ok (says (Answers (project_name a) (version a) s (markdown a) (required_python a) (author a) []) []) /\ s <> description a.
Proof.
  exists (Answers (lit "tool") (lit "0.1.0") (lit "for C:\new") true (lit "3.10") (lit "me") (lit "MIT License")). eexists. exists (lit "for C:" ++ [nl] ++ lit "ew").
  split; [reflexivity|]. split; [reflexivity|]. split; [vm_compute; reflexivity|discriminate].
Qed.
(** the python of the project: every release of the chosen version will do, and no release of another major version *)
Theorem C299_python : forall as_uri a b, exists spec, parse_specifier as_uri (lit "~=" ++ show_N a ++ lit "." ++ show_N b) = Ok spec
  /\ (forall c, allows spec (VStd (final [a; b; c])) = true) /\ (forall c d, allows spec (VStd (final [(a + 1)%N; c; d])) = false).
Proof.
  intros as_uri a b. exists (Range (Some (final [a; b])) (Some (final [(a + 1)%N; 0%N])) true false).
  assert (CO : clause_ok (Compat, final [a; b])) by (repeat split; cbn; try discriminate; try lia).
  split; [|split].
  - replace (lit "~=" ++ show_N a ++ lit "." ++ show_N b) with (spec_str (Range (Some (final [a; b])) (Some (final [(a + 1)%N; 0%N])) true false)).
    + apply print_parse. cbn [printable]. split; [|split; [|split]].
      * apply (compat_range (final [a; b]) [] a b); [apply CO|reflexivity].
      * intros m E. injection E as <-. apply CO.
      * intros m E. injection E as <-. split; cbn; try discriminate; try lia; repeat split.
      * intros m n E E' _ _ p x y R R'. injection E as <-. injection E' as <-. cbn in R, R'. unfold final. f_equal. exact R'.
    + cbn [spec_str]. unfold range_str, compat_release. cbn [final release rev app andb negb]. rewrite (proj2 (list_eqb_N [(a + 1)%N; 0%N] [(a + 1)%N; 0%N]) eq_refl).
      f_equal. unfold sv_str. cbn. rewrite ?app_nil_r, <- ?app_assoc. reflexivity.
  - intro c. cbn [allows]. unfold range_allows. destruct (version_eqb (VStd (final [a; b])) (VStd (final [a; b; c]))) eqn:Q; [reflexivity|].
    assert (U : version_ltb (VStd (final [a; b; c])) (VStd (final [(a + 1)%N; 0%N])) = true). { cbn [version_ltb]. apply sv_ltb_release; [reflexivity|]. exists 0. split; [cbn; lia|]. intros j J. lia. }
    assert (L : version_ltb (VStd (final [a; b])) (VStd (final [a; b; c])) = true).
    { cbn [version_ltb]. apply sv_ltb_release; [reflexivity|]. exists 2. split; [|intros [|[|j]] J; [reflexivity|reflexivity|lia]]. cbn. destruct c; [|lia]. exfalso. cbn [version_eqb] in Q.
      assert (X : sv_eqb (final [a; b]) (final [a; b; 0%N]) = true); [|congruence]. apply sv_eqb_spec. split; [|reflexivity]. split; [reflexivity|]. split; [|repeat split]. intros [|[|[|[|i]]]]; reflexivity. }
    unfold final in *. cbn. cbn in L, U. rewrite ?L, ?U. cbn. rewrite ?orb_true_r. reflexivity.
  - intros c d. cbn [allows]. unfold range_allows.
    assert (L : version_ltb (VStd (final [a; b])) (VStd (final [(a + 1)%N; c; d])) = true). { cbn [version_ltb]. apply sv_ltb_release; [reflexivity|]. exists 0. split; [cbn; lia|]. intros j J. lia. }
    assert (Q : version_eqb (VStd (final [a; b])) (VStd (final [(a + 1)%N; c; d])) = false). { cbn [version_eqb version_ltb] in *. destruct (sv_eqb (final [a; b]) (final [(a + 1)%N; c; d])) eqn:E; [|reflexivity]. rewrite (sv_eq_not_lt _ _ E) in L. discriminate. }
    assert (U : version_ltb (VStd (final [(a + 1)%N; c; d])) (VStd (final [(a + 1)%N; 0%N])) = false).
    { cbn [version_ltb]. destruct (N.eq_dec c 0) as [->|C]; [destruct (N.eq_dec d 0) as [->|D]|].
      - apply sv_eq_not_lt, sv_eqb_spec. split; [|reflexivity]. split; [reflexivity|]. split; [|repeat split]. intros [|[|[|[|i]]]]; reflexivity.
      - apply sv_ltb_asym, sv_ltb_release; [reflexivity|]. exists 2. split; [cbn; lia|]. intros [|[|j]] J; [reflexivity|reflexivity|lia].
      - apply sv_ltb_asym, sv_ltb_release; [reflexivity|]. exists 1. split; [cbn; lia|]. intros [|j] J; [reflexivity|lia]. }
    unfold final in *. rewrite Q, L, U. reflexivity.
Qed.
Print Assumptions C299_python.

(** the attached environment of a project that is made for it *)
Theorem C299_environment_partial : forall path, simple path -> path <> [] ->
  loads (environments path) = Ok (TTab [(lit "attached-env", TTab [(lit "path", TStr path)])]).
Proof.
  intros path H NE. apply simple_fine in H.
  set (S8 := lit "path = " ++ dquote :: path ++ [dquote]).
  assert (E : environments path = lit "[attached-env]" ++ nl :: S8) by reflexivity. rewrite E.
  assert (RA : read_assignments (read_value (S (length S8))) false S8 = Ok (TTab [(lit "path", TStr path)], [])).
  { unfold read_assignments. replace (assign_loop (read_value (S (length S8))) false (S (length S8)) (TTab []) S8) with (Ok (TTab [(lit "path", TStr path)], ([] : str))); [reflexivity|]. symmetry. apply path_line; assumption. }
  assert (RT : read_table (lit "[attached-env]" ++ nl :: S8) = do (data, s) <- read_assignments (read_value (S (length S8))) false S8; Ok ([KName (lit "attached-env")], data, s)) by reflexivity.
  rewrite RA in RT. cbn [bind] in RT.
  unfold loads. change (skip true (lit "[attached-env]" ++ nl :: S8)) with (Ok (lit "[attached-env]" ++ nl :: S8)). cbn [bind].
  change (read_assignments (read_value (S (length (lit "[attached-env]" ++ nl :: S8)))) false (lit "[attached-env]" ++ nl :: S8)) with (Ok (TTab [], lit "[attached-env]" ++ nl :: S8)).
  cbn [bind].
  assert (TL : forall fuel, tables_loop (S fuel) (TTab []) (lit "[attached-env]" ++ nl :: S8) = do (key, v, s) <- read_table (lit "[attached-env]" ++ nl :: S8);
    do data <- enter_data (TTab []) key v; tables_loop fuel data s) by reflexivity.
  rewrite TL, RT. cbn [bind]. reflexivity.
Qed.
Print Assumptions C299_environment_partial.
(** the path of an environment under Windows may be lost: the file names another path *)
Theorem C299_windows_refuted :
  loads (environments (lit "C:\work\new")) = Ok (TTab [(lit "attached-env", TTab [(lit "path", TStr (lit "C:\work" ++ [nl] ++ lit "ew"))])]).
Proof. vm_compute. reflexivity. Qed.

Definition sample : answers := Answers (lit "my tool") (lit "0.1.0") (lit "it's a tool [of mine] # really") false (lit "3.10") (lit "A. Person") (lit "MIT License").
Lemma plainly : forall s, forallb (fun c => negb (existsb (Ascii.eqb c) [""""%char; "092"%char; "010"%char; "013"%char; "000"%char])) s = true -> simple s.
Proof.
  intros s H c C I. rewrite forallb_forall in H. specialize (H c I). apply negb_true_iff in H.
  assert (X : existsb (Ascii.eqb c) [""""%char; "092"%char; "010"%char; "013"%char; "000"%char] = true) by (apply existsb_exists; exists c; split; [exact C|apply Ascii.eqb_refl]). congruence.
Qed.
Example C299_example : exists text, pyproject sample = Ok text /\
  (simple (project_name sample) /\ simple (version sample) /\ simple (description sample) /\ simple (required_python sample) /\ simple (author sample) /\ license sample <> [])
  /\ loads text = Ok (says sample []) /\ simple (lit "/home/me/my env") /\ loads (environments (lit "/home/me/my env")) = Ok (TTab [(lit "attached-env", TTab [(lit "path", TStr (lit "/home/me/my env"))])]).
Proof.
  eexists. split; [reflexivity|]. split; [|split; [vm_compute; reflexivity|split; [apply plainly; reflexivity|vm_compute; reflexivity]]].
  repeat split; try (apply plainly; reflexivity). discriminate.
Qed.
Example C299_python_example : exists s, parse_specifier (fun u => u) (lit "~=3.10") = Ok s /\ allows s (VStd (final [3; 10; 4]%N)) = true /\ allows s (VStd (final [3; 12; 0]%N)) = true /\ allows s (VStd (final [4; 0; 0]%N)) = false /\ allows s (VStd (final [3; 9; 9]%N)) = false.
Proof. eexists. split; [vm_compute; reflexivity|]. vm_compute. repeat split. Qed.
