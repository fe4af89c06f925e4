(** C38: any string, key or nested table written by the TOML writer is read back identically by the TOML reader.
    C71: reading a TOML text comes to an end.
    C72: reading a TOML text evaluates nothing but literals. *)
From Coq Require Import String Ascii List Bool NArith ZArith Arith Lia.
From Verif Require Import Base BaseFacts ParserModel ParserFacts MarkerModel TomlModel TomlProofs TomlDocProofs TomlEndProofs.
Import ListNotations.
Open Scope string_scope.
Open Scope nat_scope.
Open Scope list_scope.
Open Scope bool_scope.

(** a string without NUL that does not end with a backslash is read back, whatever comes behind it but a quote *)
Theorem C38_string_partial : forall s rest, ~ In "000"%char s -> (forall r, s <> r ++ [backslash]) -> hd_error rest <> Some dquote ->
  read_string (write_str s ++ rest) = Ok (s, rest).
Proof.
  intros s rest Z B H. apply read_string_write; [now split|]. unfold head_not. destruct rest as [|c r]; [reflexivity|]. cbn in *.
  destruct (Ascii.eqb dquote c) eqn:E; [apply Ascii.eqb_eq in E; congruence|reflexivity].
Qed.
Definition nasty : str := [dquote; backslash; nl; "#"%char; "9"%char; "'"%char; "."%char].
Example C38_string_example : ~ In "000"%char nasty /\ (forall r, nasty <> r ++ [backslash]) /\ hd_error (lit ", 1]") <> Some dquote
  /\ length (write_str nasty) = 12.
Proof.
  repeat split; try reflexivity; try discriminate.
  - intros H. repeat (destruct H as [H|H]; [discriminate|]). destruct H.
  - intros r E. apply (f_equal (@rev ascii)) in E. rewrite rev_app_distr in E. discriminate.
Qed.
(** a string that ends with a backslash is not *)
Theorem C38_backslash_refuted : exists s, ~ In "000"%char s /\ (forall v, loads (dumps [(lit "a", TStr s)]) <> Ok v)
  /\ (forall v, loads (dumps [(s, TBool true)]) <> Ok v).
Proof.
  exists [backslash]. split; [intros [H|[]]; discriminate|]. split; intros v; vm_compute; discriminate.
Qed.

(** nested inline values without empty tables are read back up to the character behind them *)
Theorem C38_value_partial : forall v fuel c rest, inline_ok v -> depth v < fuel -> In c [","%char; "]"%char; "}"%char; nl] ->
  read_value fuel (inline v ++ c :: rest) = Ok (v, c :: rest).
Proof.
  intros v fuel c rest OK D Hc. assert (S : stops c = true) by (destruct Hc as [<-|[<-|[<-|[<-|[]]]]]; reflexivity).
  rewrite inline_body. apply (read_inline v OK fuel D (c :: rest) S).
Qed.
Definition deep : tv := TTab [(lit "a b", TList [TInt (-12); TTab [(lit "x", TStr nasty)]; TList []]); ([], TBool false)].
Lemma str_ok_last : forall s c, c <> backslash -> ~ In "000"%char (s ++ [c]) -> str_ok (s ++ [c]).
Proof. intros s c N Z. split; [|exact Z]. intros r E. apply app_inj_tail in E as [_ E]. congruence. Qed.
Lemma str_ok_nil : str_ok [].
Proof. split; [intros r E; now destruct r|intros []]. Qed.
Lemma nasty_ok : str_ok nasty.
Proof. change nasty with (removelast nasty ++ ["."%char]). apply str_ok_last; [discriminate|]. intros H. cbn in H. repeat (destruct H as [H|H]; [discriminate|]). destruct H. Qed.
Ltac str_ok_tac := match goal with |- str_ok ?s => let r := eval vm_compute in (removelast s) in let c := eval vm_compute in (last s "000"%char) in
  change s with (r ++ [c]); apply str_ok_last; [discriminate|]; let H := fresh in intros H; cbn in H; repeat (destruct H as [H|H]; [discriminate|]); destruct H end.
Lemma deep_ok : inline_ok deep.
Proof.
  apply ok_tab; [discriminate| |].
  - constructor; [intros [H|[]]; discriminate|]. constructor; [intros []|constructor].
  - constructor; [|constructor; [|constructor]]; split.
    + cbn [fst]. str_ok_tac.
    + apply ok_list. constructor; [constructor|]. constructor; [|constructor; [apply ok_list; constructor|constructor]].
      apply ok_tab; [discriminate|constructor; [intros []|constructor]|]. constructor; [|constructor]. split; [cbn [fst]; str_ok_tac|]. constructor. apply nasty_ok.
    + apply str_ok_nil.
    + constructor.
Qed.
Example C38_value_example : inline_ok deep /\ depth deep < 4 /\ In nl [","%char; "]"%char; "}"%char; nl]
  /\ string_of_list_ascii (inline deep) = " {""a b"" = [-12, {x = ""\""\\\n#9'.""}, []], """" = false}".
Proof. split; [exact deep_ok|]. split; [vm_compute; lia|]. split; [now do 3 right; left|]. vm_compute. reflexivity. Qed.

(** a document - tables, tables in tables, arrays of tables, inline values - without empty tables (but the root) and with such
    strings and keys is read back as the same data, unless it ends with a number *)
Theorem C38_document_partial : forall d, NoDup (map fst d) -> Forall (fun e => str_ok (fst e) /\ inline_ok (snd e)) d ->
  (forall text c, dumps d = text ++ [c] -> is_digit c = false) ->
  exists d2, loads (dumps d) = Ok d2 /\ same (TTab d) d2.
Proof.
  intros d ND F L. destruct (document_read d ND F) as (d2 & S & E). exists d2. split; [|exact S]. rewrite E.
  assert (X : ends_in_digit (dumps d) = false); [|now rewrite X]. unfold ends_in_digit. destruct (rev (dumps d)) as [|c r] eqn:R; [reflexivity|].
  apply (L (rev r) c). rewrite <- (rev_involutive (dumps d)), R. reflexivity.
Qed.
Definition doc : list (str * tv) :=
  [(lit "tool", TTab [(lit "pkm", TTab [(lit "repos", TList [TTab [(lit "n", TInt 1); (lit "opts", TTab [(lit "a.b", TTab [(lit "c", TList [TBool true])])])]; deep])])]);
   (lit "name", TStr nasty); (lit "t", TTab [(lit "v", TStr (lit "x"))])].
Lemma doc_ok : NoDup (map fst doc) /\ Forall (fun e => str_ok (fst e) /\ inline_ok (snd e)) doc.
Proof.
  split.
  - constructor; [intros [H|[H|[]]]; discriminate|]. constructor; [intros [H|[]]; discriminate|]. constructor; [intros []|constructor].
  - constructor; [|constructor; [|constructor; [|constructor]]]; split; try (cbn [fst]; str_ok_tac).
    + apply ok_tab; [discriminate|constructor; [intros []|constructor]|]. constructor; [|constructor]. split; [cbn [fst]; str_ok_tac|].
      apply ok_tab; [discriminate|constructor; [intros []|constructor]|]. constructor; [|constructor]. split; [cbn [fst]; str_ok_tac|].
      apply ok_list. constructor; [|constructor; [exact deep_ok|constructor]].
      apply ok_tab; [discriminate|constructor; [intros [H|[]]; discriminate|constructor; [intros []|constructor]]|]. constructor; [split; [cbn [fst]; str_ok_tac|constructor]|].
      constructor; [|constructor]. split; [cbn [fst]; str_ok_tac|]. apply ok_tab; [discriminate|constructor; [intros []|constructor]|]. constructor; [|constructor].
      split; [cbn [fst]; str_ok_tac|]. apply ok_tab; [discriminate|constructor; [intros []|constructor]|]. constructor; [|constructor]. split; [cbn [fst]; str_ok_tac|].
      apply ok_list. constructor; constructor.
    + constructor. apply nasty_ok.
    + apply ok_tab; [discriminate|constructor; [intros []|constructor]|]. constructor; [|constructor]. split; [cbn [fst]; str_ok_tac|]. constructor. cbn [snd]. str_ok_tac.
Qed.
Example C38_document_example : NoDup (map fst doc) /\ Forall (fun e => str_ok (fst e) /\ inline_ok (snd e)) doc
  /\ (forall text c, dumps doc = text ++ [c] -> is_digit c = false)
  /\ string_of_list_ascii (dumps doc) = "name = ""\""\\\n#9'.""

[[tool.pkm.repos]]
n = 1

[tool.pkm.repos.opts.""a.b""]
c = [true]

[[tool.pkm.repos]]
""a b"" = [-12, {x = ""\""\\\n#9'.""}, []]
"""" = false

[t]
v = ""x""".
Proof.
  destruct doc_ok as [A B]. split; [exact A|]. split; [exact B|]. split; [|vm_compute; reflexivity].
  intros text c E. apply (f_equal (@rev ascii)) in E. rewrite rev_app_distr in E. cbn [rev app] in E. assert (H : hd_error (rev (dumps doc)) = Some c) by (rewrite E; reflexivity).
  vm_compute in H. injection H as <-. reflexivity.
Qed.
(** a document that ends with a number is never read back *)
Theorem C38_number_at_end_refuted : (exists d text c, dumps d = text ++ [c] /\ is_digit c = true) /\
  forall d text c, NoDup (map fst d) -> Forall (fun e => str_ok (fst e) /\ inline_ok (snd e)) d -> dumps d = text ++ [c] -> is_digit c = true ->
  loads (dumps d) = Err TypeError.
Proof.
  split; [exists [(lit "a", TInt 1)], (lit "a = "), "1"%char; split; reflexivity|].
  intros d text c ND F E D. destruct (document_read d ND F) as (d2 & _ & R). rewrite R. rewrite E, ends_app, D. reflexivity.
Qed.
(** an empty table is lost, and an empty table in an array with other values cannot be read *)
Theorem C38_empty_table_refuted : (loads (dumps [(lit "a", TTab []); (lit "b", TBool true)]) = Ok (TTab [(lit "b", TBool true)]))
  /\ (forall v, loads (dumps [(lit "a", TList [TBool true; TTab []])]) <> Ok v).
Proof. split; [vm_compute; reflexivity|]. intros v. vm_compute. discriminate. Qed.

(** a text that ends with a line end is read, or there is an error: no loop runs out of fuel *)
Theorem C71_line_end_partial : forall text, loads (text ++ [nl]) <> Err RecursionErr.
Proof. intros text. apply loads_ends. right. now exists text. Qed.
Example C71_line_end_example : loads (lit "a = 1 # x" ++ [nl]) = Ok (TTab [(lit "a", TInt 1)]) /\ loads (lit "# x" ++ [nl]) = Ok (TTab []) /\ loads (lit "a = 'b" ++ [nl]) = Err ValueError.
Proof. vm_compute. repeat split. Qed.
(** a text that ends with a comment is never read: however often the loop over blanks and comments goes round, it is not done *)
Theorem C71_comment_at_end_refuted : (exists text, loads text = Err RecursionErr /\ forall fuel, non_data fuel true text = Err RecursionErr) /\
  forall fuel lines comment, ~ In nl comment -> non_data fuel lines ("#"%char :: comment) = Err RecursionErr.
Proof.
  assert (G : forall fuel lines comment, ~ In nl comment -> non_data fuel lines ("#"%char :: comment) = Err RecursionErr).
  { intros fuel lines comment N. assert (W : (if lines then ws ("#"%char :: comment) else line_ws ("#"%char :: comment)) = "#"%char :: comment) by (destruct lines; reflexivity).
    assert (C : cut nl ("#"%char :: comment) = None).
    { cbn [cut]. change (Ascii.eqb "#" nl) with false. cbv iota. assert (H : cut nl comment = None); [|now rewrite H]. clear W. induction comment as [|c r IH]; [reflexivity|].
      cbn [cut]. destruct (Ascii.eqb c nl) eqn:E; [apply Ascii.eqb_eq in E; subst c; exfalso; apply N; now left|]. rewrite IH; [reflexivity|]. intros X. apply N. now right. }
    induction fuel as [|fuel IH]; cbn [non_data]; rewrite W; change (Ascii.eqb "#" "#") with true; cbv iota; [reflexivity|]. now rewrite C. }
  split; [|exact G]. exists (lit "# done"). split; [vm_compute; reflexivity|]. intros fuel. apply G. intros H. repeat (destruct H as [H|H]; [discriminate|]). destruct H.
Qed.

(** what is evaluated for a string without two backslashes in a row is a string literal *)
Theorem C72_literal_partial : forall text t, evaluated text = Some t -> (forall a b, t <> a ++ [backslash; backslash] ++ b) -> string_literal t.
Proof. exact evaluated_literal. Qed.
Example C72_literal_example : exists text t, evaluated text = Some t /\ (forall a b, t <> a ++ [backslash; backslash] ++ b) /\ length t = 6.
Proof.
  exists (dquote :: "a"%char :: backslash :: dquote :: "b"%char :: dquote :: lit " # x"), (dquote :: "a"%char :: backslash :: dquote :: "b"%char :: [dquote]).
  split; [reflexivity|]. split; [|reflexivity]. intros a b E. repeat (destruct a as [|? a]; [discriminate|injection E as _ E]). destruct a; discriminate.
Qed.
(** in general, it is not: the text of a configuration file may contain a call, which is run *)
Theorem C72_call_refuted : exists text t, evaluated text = Some t /\ ~ string_literal t
  /\ string_of_list_ascii text = """\\"" + f() #"" # rest" /\ string_of_list_ascii t = """\\"" + f() #""".
Proof.
  exists (dquote :: backslash :: backslash :: dquote :: lit " + f() #" ++ dquote :: lit " # rest"), (dquote :: backslash :: backslash :: dquote :: lit " + f() #" ++ [dquote]).
  split; [vm_compute; reflexivity|]. split; [|split; vm_compute; reflexivity].
  intros (inside & E & L). injection E as E. assert (E2 : inside = [] ++ [backslash; backslash; dquote] ++ lit " + f() #").
  { change ([backslash; backslash; dquote] ++ lit " + f() #" ++ [dquote] = inside ++ [dquote]) in E. rewrite app_assoc in E. apply app_inj_tail in E as [E _]. symmetry. exact E. }
  exact (literal_quote inside L [] _ E2 inside_nil).
Qed.
