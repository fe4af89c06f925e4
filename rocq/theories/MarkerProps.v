(** C42: environment markers. *)
From Coq Require Import String Ascii List Bool NArith Arith Lia.
From Verif Require Import Base BaseFacts VersionModel VersionSpec VersionParse SpecifierModel SpecifierSpec SpecParse SpecParseSpec MarkerModel MarkerSpec MarkerProofs MarkerAtoms.
Import ListNotations.
Open Scope string_scope.
Open Scope nat_scope.
Open Scope list_scope.
Open Scope bool_scope.

(** every text of the grammar is read, and what it evaluates to is the meaning of the expression: [and] before [or], both to the
    left, parentheses first. Missing: texts with the letter J, the operator [===], and what the comparisons mean in all cases *)
Theorem C42_precedence_partial : forall e t w w', or_text e t -> no_J t -> blank w -> blank w' ->
  exists m, parse_marker (w ++ t ++ w') = Ok m /\ marker_str m = w ++ t ++ w' /\
    forall u env extras, evaluate_on u m env extras = sem (eval_atom u env extras) e.
Proof.
  intros e t w w' T J B B'. destruct (parse_grammar e t w w' [] T J B B' eq_refl) as (m & E & S & M). rewrite app_nil_r in E.
  exists m. split; [|split; [exact S|]].
  - unfold parse_marker. now rewrite E.
  - intros u env extras. apply M.
Qed.
Print Assumptions C42_precedence_partial.
(** the marker of a requirement ends at the semicolon or the parenthesis that follows *)
Theorem C42_inside : forall e t w w' r, or_text e t -> no_J t -> blank w -> blank w' -> at_end r = true ->
  exists m, read_marker (w ++ t ++ w' ++ r) = Ok (m, r) /\ marker_str m = w ++ t ++ w' /\ forall atom, eval atom (m_exec m) = sem atom e.
Proof. exact parse_grammar. Qed.
Print Assumptions C42_inside.
(** printing a marker and reading the text gives the same marker, whatever it was read from *)
Theorem C42_print_parse : forall s m r, read_marker s = Ok (m, r) -> read_marker (marker_str m) = Ok (m, []).
Proof. exact print_parse. Qed.
Print Assumptions C42_print_parse.
(** reading ends, with a marker or one of two errors *)
Theorem C42_errors : forall s, (exists m, parse_marker s = Ok m) \/ parse_marker s = Err ValueError \/ parse_marker s = Err TypeError.
Proof.
  intros s. pose proof (parse_plain s) as P. destruct (parse_marker s) as [m|e]; [left; now exists m|]. right. destruct P as [-> | ->]; auto.
Qed.
Print Assumptions C42_errors.
(** an extra is compared with the requested ones *)
Theorem C42_extra : forall u env extras x,
  (eval_atom u env extras VExtra (OCmp "==") (VText x) = Ok true <-> In x extras) /\
  (eval_atom u env extras (VText x) (OCmp "==") VExtra = Ok true <-> In x extras) /\
  (exists r, eval_atom u env extras VExtra (OCmp "==") (VText x) = Ok r).
Proof.
  intros u env extras x.
  assert (H : forall l, str_mem x l = true <-> In x l).
  { intros l. unfold str_mem. rewrite existsb_exists. split.
    - intros (y & I & E). apply str_eqb_eq in E. now subst.
    - intros I. exists x. split; [exact I|apply str_eqb_refl]. }
  cbn [eval_atom get_val bind eval_op]. change (str_eqb "==" "==") with true. cbn [orb]. rewrite <- H.
  repeat split; try (intros E; injection E as E; exact E); try congruence. now exists (str_mem x extras).
Qed.
Print Assumptions C42_extra.
(** a marker of the environment that is a version is compared as a version *)
Theorem C42_version_atom : forall u env extras n o v w, clause_ok (o, v) -> wf_sv w -> candidate w -> dict_get n env = Some (sv_str w) ->
  exists r, eval_atom u env extras (VVar n) (OCmp (cop_text o)) (VText (sv_str v ++ (if starred o then lit ".*" else []))) = Ok r /\
    (r = true <-> clause_holds (o, v) w).
Proof.
  intros u env extras n o v w O W C E. unfold eval_atom, get_val. rewrite E. cbn [bind eval_op val_str].
  destruct (version_atom u o v w O W C) as (r & Er & H). exists r. split; [|exact H].
  destruct (_ || _); exact Er.
Qed.
Print Assumptions C42_version_atom.
(** a text that does not look like a version is compared as a text *)
Theorem C42_text_atom : forall u env extras n a b, dict_get n env = Some a -> word b ->
  (eval_atom u env extras (VVar n) (OCmp "==") (VText b) = Ok true <-> a = b) /\
  (eval_atom u env extras (VVar n) (OCmp "!=") (VText b) = Ok true <-> a <> b) /\
  (exists r r', eval_atom u env extras (VVar n) (OCmp "==") (VText b) = Ok r /\ eval_atom u env extras (VVar n) (OCmp "!=") (VText b) = Ok r').
Proof.
  intros u env extras n a b E W. unfold eval_atom, get_val. rewrite E. cbn [bind eval_op val_str].
  change (str_eqb "==" "==") with true. change (str_eqb "!=" "==") with false. change (str_eqb "!=" "===") with false. cbn [orb].
  rewrite !text_atom; [|cbn [In]; tauto|exact W|cbn [In]; tauto|exact W].
  change (text_compare "==" a b) with (@Ok bool (str_eqb a b)). change (text_compare "!=" a b) with (@Ok bool (negb (str_eqb a b))).
  split; [|split].
  - rewrite <- str_eqb_eq. split; [intros H; injection H as H; exact H|congruence].
  - rewrite <- str_eqb_eq. destruct (str_eqb a b); cbn [negb]; split; try congruence; intros H; try discriminate H; try (exfalso; now apply H); auto.
  - eauto.
Qed.
Print Assumptions C42_text_atom.
(** ... also by its order, letter by letter *)
Inductive text_lt : str -> str -> Prop :=
| lt_prefix : forall c r, text_lt [] (c :: r)
| lt_head : forall x y a b, (code x < code y)%N -> text_lt (x :: a) (y :: b)
| lt_tail : forall x a b, text_lt a b -> text_lt (x :: a) (x :: b).
Lemma text_lt_iff : forall a b, str_ltb a b = true <-> text_lt a b.
Proof.
  induction a as [|x a IH]; intros [|y b]; cbn [str_ltb]; split; intro H; try discriminate; try (inversion H; fail); [constructor|reflexivity| |].
  - destruct (Ascii.eqb x y) eqn:E; [apply Ascii.eqb_eq in E; subst y; constructor; apply IH; exact H|]. apply lt_head, N.ltb_lt, H.
  - inversion H as [|? ? ? ? L|? ? ? L]; subst.
    + destruct (Ascii.eqb x y) eqn:E; [apply Ascii.eqb_eq in E; subst y; exfalso; exact (N.lt_irrefl _ L)|]. apply N.ltb_lt, L.
    + rewrite Ascii.eqb_refl. apply IH, L.
Qed.
Theorem C42_text_order : forall u env extras n a b, dict_get n env = Some a -> word b ->
  (eval_atom u env extras (VVar n) (OCmp "<") (VText b) = Ok true <-> text_lt a b) /\
  (eval_atom u env extras (VVar n) (OCmp "<=") (VText b) = Ok true <-> text_lt a b \/ a = b) /\
  (eval_atom u env extras (VVar n) (OCmp ">") (VText b) = Ok true <-> text_lt b a) /\
  (eval_atom u env extras (VVar n) (OCmp ">=") (VText b) = Ok true <-> text_lt b a \/ a = b).
Proof.
  intros u env extras n a b E W. unfold eval_atom, get_val. rewrite E. cbn [bind eval_op val_str].
  change (str_eqb "<" "==") with false. change (str_eqb "<" "===") with false. change (str_eqb "<=" "==") with false. change (str_eqb "<=" "===") with false. change (str_eqb ">" "==") with false. change (str_eqb ">" "===") with false. change (str_eqb ">=" "==") with false. change (str_eqb ">=" "===") with false. cbn [orb].
  rewrite !text_atom; try exact W; try (cbn [In]; tauto).
  change (text_compare "<" a b) with (@Ok bool (str_ltb a b)). change (text_compare "<=" a b) with (@Ok bool (negb (str_ltb b a))). change (text_compare ">" a b) with (@Ok bool (str_ltb b a)). change (text_compare ">=" a b) with (@Ok bool (negb (str_ltb a b))).
  assert (G : forall x y, @Ok bool (negb (str_ltb y x)) = Ok true <-> text_lt x y \/ x = y).
  { intros x y. rewrite <- text_lt_iff. destruct (str_ltb y x) eqn:L; cbn [negb]; split; intro H; try discriminate; try reflexivity.
    - destruct H as [H | ->]; [rewrite (str_ltb_asym _ _ H) in L|rewrite str_ltb_irrefl in L]; discriminate.
    - destruct (str_ltb x y) eqn:M; [left; reflexivity|right]. apply str_ltb_total; assumption. }
  split; [|split; [apply G|split]].
  - rewrite <- text_lt_iff. split; [intro H; injection H as H; exact H|congruence].
  - rewrite <- text_lt_iff. split; [intro H; injection H as H; exact H|congruence].
  - rewrite G. split; intros [H|H]; auto.
Qed.
Example C42_text_order_sample : word (lit "posix") /\ eval_atom (fun s => s) [(lit "os_name", lit "nt")] [] (VVar (lit "os_name")) (OCmp "<") (VText (lit "posix")) = Ok true.
Proof. split; [|vm_compute; reflexivity]. exists "p"%char, (lit "osix"). split; [reflexivity|]. split; [unfold letter; cbn; right; split; discriminate|]. intros [H|H]; discriminate. Qed.
Print Assumptions C42_text_order.
(** the operators [in] and [not in] look for a part of the text *)
Lemma contains_iff : forall a b, contains a b = true <-> exists l r, b = l ++ a ++ r.
Proof.
  intros a b. revert a. induction b as [|c b IH]; intro a; cbn [contains]; rewrite orb_true_iff, starts_with_iff.
  - split; [intros [(r & H)|H]; [exists [], r; exact H|discriminate]|]. intros (l & r & H). left. destruct l; [exists r; exact H|discriminate].
  - rewrite IH. split.
    + intros [(r & H)|(l & r & ->)]; [exists [], r; exact H|exists (c :: l), r; reflexivity].
    + intros ([|x l] & r & H); [left; exists r; exact H|right]. injection H as _ ->. exists l, r. reflexivity.
Qed.
Theorem C42_in_atom : forall u env extras n a b, dict_get n env = Some a ->
  (eval_atom u env extras (VVar n) OIn (VText b) = Ok true <-> exists l r, b = l ++ a ++ r) /\
  (eval_atom u env extras (VVar n) ONotIn (VText b) = Ok true <-> ~ exists l r, b = l ++ a ++ r) /\
  (eval_atom u env extras (VText b) OIn (VVar n) = Ok true <-> exists l r, a = l ++ b ++ r) /\
  (eval_atom u env extras (VText b) ONotIn (VVar n) = Ok true <-> ~ exists l r, a = l ++ b ++ r).
Proof.
  intros u env extras n a b E. unfold eval_atom, get_val. rewrite E. cbn [bind eval_op val_str]. rewrite <- !contains_iff.
  assert (G : forall x : bool, @Ok bool x = Ok true <-> x = true) by (intro x; split; [intro H; injection H as H; exact H|congruence]). rewrite !G.
  rewrite !negb_true_iff, <- !not_true_iff_false. tauto.
Qed.
Example C42_in_atom_sample : eval_atom (fun s => s) [(lit "sys_platform", lit "linux")] [] (VVar (lit "sys_platform")) OIn (VText (lit "linux darwin")) = Ok true /\ eval_atom (fun s => s) [(lit "sys_platform", lit "linux")] [] (VVar (lit "sys_platform")) ONotIn (VText (lit "darwin")) = Ok true.
Proof. split; vm_compute; reflexivity. Qed.
Print Assumptions C42_in_atom.

(** the letter J is not accepted in a text *)
Theorem C42_letter_refuted : exists e t, or_text e t /\ parse_marker t = Err ValueError.
Proof.
  exists (EAtom (VVar (lit "platform_python_implementation")) (OCmp (lit "==")) (VText (lit "Jython"))),
         (lit "platform_python_implementation" ++ lit " " ++ lit "==" ++ lit " " ++ lit "'Jython'").
  split; [|reflexivity]. apply T_ands, T_base, T_atom.
  - apply T_var; [unfold letter; cbn; right; split; discriminate| |discriminate].
    intros x I. cbn in I. unfold letter, digit.
    repeat (destruct I as [<-|I]; [first [right; right; left; reflexivity|left; cbn; right; split; discriminate]|]). contradiction.
  - intros c [<-|[]]. now left.
  - apply T_cmp. cbn [In]. tauto.
  - intros c [<-|[]]. now left.
  - apply (T_text squote (lit "Jython")); [now left|]. intros c I. left. right. right. left. unfold letter.
    cbn in I. repeat (destruct I as [<-|I]; [first [left; cbn; split; discriminate|right; cbn; split; discriminate]|]). contradiction.
  - exact Logic.I.
Qed.
Print Assumptions C42_letter_refuted.
(** the operator for arbitrary equality is read as [==] and an error *)
Theorem C42_arbitrary_refuted : exists t, t = lit "os_name === 'posix'" /\ parse_marker t = Err ValueError.
Proof. eexists. split; reflexivity. Qed.
Print Assumptions C42_arbitrary_refuted.
(** [in extra] looks for a part of the printed list *)
Theorem C42_in_extra_refuted : exists u env extras x,
  eval_atom u env extras (VText x) OIn VExtra = Ok true /\ ~ In x extras.
Proof.
  exists (fun s => s), [], [lit "foobar"], (lit "foo"). split; [reflexivity|]. intros [H|[]]. discriminate.
Qed.
Print Assumptions C42_in_extra_refuted.
(** texts that begin like versions are equal when the beginnings are: the text of a kernel version, for example *)
Theorem C42_text_equality_refuted : exists u env n a b, dict_get n env = Some a /\ a <> b /\
  eval_atom u env [] (VVar n) (OCmp "==") (VText b) = Ok true.
Proof.
  exists (fun s => s), [(lit "platform_version", lit "5.4 generic")], (lit "platform_version"), (lit "5.4 generic"), (lit "5.4 lowlatency").
  split; [reflexivity|]. split; [discriminate|]. vm_compute. reflexivity.
Qed.
Print Assumptions C42_text_equality_refuted.

(** the hypotheses can be met: an expression with all three levels *)
Definition sample_env : list (str * str) := [(lit "os_name", lit "posix"); (lit "python_version", lit "3.10")].
Definition sample_text : str := lit "os_name == 'nt' or os_name == ""posix"" and (python_version >= '3.8' or extra == 'x')".
Example C42_sample :
  (exists m, parse_marker sample_text = Ok m /\ evaluate_on (fun s => s) m sample_env [] = Ok true /\
     evaluate_on (fun s => s) m [(lit "os_name", lit "posix"); (lit "python_version", lit "2.7")] [] = Ok false /\
     evaluate_on (fun s => s) m [(lit "os_name", lit "posix"); (lit "python_version", lit "2.7")] [lit "x"] = Ok true) /\
  word (lit "linux") /\ clause_ok (Ge, SV [3%N; 8%N] None None None None None) /\
  (let a := EAtom (VVar (lit "a")) (OCmp (lit "<")) (VText (lit "1")) in
   exists e, or_text e (((lit "a" ++ [] ++ lit "<" ++ [] ++ lit "'1'") ++ lit " " ++ lit "or" ++ lit " " ++ lit "(" ++ [] ++ (lit "a" ++ [] ++ lit "<" ++ [] ++ lit "'1'") ++ [] ++ lit ")")) /\ e = EOr a a).
Proof.
  split; [|split; [|split]].
  - eexists. split; [vm_compute; reflexivity|]. split; [|split]; vm_compute; reflexivity.
  - exists "l"%char, (lit "inux"). split; [reflexivity|]. split; [right; cbn; split; discriminate|]. intros [H|H]; discriminate H.
  - split; [|split; [|split]].
    + split; [discriminate|]. intros; discriminate.
    + repeat split; try discriminate.
    + discriminate.
    + discriminate.
  - intros a. exists (EOr a a). split; [|reflexivity].
    assert (B : forall c, In c (@nil ascii) -> c = " "%char \/ c = "009"%char) by (intros c []).
    assert (B1 : blank (lit " ")) by (intros c [<-|[]]; now left).
    assert (A : base_text a (lit "a" ++ [] ++ lit "<" ++ [] ++ lit "'1'")).
    { apply T_atom; try exact B; try exact Logic.I.
      - apply (T_var "a"%char []); [right; cbn; split; discriminate|intros x []|discriminate].
      - apply T_cmp. cbn [In]. tauto.
      - apply (T_text squote (lit "1")); [now left|]. intros c [<-|[]]. left. right. right. right. left. cbn. split; discriminate. }
    apply T_or; try exact B1; try discriminate; [now apply T_ands, T_base|]. apply T_base, T_paren; try exact B. now apply T_ands, T_base.
Qed.
