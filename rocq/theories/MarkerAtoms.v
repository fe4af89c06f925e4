(** Lemmas about the comparisons in environment markers (MarkerModel). *)
From Coq Require Import String Ascii List Bool NArith Arith Lia.
From Verif Require Import Base BaseFacts ParserModel ParserFacts VersionModel VersionSpec VersionParserModel VersionParserProofs VersionParse VersionParseProofs
  SpecifierModel SpecifierSpec SpecParse SpecParseSpec SpecParseProofs MarkerModel MarkerSpec MarkerProofs.
Import ListNotations.
Open Scope string_scope.
Open Scope nat_scope.
Open Scope list_scope.
Open Scope bool_scope.

(** a text that is not the text of a version: a letter, and no digit after a leading v *)
Definition word (b : str) : Prop :=
  exists c t, b = c :: t /\ letter c /\ (c = "v"%char \/ c = "V"%char -> forall d t', t = d :: t' -> ~ digit d).

Lemma digit_lower : forall c, is_digit (lower_char c) = is_digit c.
Proof. intros c. by_char c. Qed.
Lemma digit_of : forall c, is_digit c = true -> digit c.
Proof. intros c H. unfold is_digit, in_range in H. apply andb_prop in H. destruct H as [H1 H2]. apply N.leb_le in H1, H2. split; assumption. Qed.
Lemma lower_letter : forall c, is_alpha c = true ->
  is_space (lower_char c) = false /\ Ascii.eqb "(" (lower_char c) = false /\ Ascii.eqb "'" (lower_char c) = false /\
  Ascii.eqb """" (lower_char c) = false /\ is_digit (lower_char c) = false /\ Ascii.eqb "=" (lower_char c) = false.
Proof. intros c. by_char c; intros _; repeat split. Qed.
Lemma lower_v : forall c, Ascii.eqb "v" (lower_char c) = true -> c = "v"%char \/ c = "V"%char.
Proof. intros c. by_char c; intros _; auto. Qed.
Lemma digits_fail : forall s, head_not is_digit (rest s) -> read_digits s = Err ValueError.
Proof. intros [b r] H. unfold read_digits. rewrite take_while_none by exact H. reflexivity. Qed.
Lemma word_version : forall b p, word b -> read_version (PS p (lower b)) = Err ValueError.
Proof.
  intros b p (c & t & -> & Lc & Lv). apply letter_alpha in Lc.
  destruct (lower_letter _ Lc) as (S1 & S2 & S3 & S4 & S5 & S6). cbn [lower map]. unfold read_version.
  rewrite match_ws_nospace by exact S1. unfold pmatch_ws.
  rewrite (pmatch_fail "(") by (cbn [rest starts_with lit list_ascii_of_string]; now rewrite S2).
  rewrite (pmatch_fail "'") by (cbn [rest starts_with lit list_ascii_of_string]; now rewrite S3).
  rewrite (pmatch_fail """") by (cbn [rest starts_with lit list_ascii_of_string]; now rewrite S4).
  unfold read_epoch_release.
  destruct (Ascii.eqb "v" (lower_char c)) eqn:Ev.
  - pose proof (lower_v _ Ev) as Cv. apply Ascii.eqb_eq in Ev. rewrite <- Ev.
    change ("v"%char :: map lower_char t) with (lit "v" ++ map lower_char t). unfold skip. rewrite pmatch_app.
    rewrite digits_fail; [reflexivity|]. cbn [rest]. destruct t as [|d t]; [reflexivity|]. unfold head_not. cbn [map hd_error opt_test].
    rewrite digit_lower. destruct (is_digit d) eqn:Ed; [|reflexivity]. exfalso. exact (Lv Cv d t eq_refl (digit_of _ Ed)).
  - rewrite skip_fail by (cbn [rest starts_with lit list_ascii_of_string]; now rewrite Ev).
    rewrite digits_fail; [reflexivity|]. exact S5.
Qed.
Lemma word_ws : forall b p, word b -> match_ws true (PS p (" "%char :: lower b)) = PS (" "%char :: p) (lower b).
Proof.
  intros b p (c & t & -> & Lc & _). apply letter_alpha in Lc. destruct (lower_letter _ Lc) as (S1 & _). cbn [lower map]. now apply ws_space.
Qed.
Lemma word_specifier : forall u op b, In op [lit "<="; lit "<"; lit ">="; lit ">"; lit "!="; lit "=="; lit "~="] -> word b ->
  parse_specifier u (op ++ lit " " ++ b) = Err ValueError.
Proof.
  intros u op b I W. unfold parse_specifier, pinit. rewrite !lower_app. change (lower (lit " ")) with (lit " ").
  assert (Lo : lower op = op) by (repeat (destruct I as [<-|I]; [reflexivity|]); contradiction). rewrite Lo.
  set (t := op ++ lit " " ++ lower b).
  assert (H : exists d l, t = d :: l /\ is_space d = false /\ Ascii.eqb "("%char d = false).
  { unfold t. repeat (destruct I as [<-|I]; [eexists _, _; repeat split|]); contradiction. }
  rewrite spec_loop by exact H. destruct H as (d & l & E & Sd & Pd).
  assert (R : read_single u (PS [] t) = Err ValueError).
  { unfold read_single. rewrite E, match_ws_nospace by exact Sd. rewrite <- E. unfold t. clear E Sd Pd.
    change (lit " " ++ lower b) with (" "%char :: lower b). generalize (fun q => word_ws b q W). generalize (fun q => word_version b q W).
    generalize (lower b) as y. intros y V0 V1.
    assert (V : forall q, read_version (match_ws true (PS q (" "%char :: y))) = Err ValueError) by (intros q; rewrite V1; apply V0). clear V0 V1.
    destruct I as [<-|[<-|[<-|[<-|[<-|[<-|[<-|[]]]]]]]];
      match goal with |- context [PS [] ?t] =>
        change (pmatch "*" (PS [] t)) with (@None pstate); change (pmatch "@" (PS [] t)) with (@None pstate); cbv iota;
        change (pmatch "===" (PS [] t)) with (@None pstate); cbv iota
      end.
    all: try match goal with |- context [match_any [lit "=="; lit "!="] (PS [] (?o ++ ?x))] =>
           change (match_any [lit "=="; lit "!="] (PS [] (o ++ x))) with (Some (o, PS (rev o ++ []) x)) end; cbv iota; try (rewrite V; reflexivity).
    all: match goal with |- context [match_any [lit "=="; lit "!="] ?z] => change (match_any [lit "=="; lit "!="] z) with (@None (str * pstate)) end; cbv iota.
    5: { rewrite pmatch_app, V. reflexivity. }
    all: match goal with |- context [pmatch (lit "~=") ?z] => change (pmatch (lit "~=") z) with (@None pstate) end; cbv iota.
    all: match goal with |- context [match_any ?l (PS [] (?o ++ ?x))] =>
           change (match_any l (PS [] (o ++ x))) with (Some (o, PS (rev o ++ []) x)) end; cbv iota; rewrite V; reflexivity. }
  cbn [read_loop]. assert (NE : not_empty (PS [] t) = true) by (rewrite E; reflexivity). rewrite NE. cbn [negb]. rewrite R. reflexivity.
Qed.
Theorem text_atom : forall u op a b, In op [lit "<="; lit "<"; lit ">="; lit ">"; lit "!="; lit "=="] -> word b ->
  compare_vals u op a b = text_compare op a b.
Proof.
  intros u op a b I W. unfold compare_vals. destruct (parse_version_total a) as (v & ->). cbn [bind].
  rewrite word_specifier; [|cbn [In] in *; tauto|exact W]. cbn [bind].
  repeat (destruct I as [<-|I]; [reflexivity|]). contradiction.
Qed.
Theorem version_atom : forall u o v w, clause_ok (o, v) -> wf_sv w -> candidate w ->
  exists r, compare_vals u (cop_text o) (sv_str w) (sv_str v ++ (if starred o then lit ".*" else [])) = Ok r /\
            (r = true <-> clause_holds (o, v) w).
Proof.
  intros u o v w O W C. unfold compare_vals.
  assert (P : parse_version (sv_str w) = Ok (VStd w)).
  { destruct C as [P _]. apply parse_sv_str; [exact W|now apply plain_label_wf|now apply lower_sv]. }
  rewrite P. cbn [bind]. destruct (parse_gap u o v (lit " ") (or_intror eq_refl) O) as (s & E & G). rewrite E. cbn [bind].
  exists (allows s (VStd w)). split; [reflexivity|]. apply G. exact C.
Qed.
