From Coq Require Import String Ascii List Bool NArith Arith Lia.
From Verif Require Import Base BaseFacts PthModel.
Import ListNotations.
Open Scope string_scope.
Open Scope nat_scope.
Open Scope list_scope.
Open Scope bool_scope.
Ltac by_char c := destruct c as [[|] [|] [|] [|] [|] [|] [|] [|]]; vm_compute; try reflexivity; try discriminate; try tauto.

(** no blank in front or at the end *)
Definition trimmed (s : str) : Prop := match s with [] => False | c :: _ => is_space c = false end /\ match rev s with [] => False | c :: _ => is_space c = false end.
Definition one_line (s : str) : Prop := ~ In LF s /\ ~ In CR s.
Definition good_import (s : str) : Prop := trimmed s /\ one_line s.
Definition good_part (s : str) : Prop := s <> [] /\ s <> lit "." /\ ~ In "/"%char s /\ one_line s.
(** an absolute path whose text does not end with a blank *)
Definition good_link (p : ppath) : Prop :=
  (pp_root p = lit "/" \/ pp_root p = lit "//") /\ Forall good_part (pp_parts p) /\ (pp_root p = lit "//" -> pp_parts p <> []) /\ trimmed (show_path p).

Lemma strip_trimmed : forall s, trimmed s -> strip_ws s = s.
Proof.
  intros s [A B]. unfold strip_ws. destruct s as [|c s]; [contradiction|]. cbn [lstrip_ws]. rewrite A. destruct (rev (c :: s)) as [|d r] eqn:E; [contradiction|]. cbn [lstrip_ws]. rewrite B, <- E. apply rev_involutive.
Qed.
Lemma newlines_app : forall a b, ~ In CR a -> newlines (a ++ LF :: b) = a ++ LF :: newlines b.
Proof.
  intros a b. induction a as [|c a IH]; intro H; cbn [newlines app].
  - reflexivity.
  - destruct (Ascii.eqb c CR) eqn:E; [apply Ascii.eqb_eq in E; exfalso; apply H; left; exact E|]. rewrite IH; [reflexivity|]. intro I. apply H. right. exact I.
Qed.
(** the lines of a file in which every line is closed *)
Lemma file_lines : forall ls, Forall one_line ls -> split_on LF (newlines (concat (map (fun l => l ++ [LF]) ls))) = ls ++ [[]].
Proof.
  intros ls. induction ls as [|l ls IH]; intro H; [reflexivity|]. inversion H as [|? ? [H1 H2] H3]; subst. cbn [map concat]. rewrite <- app_assoc. cbn [app]. rewrite newlines_app by exact H2. rewrite split_on_app by exact H1. rewrite IH by exact H3. reflexivity.
Qed.
Definition lines_of (cwd : ppath) (l : pth_link) : list str :=
  map (fun i => lit "import " ++ i) (match l_imports l with Some i => i | None => [] end) ++ map (fun p => show_path (absolute cwd p)) (l_links l).
Lemma save_lines : forall cwd l, save cwd l = concat (map (fun l => l ++ [LF]) (lines_of cwd l)).
Proof.
  intros cwd l. unfold save, lines_of. rewrite map_app, concat_app, !map_map. apply (f_equal2 (@app _)); [|reflexivity]. apply (f_equal (@concat _)). apply map_ext. intro i. rewrite <- app_assoc. reflexivity.
Qed.
Lemma load_import : forall acc i, good_import i -> load_line acc (lit "import " ++ i) = (fst acc ++ [i], snd acc).
Proof.
  intros acc i [T O]. assert (TL : trimmed (lit "import " ++ i)).
  { destruct T as [T1 T2]. split; [reflexivity|]. rewrite rev_app_distr. destruct (rev i) as [|c r]; [contradiction|]. exact T2. }
  unfold load_line. rewrite (strip_trimmed _ TL). transitivity (fst acc ++ [strip_ws i], snd acc); [reflexivity|rewrite (strip_trimmed i T); reflexivity].
Qed.
Lemma filter_parts : forall ps, Forall good_part ps -> filter part_ok ps = ps.
Proof.
  intros ps. induction ps as [|p ps IH]; intro H; [reflexivity|]. inversion H as [|? ? H1 H2]; subst. cbn [filter]. assert (X : part_ok p = true).
  { unfold part_ok. apply andb_true_iff. destruct H1 as (A & B & _). split; apply negb_true_iff; apply not_true_iff_false; intro E; apply str_eqb_eq in E; congruence. }
  rewrite X, IH by exact H2. reflexivity.
Qed.
Lemma split_parts : forall ps, Forall good_part ps -> filter part_ok (split_on "/" (join (lit "/") ps)) = ps.
Proof.
  intros ps H. destruct ps as [|p ps]; [reflexivity|]. change (lit "/") with ["/"%char]. rewrite split_join; [apply filter_parts; exact H|discriminate|]. intros w I. rewrite Forall_forall in H. exact (proj1 (proj2 (proj2 (H w I)))).
Qed.
Lemma join_head : forall ps, Forall good_part ps -> ps <> [] -> exists c r, join (lit "/") ps = c :: r /\ c <> "/"%char.
Proof.
  intros ps H NE. destruct ps as [|p ps]; [congruence|]. inversion H as [|? ? (A & _ & B & _) _]; subst. destruct p as [|c p]; [congruence|]. destruct ps; [exists c, p|exists c, (p ++ lit "/" ++ join (lit "/") (s :: ps))]; (split; [reflexivity|]); intros ->; apply B; left; reflexivity.
Qed.
Lemma show_rooted : forall p, pp_root p <> [] -> show_path p = pp_root p ++ join (lit "/") (pp_parts p).
Proof. intros [root parts] H. unfold show_path. cbn [pp_root pp_parts] in *. destruct root; [congruence|]. destruct parts; reflexivity. Qed.
Lemma show_parse : forall p, good_link p -> path_of (show_path p) = p.
Proof.
  intros p (R & G & D & _). rewrite show_rooted by (destruct R as [-> | ->]; discriminate). destruct p as [root parts]. cbn [pp_root pp_parts] in *. unfold path_of.
  destruct R as [-> | ->].
  - change (lit "/" ++ join (lit "/") parts) with ("/"%char :: join (lit "/") parts). set (j := join (lit "/") parts).
    change (split_on "/" ("/"%char :: j)) with ([] :: split_on "/" j). cbn [filter]. change (part_ok []) with false. cbn iota. assert (F : filter part_ok (split_on "/" j) = parts) by (unfold j; apply split_parts; exact G). rewrite F. f_equal.
    destruct parts as [|p ps]; [reflexivity|]. destruct (join_head (p :: ps) G ltac:(discriminate)) as (c & r & J & NC). unfold j. rewrite J. unfold lit, list_ascii_of_string. cbn [starts_with]. rewrite ?Ascii.eqb_refl. apply Ascii.eqb_neq in NC. pose proof NC as NC2. rewrite Ascii.eqb_sym in NC2. cbn [andb negb]. rewrite ?NC, ?NC2. reflexivity.
  - specialize (D eq_refl). destruct (join_head parts G D) as (c & r & J & NC).
    change (lit "//" ++ join (lit "/") parts) with ("/"%char :: "/"%char :: join (lit "/") parts). set (j := join (lit "/") parts) in *.
    change (split_on "/" ("/"%char :: "/"%char :: j)) with ([] :: [] :: split_on "/" j). cbn [filter]. change (part_ok []) with false. cbn iota. assert (F : filter part_ok (split_on "/" j) = parts) by (unfold j; apply split_parts; exact G). rewrite F. f_equal.
    rewrite J. unfold lit, list_ascii_of_string. cbn [starts_with]. rewrite ?Ascii.eqb_refl. apply Ascii.eqb_neq in NC. pose proof NC as NC2. rewrite Ascii.eqb_sym in NC2. cbn [andb negb]. rewrite ?NC, ?NC2. reflexivity.
Qed.
Lemma load_link : forall acc p, good_link p -> load_line acc (show_path p) = (fst acc, snd acc ++ [p]).
Proof.
  intros acc p G. unfold load_line. rewrite strip_trimmed by apply G. assert (H : exists r, show_path p = "/"%char :: r).
  { destruct G as (R & _). destruct p as [root parts]. cbn in R. destruct R as [-> | ->]; unfold show_path; cbn; destruct parts; eauto. }
  destruct H as (r & H). pose proof (show_parse p G) as S. rewrite H in *. cbn. rewrite S. reflexivity.
Qed.
Lemma loads_imports : forall is acc rest, Forall good_import is -> fold_left load_line (map (fun i => lit "import " ++ i) is ++ rest) acc = fold_left load_line rest (fst acc ++ is, snd acc).
Proof.
  intros is. induction is as [|i is IH]; intros acc rest H; [rewrite app_nil_r; destruct acc; reflexivity|]. inversion H; subst. cbn [map app fold_left]. rewrite load_import by assumption. rewrite IH by assumption. cbn [fst snd]. rewrite <- app_assoc. reflexivity.
Qed.
Lemma loads_links : forall ps acc rest, Forall good_link ps -> fold_left load_line (map show_path ps ++ rest) acc = fold_left load_line rest (fst acc, snd acc ++ ps).
Proof.
  intros is. induction is as [|i is IH]; intros acc rest H; [rewrite app_nil_r; destruct acc; reflexivity|]. inversion H; subst. cbn [map app fold_left]. rewrite load_link by assumption. rewrite IH by assumption. cbn [fst snd]. rewrite <- app_assoc. reflexivity.
Qed.
Lemma one_line_app : forall a b, one_line a -> one_line b -> one_line (a ++ b).
Proof. intros a b [A B] [C D]. split; intro I; apply in_app_iff in I; tauto. Qed.
Lemma one_line_join : forall ps, Forall good_part ps -> one_line (join (lit "/") ps).
Proof.
  intros ps. induction ps as [|p ps IH]; intro H; [split; intros []|]. inversion H as [|? ? (_ & _ & _ & A) B]; subst. destruct ps as [|q ps]; [exact A|]. change (join (lit "/") (p :: q :: ps)) with (p ++ lit "/" ++ join (lit "/") (q :: ps)).
  apply one_line_app; [exact A|]. apply one_line_app; [split; intros [E|[]]; discriminate|apply IH; exact B].
Qed.
Lemma round_trip : forall cwd imports links, Forall good_import (match imports with Some l => l | None => [] end) -> Forall good_link (map (absolute cwd) links) ->
  load (save cwd (Pth imports links)) = Pth (Some (match imports with Some l => l | None => [] end)) (map (absolute cwd) links).
Proof.
  intros cwd imports links HI HL. unfold load. rewrite save_lines, file_lines.
  - unfold lines_of. cbn [l_imports l_links]. rewrite <- app_assoc, loads_imports by exact HI. rewrite <- map_map with (f := absolute cwd) (g := show_path). rewrite loads_links by exact HL. reflexivity.
  - unfold lines_of. cbn [l_imports l_links]. apply Forall_app. split; apply Forall_map; apply Forall_forall; intros x I.
    + rewrite Forall_forall in HI. destruct (HI x I) as [_ O]. apply one_line_app; [split; intros X; cbn in X; intuition discriminate|exact O].
    + rewrite Forall_forall in HL. destruct (HL (absolute cwd x) (in_map _ _ _ I)) as (R & G & _). assert (E : show_path (absolute cwd x) = pp_root (absolute cwd x) ++ join (lit "/") (pp_parts (absolute cwd x))) by (unfold show_path; destruct R as [R|R]; rewrite R; destruct (pp_parts (absolute cwd x)); reflexivity).
      rewrite E. apply one_line_app; [|apply one_line_join; exact G]. destruct R as [-> | ->]; split; intros X; cbn in X; intuition discriminate.
Qed.
