(** Properties of reports (C302, C303). *)
From Coq Require Import String Ascii List Bool NArith Arith Lia.
From Verif Require Import Base BaseFacts ReportModel.
Import ListNotations.
Open Scope string_scope. Open Scope nat_scope. Open Scope list_scope. Open Scope bool_scope.

(** ** C302: a paragraph is broken at spaces and nothing is lost *)
Definition words_fit (text : str) : Prop := forall a w b, text = a ++ w ++ b -> ~ In " "%char w -> length w <= 78.
Lemma last_space_some : forall n s i, last_space n s = Some i -> i < n /\ exists a b, s = a ++ " "%char :: b /\ length a = i.
Proof.
  induction n as [|n IH]; intros [|c s] i H; try discriminate H. cbn [last_space] in H. destruct (last_space n s) as [j|] eqn:E.
  - injection H as <-. destruct (IH s j E) as (L & a & b & -> & <-). split; [lia|]. exists (c :: a), b. split; reflexivity.
  - destruct (Ascii.eqb_spec c " ") as [->|]; [|discriminate H]. injection H as <-. split; [lia|]. exists [], s. split; reflexivity.
Qed.
Lemma last_space_none : forall n s, last_space n s = None -> ~ In " "%char (firstn n s).
Proof.
  induction n as [|n IH]; intros [|c s] H I; try exact I. cbn [last_space] in H. destruct (last_space n s) as [j|] eqn:E; [discriminate H|].
  destruct (Ascii.eqb_spec c " ") as [->|N]; [discriminate H|]. cbn [firstn] in I. destruct I as [->|I]; [apply N; reflexivity|]. exact (IH s E I).
Qed.
Lemma last_space_zero : forall n s, last_space (S n) s = Some 0 -> exists b, s = " "%char :: b /\ ~ In " "%char (firstn n b).
Proof.
  intros n [|c s] H; [discriminate H|]. cbn [last_space] in H. destruct (last_space n s) as [j|] eqn:E; [discriminate H|].
  destruct (Ascii.eqb_spec c " ") as [->|]; [|discriminate H]. exists s. split; [reflexivity|]. apply last_space_none. exact E.
Qed.
Lemma words_tail : forall a b, words_fit (a ++ b) -> words_fit b.
Proof. intros a b H x w y E N. apply (H (a ++ x) w y); [rewrite E, app_assoc; reflexivity|exact N]. Qed.
Lemma words_first : forall s n, words_fit s -> ~ In " "%char (firstn n s) -> length (firstn n s) <= 78.
Proof. intros s n H N. apply (H [] (firstn n s) (skipn n s)); [cbn [app]; symmetry; apply firstn_skipn|exact N]. Qed.
Lemma wrapped : forall fuel text, length text < fuel -> words_fit text -> exists lines, paragraph fuel text = Ok lines /\ (text <> [] -> lines <> []) /\ join (lit " ") lines = text /\ Forall (fun l => length l <= 80) lines.
Proof.
  induction fuel as [|fuel IH]; intros text L W; [lia|]. cbn [paragraph]. destruct (80 <? length text) eqn:B.
  - apply Nat.ltb_lt in B. destruct (last_space 80 text) as [i|] eqn:E.
    + destruct (last_space_some _ _ _ E) as (I & a & b & T & A). destruct i as [|i].
      * exfalso. destruct (last_space_zero 79 text E) as (b' & T' & N). clear T A. subst text. assert (F := words_first b' 79 (words_tail [" "%char] b' W) N). rewrite firstn_length in F. cbn [length] in B. lia.
      * change (S i =? 0) with false. cbv iota.
        assert (S1 : skipn (S i + 1) text = b). { rewrite T, <- A. replace (length a + 1) with (length (a ++ [" "%char])) by (rewrite app_length; reflexivity). replace (a ++ " "%char :: b) with ((a ++ [" "%char]) ++ b) by (rewrite <- app_assoc; reflexivity). rewrite skipn_app, skipn_all, Nat.sub_diag. reflexivity. }
        assert (F1 : firstn (S i) text = a). { rewrite T, <- A, firstn_app, firstn_all, Nat.sub_diag. cbn [firstn]. apply app_nil_r. }
        rewrite S1, F1. destruct (IH b) as (lines & P & NE & J & F).
        { rewrite T, app_length in L. cbn [length] in L. lia. }
        { apply (words_tail (a ++ [" "%char])). rewrite <- app_assoc. cbn [app]. rewrite <- T. exact W. }
        rewrite P. cbn [bind]. exists (a :: lines). split; [reflexivity|]. split; [discriminate|]. split.
        { destruct lines as [|l lines]; [exfalso; apply NE; [|reflexivity]; intros ->; rewrite T, app_length in B; cbn [length] in B; lia|]. rewrite T, <- J. reflexivity. }
        { constructor; [lia|exact F]. }
    + exfalso. assert (F := words_first text 80 W (last_space_none _ _ E)). rewrite firstn_length in F. lia.
  - apply Nat.ltb_ge in B. exists (match text with [] => [] | _ => [text] end). split; [reflexivity|]. destruct text as [|c text]; [split; [auto|split; [reflexivity|constructor]]|]. split; [discriminate|]. split; [reflexivity|]. constructor; [exact B|constructor].
Qed.
Theorem C302_paragraph_partial : forall text, words_fit text -> exists lines, (forall fuel, length text < fuel -> paragraph fuel text = Ok lines) /\ join (lit " ") lines = text /\ Forall (fun l => length l <= 80) lines.
Proof.
  intros text W. destruct (wrapped (S (length text)) text) as (lines & P & _ & J & F); [lia|exact W|]. exists lines. split; [|split; assumption].
  assert (M : forall f t l, paragraph f t = Ok l -> forall g, f <= g -> paragraph g t = Ok l).
  { induction f as [|f IHf]; intros t l H g G; [discriminate H|]. destruct g as [|g]; [lia|]. cbn [paragraph] in *. destruct (80 <? length t); [|exact H]. destruct (last_space 80 t) as [i|]; [|exact H].
    destruct (paragraph f (skipn (i + (if i =? 0 then 0 else 1)) t)) as [m|e] eqn:R; [|discriminate H]. rewrite (IHf _ _ R g); [exact H|lia]. }
  intros fuel L. apply (M _ _ _ P). lia.
Qed.
Print Assumptions C302_paragraph_partial.
(** a long word fails, and after a space it makes the loop run forever *)
Lemma no_space : forall n w, ~ In " "%char w -> last_space n w = None.
Proof. induction n as [|n IH]; intros [|c w] N; try reflexivity. cbn [last_space]. rewrite IH by (intro I; apply N; right; exact I). destruct (Ascii.eqb_spec c " ") as [->|]; [elim N; left; reflexivity|reflexivity]. Qed.
Lemma last_space_prefix : forall n w b, n <= length w -> ~ In " "%char w -> last_space n (w ++ b) = None.
Proof. induction n as [|n IH]; intros [|c w] b L N; cbn [length] in L; try lia; try (destruct b; reflexivity); try reflexivity. cbn [app last_space]. rewrite IH; [|lia|intro I; apply N; right; exact I]. destruct (Ascii.eqb_spec c " ") as [->|]; [elim N; left; reflexivity|reflexivity]. Qed.
Theorem C302_long_word_refuted : forall w b fuel, 80 < length w -> ~ In " "%char w -> paragraph (S fuel) (w ++ b) = Err ValueError.
Proof.
  intros w b fuel L N. cbn [paragraph]. assert (B : 80 <? length (w ++ b) = true) by (apply Nat.ltb_lt; rewrite app_length; lia). rewrite B, last_space_prefix; [reflexivity|lia|exact N].
Qed.
Print Assumptions C302_long_word_refuted.
Theorem C302_endless_refuted : forall w b fuel, 80 <= length w -> ~ In " "%char w -> paragraph fuel (" "%char :: w ++ b) = Err RecursionErr.
Proof.
  intros w b fuel L N. induction fuel as [|fuel IH]; [reflexivity|]. set (t := " "%char :: w ++ b) in *. cbn [paragraph].
  assert (B : 80 <? length t = true) by (apply Nat.ltb_lt; unfold t; cbn [length]; rewrite app_length; lia). rewrite B.
  assert (U : forall n c s, last_space (S n) (c :: s) = match last_space n s with Some i => Some (S i) | None => if Ascii.eqb c " " then Some 0 else None end) by reflexivity.
  assert (E : last_space 80 t = Some 0) by (unfold t; rewrite (U 79), (last_space_prefix 79 w b); [reflexivity|lia|exact N]).
  rewrite E. change (skipn (0 + (if 0 =? 0 then 0 else 1)) t) with t. rewrite IH. reflexivity.
Qed.
Print Assumptions C302_endless_refuted.
Example C302_example : let text := concat (repeat (lit "ten words, ") 9) ++ lit "and no more" in words_fit text /\ (exists a b, paragraph 9 text = Ok [a; b] /\ length a = 76) /\
  paragraph 5 (repeat "x"%char 81) = Err ValueError /\ paragraph 99 (lit " " ++ repeat "x"%char 80) = Err RecursionErr.
Proof.
  split; [|split; [do 2 eexists; split; vm_compute; reflexivity|split; vm_compute; reflexivity]].
  intros a w b E N. apply Nat.nlt_ge. intro L.
  assert (X : forall n s, (forall k, k + n <= length s -> existsb (Ascii.eqb " ") (firstn n (skipn k s)) = true) -> forall a w b, s = a ++ w ++ b -> n <= length w -> In " "%char w).
  { intros n s H a0 w0 b0 E0 L0. specialize (H (length a0)). rewrite E0, skipn_app, skipn_all, Nat.sub_diag in H. cbn [skipn app] in H. rewrite firstn_app in H. replace (n - length w0) with 0 in H by lia. cbn [firstn] in H. rewrite app_nil_r in H.
    assert (Y : existsb (Ascii.eqb " ") (firstn n w0) = true) by (apply H; rewrite !app_length; lia). apply existsb_exists in Y. destruct Y as (c & I & C). apply Ascii.eqb_eq in C. subst c.
    rewrite <- (firstn_skipn n w0). apply in_or_app. left. exact I. }
  apply N. refine (X 9 _ _ a w b E _); [|lia]. intros k K.
  assert (A : forallb (fun k => existsb (Ascii.eqb " ") (firstn 9 (skipn k (concat (repeat (lit "ten words, ") 9) ++ lit "and no more")))) (seq 0 102) = true) by (vm_compute; reflexivity).
  rewrite forallb_forall in A. apply A. apply in_seq. change (k + 9 <= 110) in K. lia.
Qed.

(** ** C303: the items of a list are printed at its place, in order *)
Definition texts (l : list str) : list act := map Item l.
Lemma back3 : forall s : str, firstn (length (s ++ lit "   ") - 3) (s ++ lit "   ") = s.
Proof. intro s. rewrite app_length. change (length (lit "   ")) with 3. rewrite Nat.add_sub, firstn_app, firstn_all, Nat.sub_diag. apply app_nil_r. Qed.
Lemma back2 : forall s : str, firstn (length (s ++ lit "   ") - 2) (s ++ lit "   ") = s ++ lit " ".
Proof. intro s. rewrite app_length. change (length (lit "   ")) with 3. replace (length s + 3 - 2) with (length s + 1) by lia. rewrite firstn_app_2. reflexivity. Qed.
Lemma uitems_texts : forall prefix i l e out, uitems prefix (texts l) e (Report (i ++ lit "   ") out) =
  (Report (i ++ lit "   ") (out ++ map (fun t => i ++ lit " " ++ prefix ++ lit " " ++ t) l), match l with [] => e | _ => false end, false).
Proof.
  intros prefix i. induction l as [|t l IH]; intros e out; cbn [texts map uitems]; [rewrite app_nil_r; reflexivity|].
  unfold writeln. cbn [indentation printed]. change (0 <? 3) with true. cbv iota. rewrite back3. fold (texts l). rewrite IH, <- app_assoc. destruct l; reflexivity.
Qed.
Theorem C303_ulist : forall prefix empty r l, ulist prefix empty (texts l) r =
  (Report (indentation r) (printed r ++ match l, empty with
     | [], Some (c :: t) => [indentation r ++ lit " " ++ c :: t]
     | _, _ => map (fun t => indentation r ++ lit " " ++ prefix ++ lit " " ++ t) l end), false).
Proof.
  intros prefix empty [i out] l. unfold ulist, indent. cbn [indentation printed]. rewrite uitems_texts. cbv beta iota. destruct l as [|t l].
  - cbn [map]. rewrite app_nil_r. destruct empty as [[|c t]|]; cbn [printed]; rewrite ?app_nil_r; try reflexivity.
    unfold writeln. cbn [indentation printed]. change (0 <? 2) with true. cbv iota. rewrite back2, <- app_assoc. reflexivity.
  - destruct empty as [[|c' t']|]; reflexivity.
Qed.
Print Assumptions C303_ulist.
Fixpoint numbered (i : str) (n : N) (l : list str) : list str := match l with [] => [] | t :: l => (i ++ lit " " ++ show_N n ++ lit ". " ++ t) :: numbered i (n + 1) l end.
Lemma oitems_texts : forall i l n out, oitems (texts l) n (Report (i ++ lit "   ") out) = (Report (i ++ lit "   ") (out ++ numbered i n l), (n + N.of_nat (length l))%N, false).
Proof.
  intros i. induction l as [|t l IH]; intros n out; cbn [texts map oitems numbered length]; [rewrite app_nil_r, N.add_0_r; reflexivity|].
  unfold writeln. cbn [indentation printed]. change (0 <? 3) with true. cbv iota. rewrite back3. fold (texts l). rewrite IH, <- app_assoc. replace (n + 1 + N.of_nat (length l))%N with (n + N.of_nat (S (length l)))%N by lia. reflexivity.
Qed.
Theorem C303_olist : forall empty r l, l <> [] -> exists lines, olist empty (texts l) r = (Report (indentation r) (printed r ++ lines), false) /\ length lines = length l /\
  forall k, k < length l -> nth k lines [] = indentation r ++ lit " " ++ show_N (N.of_nat (S k)) ++ lit ". " ++ nth k l [].
Proof.
  intros empty [i out] l NE. exists (numbered i 1 l). unfold olist, indent. cbn [indentation printed]. rewrite oitems_texts. cbv beta iota. split.
  - destruct (N.eqb_spec (1 + N.of_nat (length l)) 1) as [E|]; [destruct l; [elim NE; reflexivity|cbn [length] in E; lia]|reflexivity].
  - assert (G : forall l n, length (numbered i n l) = length l /\ forall k, k < length l -> nth k (numbered i n l) [] = i ++ lit " " ++ show_N (n + N.of_nat k) ++ lit ". " ++ nth k l []).
    { clear. induction l as [|t l IH]; intro n; [split; [reflexivity|cbn [length]; lia]|]. cbn [numbered length nth]. destruct (IH (n + 1)%N) as [IL IK]. split; [rewrite IL; reflexivity|].
      intros [|k] K; [rewrite N.add_0_r; reflexivity|]. rewrite IK by lia. replace (n + 1 + N.of_nat k)%N with (n + N.of_nat (S k))%N by lia. reflexivity. }
    destruct (G l 1%N) as [GL GK]. split; [exact GL|]. intros k K. rewrite GK by exact K. replace (1 + N.of_nat k)%N with (N.of_nat (S k)) by lia. reflexivity.
Qed.
Print Assumptions C303_olist.
(** lists within lists: whatever is printed in a list, the indentation is as before when it ends without an error *)
Theorem C303_indentation : forall prefix empty l r r', ulist prefix empty l r = (r', false) -> indentation r' = indentation r.
Proof. intros prefix empty l r r' H. unfold ulist, indent in H. destruct (uitems prefix l true _) as [[q e] b]. destruct b; [discriminate H|]. injection H as <-. reflexivity. Qed.
Theorem C303_indentation_numbers : forall empty l r r', olist empty l r = (r', false) -> indentation r' = indentation r.
Proof. intros empty l r r' H. unfold olist, indent in H. destruct (oitems l 1 _) as [[q e] b]. destruct b; [discriminate H|]. injection H as <-. reflexivity. Qed.
(** ... but after an error what follows stays indented *)
Theorem C303_error_refuted : exists l r r', ulist (lit "-") None l r = (r', true) /\ indentation r' <> indentation r.
Proof. exists [Also (fun r => (r, true))], (Report [] []). eexists. split; [reflexivity|discriminate]. Qed.
(** the versions that match: the first three, and how many there are more *)
Theorem C303_versions : forall l, exists shown rest, l = shown ++ rest /\ length shown <= 3 /\ (rest <> [] -> length shown = 3) /\
  versions_line l = lit "Matched Versions: " ++ join (lit ", ") shown ++ match rest with [] => [] | _ => lit " and " ++ show_N (N.of_nat (length rest)) ++ lit " more." end.
Proof.
  intro l. unfold versions_line. destruct (3 <? length l) eqn:B.
  - apply Nat.ltb_lt in B. exists (firstn 3 l), (skipn 3 l). split; [symmetry; apply firstn_skipn|]. rewrite firstn_length. split; [lia|]. split; [lia|]. rewrite skipn_length.
    destruct (skipn 3 l) eqn:E; [|reflexivity]. exfalso. apply (f_equal (@length _)) in E. rewrite skipn_length in E. cbn [length] in E. lia.
  - apply Nat.ltb_ge in B. exists l, []. rewrite app_nil_r. split; [reflexivity|]. split; [exact B|]. split; [intro N; elim N; reflexivity|]. rewrite app_nil_r. reflexivity.
Qed.
Print Assumptions C303_versions.
Example C303_example :
  ulist (lit "*") None [Item (lit "a"); Also (olist None (texts [lit "x"; lit "y"])); Item (lit "b")] (Report (lit ">") []) = (Report (lit ">") [lit "> * a"; lit ">    1. x"; lit ">    2. y"; lit "> * b"], false) /\
  ulist (lit "-") (Some (lit "nothing")) [] (Report [] []) = (Report [] [lit " nothing"], false) /\
  versions_line [lit "4"; lit "3"; lit "2"; lit "1"; lit "0"] = lit "Matched Versions: 4, 3, 2 and 2 more." /\ versions_line [lit "2"; lit "1"] = lit "Matched Versions: 2, 1".
Proof. vm_compute. repeat split. Qed.
