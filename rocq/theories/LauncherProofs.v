(** Facts about the executables made for scripts. *)
From Coq Require Import String Ascii List Bool NArith Arith Lia.
From Verif Require Import Base BaseFacts ParserModel ParserFacts MarkerProofs LauncherModel.
Import ListNotations.
Open Scope string_scope.
Open Scope nat_scope.
Open Scope list_scope.
Open Scope bool_scope.

Lemma lower_never_upper : forall c, is_upper (lower_char c) = false.
Proof. intros [[] [] [] [] [] [] [] []]; reflexivity. Qed.
Lemma never_windows : forall system machine bits, has_windows_os (platform_of system machine bits) = false.
Proof.
  intros. unfold has_windows_os, platform_of. cbn [p_os]. destruct (str_eqb (lower system) (lit "Windows")) eqn:E; [|reflexivity].
  apply str_eqb_eq in E. destruct system as [|c r]; [discriminate|]. unfold lower in E. cbn [map] in E.
  injection E as E _. pose proof (lower_never_upper c) as H. rewrite E in H. discriminate.
Qed.
Lemma under_inj : forall d a b, under d a = under d b -> a = b.
Proof. unfold under. intros d a b H. apply app_inv_head in H. apply app_inv_head in H. exact H. Qed.
Lemma longer_name : forall n e : str, e <> [] -> n <> n ++ e.
Proof. intros n e He H. apply (f_equal (@length ascii)) in H. rewrite app_length in H. destruct e; [congruence|cbn in H; lia]. Qed.

Lemma firstn_past : forall (A : Type) (a b : list A) n, length a <= n -> firstn n (a ++ b) = a ++ firstn (n - length a) b.
Proof. intros. rewrite firstn_app, firstn_all2 by lia. reflexivity. Qed.

(** the text after "#!" that is seen *)
Lemma seen_after : forall buf i s, 2 <= buf ->
  firstn buf (posix_script i s ++ repeat nul buf) = "#"%char :: "!"%char :: firstn (buf - 2) (i ++ [lf] ++ s ++ repeat nul buf).
Proof.
  intros buf i s H. destruct buf as [|[|b]]; [lia|lia|]. unfold posix_script. change (lit "#!") with ["#"%char; "!"%char].
  rewrite <- !app_assoc. cbn [app firstn]. replace (Datatypes.S (Datatypes.S b) - 2) with b by lia. reflexivity.
Qed.
Definition plain_char (c : ascii) : Prop := c <> " "%char /\ c <> "009"%char /\ c <> nul /\ c <> lf.
Lemma plain_ends : forall c, plain_char c -> ends_word c = false.
Proof.
  intros c (A & B & C & _). unfold ends_word, blank. apply Ascii.eqb_neq in A, B, C. rewrite A, B, C. reflexivity.
Qed.
Lemma plain_blank : forall c, plain_char c -> blank c = false.
Proof. intros c H. apply plain_ends in H. unfold ends_word in H. apply orb_false_iff in H. apply H. Qed.
Lemma word_char : forall c, negb (ends_word c) = true -> c <> " "%char /\ c <> "009"%char /\ c <> nul.
Proof.
  intros c H. apply negb_true_iff in H. unfold ends_word, blank in H. apply orb_false_iff in H. destruct H as [H C]. apply orb_false_iff in H.
  destruct H as [A B]. apply Ascii.eqb_neq in A, B, C. auto.
Qed.
Lemma no_blank_head : forall s r, s <> [] -> (forall c, In c s -> plain_char c) -> span blank (s ++ r) = ([], s ++ r).
Proof.
  intros [|c s] r Hn H; [congruence|]. cbn [app span]. rewrite plain_blank; [reflexivity|]. apply H. left. reflexivity.
Qed.
Lemma words : forall s, (forall c, In c s -> plain_char c) -> forallb (fun c => negb (ends_word c)) s = true.
Proof. intros s H. apply forallb_forall. intros c Hc. rewrite plain_ends; [reflexivity|auto]. Qed.
Lemma lines : forall s, (forall c, In c s -> c <> lf) -> forallb (fun c => negb (Ascii.eqb c lf)) s = true.
Proof. intros s H. apply forallb_forall. intros c Hc. apply negb_true_iff, Ascii.eqb_neq. auto. Qed.

(** a line that fits: the first word is started *)
Lemma started_line : forall buf a b s, a <> [] -> (forall c, In c a -> plain_char c) -> (forall c, In c b -> c <> lf) -> head_not (fun c => negb (ends_word c)) b ->
  length a + length b + 3 <= buf ->
  started buf (posix_script (a ++ b) s) = Some (a, fst (span (fun c => negb (Ascii.eqb c nul)) (snd (span blank b)))).
Proof.
  intros buf a b s Ha Hp Hb Hh Hl. unfold started. rewrite seen_after by lia.
  replace (firstn (buf - 2) ((a ++ b) ++ [lf] ++ s ++ repeat nul buf)) with ((a ++ b) ++ lf :: firstn (buf - 2 - length (a ++ b) - 1) (s ++ repeat nul buf)).
  2: { symmetry. rewrite (firstn_past _ (a ++ b)) by (rewrite app_length; lia). f_equal. rewrite app_length. destruct (buf - 2 - (length a + length b)) as [|k] eqn:E; [lia|].
       cbn [app firstn]. f_equal. f_equal. lia. }
  rewrite (span_app (fun c => negb (Ascii.eqb c lf)) (a ++ b)); [| |reflexivity].
  2: { apply lines. intros c Hc. apply in_app_or in Hc. destruct Hc as [Hc|Hc]; [apply Hp, Hc|apply Hb, Hc]. }
  rewrite no_blank_head by assumption. cbn [snd]. rewrite span_app; [|apply words; assumption|assumption].
  destruct a as [|x a]; [congruence|]. reflexivity.
Qed.

(** what is started is a word of the part that is seen *)
Lemma started_word : forall buf i s n a, started buf (posix_script i s) = Some (n, a) ->
  n <> [] /\ (forall c, In c n -> plain_char c) /\ length n + 3 <= buf.
Proof.
  intros buf i s n a H. destruct (le_lt_dec 2 buf) as [Hb|Hb].
  2: { unfold started in H. exfalso. destruct buf as [|[|b]]; [| |lia]; cbn in H; discriminate. }
  unfold started in H. rewrite seen_after in H by assumption. set (r := firstn (buf - 2) _) in H.
  assert (Hr : length r <= buf - 2) by (unfold r; apply firstn_le_length). clearbody r.
  destruct (span (fun c => negb (Ascii.eqb c lf)) r) as [line after] eqn:E1.
  destruct (span blank line) as [bl w] eqn:E2. cbn [snd] in H.
  destruct (span (fun c => negb (ends_word c)) w) as [name rest] eqn:E3.
  apply span_split in E1. destruct E1 as (E1 & F1 & _). apply span_split in E2. destruct E2 as (E2 & _ & _).
  apply span_split in E3. destruct E3 as (E3 & F3 & _).
  assert (Hall : name = n /\ n <> [] /\ (after <> [] \/ rest <> [])).
  { destruct name as [|x y]; [discriminate|]. destruct after as [|x1 y1]; [destruct rest as [|x2 y2]; [discriminate|]|];
      injection H as <- _; (split; [reflexivity|split; [discriminate|]]); [right|left]; discriminate. }
  destruct Hall as (-> & Hn & Hor). subst. repeat split; [exact Hn| | | | |].
  1-4: rewrite forallb_forall in F3, F1; try (apply word_char, F3; assumption).
  - assert (Hin : In c (bl ++ n ++ rest)) by (apply in_or_app; right; apply in_or_app; left; assumption).
    apply F1 in Hin. apply negb_true_iff, Ascii.eqb_neq in Hin. exact Hin.
  - rewrite !app_length in Hr. assert (1 <= length after + length rest); [|lia].
    destruct Hor as [Hor|Hor]; [destruct after|destruct rest]; try congruence; cbn; lia.
Qed.

Lemma first_line_of : forall a r, (forall c, In c a -> c <> lf) -> first_line (a ++ lf :: r) = (a ++ [lf], r).
Proof.
  intros a r H. unfold first_line. rewrite span_app; [reflexivity|apply lines; assumption|reflexivity].
Qed.
