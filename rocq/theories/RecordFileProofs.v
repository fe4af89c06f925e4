(** Facts about the files of dist-info directories. *)
From Coq Require Import String Ascii List Bool NArith Arith Lia.
From Verif Require Import Base BaseFacts ParserModel PthModel PthProofs ArtifactModel RecordFileModel.
Import ListNotations.
Open Scope string_scope.
Open Scope nat_scope.
Open Scope list_scope.
Open Scope bool_scope.

(** ** csv *)
Lemma started_any : forall m a b c rest, csv_records m a (c :: rest) = csv_records m b (c :: rest).
Proof. reflexivity. Qed.
Lemma started_app : forall m a b s c rest, csv_records m a (s ++ c :: rest) = csv_records m b (s ++ c :: rest).
Proof. intros m a b [|d s] c rest; reflexivity. Qed.
Lemma plain_char : forall c, needs_quotes c = false -> Ascii.eqb c "," = false /\ Ascii.eqb c quote = false /\ is_end c = false /\ (forall rest, ends_line c rest = false).
Proof.
  intros c H. unfold needs_quotes in H. apply orb_false_iff in H as [H E]. apply orb_false_iff in H as [A B]. repeat split; auto. unfold is_end in E. apply orb_false_iff in E as [E F]. intro rest. unfold ends_line. rewrite E, F. reflexivity.
Qed.
Lemma read_plain : forall s fs f b c rest, existsb needs_quotes s = false -> csv_records (Reader InField fs f) b (s ++ c :: rest) = csv_records (Reader InField fs (rev s ++ f)) b (c :: rest).
Proof.
  induction s as [|x s IH]; intros fs f b c rest H; [reflexivity|]. cbn [existsb] in H. apply orb_false_iff in H as [X H]. destruct (plain_char x X) as (A & B & E & L).
  cbn [app csv_records]. unfold step. cbn [r_state]. rewrite E, A. cbn [bind]. rewrite L. unfold add_char. cbn [r_fields r_field].
  rewrite (started_app _ true b). rewrite IH by exact H. cbn [rev]. rewrite <- app_assoc. reflexivity.
Qed.
Lemma step_char : forall m m' b c rest, step c m = Ok m' -> ends_line c rest = false -> csv_records m b (c :: rest) = csv_records m' true rest.
Proof. intros m m' b c rest H L. cbn [csv_records]. rewrite H. cbn [bind]. rewrite L. reflexivity. Qed.
Lemma quote_ends : forall rest, ends_line quote rest = false.
Proof. reflexivity. Qed.
Lemma step_quoted : forall x fs f b s c rest, Ascii.eqb x quote = false -> csv_records (Reader InQuoted fs f) b (x :: (s ++ c :: rest)) = csv_records (Reader InQuoted fs (x :: f)) true (s ++ c :: rest).
Proof.
  intros x fs f b s c rest Q. cbn [csv_records]. unfold step at 1. cbn [r_state]. rewrite Q. cbn [bind]. destruct (ends_line x (s ++ c :: rest)); [|reflexivity].
  change (emit (step_end (add_char (Reader InQuoted fs f) x InQuoted))) with (@None (list str), Reader InQuoted fs (x :: f)). cbn match. rewrite (started_app _ false true). destruct (csv_records (Reader InQuoted fs (x :: f)) true (s ++ c :: rest)); reflexivity.
Qed.
Lemma read_quoted : forall s fs f b c rest, csv_records (Reader InQuoted fs f) b (double_quotes s ++ c :: rest) = csv_records (Reader InQuoted fs (rev s ++ f)) b (c :: rest).
Proof.
  induction s as [|x s IH]; intros fs f b c rest; [reflexivity|]. cbn [double_quotes flat_map]. fold (double_quotes s). rewrite <- app_assoc. destruct (Ascii.eqb x quote) eqn:Q.
  - apply Ascii.eqb_eq in Q. subst x. change ([quote; quote] ++ double_quotes s ++ c :: rest) with (quote :: quote :: double_quotes s ++ c :: rest).
    rewrite (step_char _ (Reader QuoteInQuoted fs f)) by reflexivity. rewrite (step_char _ (Reader InQuoted fs (quote :: f))) by reflexivity. rewrite (started_app _ true b). rewrite IH. cbn [rev]. rewrite <- app_assoc. reflexivity.
  - change ([x] ++ double_quotes s ++ c :: rest) with (x :: (double_quotes s ++ c :: rest)). rewrite step_quoted by exact Q. rewrite (started_app _ true b). rewrite IH. cbn [rev]. rewrite <- app_assoc. reflexivity.
Qed.
Definition closes (c : ascii) (rest : str) : Prop := c = ","%char \/ (c = cr /\ exists r, rest = lf :: r).
Definition after (c : ascii) : state := if Ascii.eqb c "," then StartField else EatEnd.
Lemma closes_ends : forall c rest, closes c rest -> ends_line c rest = false.
Proof. intros c rest [->|[-> (r & ->)]]; reflexivity. Qed.
Lemma read_field : forall alone s st fs b c rest, st = StartField \/ (st = StartRecord /\ (csv_field alone s <> [] \/ c = ","%char)) -> closes c rest ->
  csv_records (Reader st fs []) b (csv_field alone s ++ c :: rest) = csv_records (Reader (after c) (s :: fs) []) true rest.
Proof.
  intros alone s st fs b c rest S C. pose proof (closes_ends c rest C) as L.
  assert (Z : forall x, is_end x = false -> step x (Reader st fs []) = Ok (start_field x (Reader st fs []))) by (intros x X; unfold step; destruct S as [->|[-> _]]; cbn [r_state]; [reflexivity|rewrite X; reflexivity]).
  unfold csv_field in *. destruct (existsb needs_quotes s || alone && match s with [] => true | _ => false end) eqn:N.
  - change ((quote :: double_quotes s ++ [quote]) ++ c :: rest) with (quote :: ((double_quotes s ++ [quote]) ++ c :: rest)). rewrite <- app_assoc. rewrite (step_char _ (Reader InQuoted fs [])); [|apply Z; reflexivity|reflexivity].
    change ([quote] ++ c :: rest) with (quote :: c :: rest). rewrite read_quoted. rewrite app_nil_r. rewrite (step_char _ (Reader QuoteInQuoted fs (rev s))) by reflexivity.
    rewrite (step_char _ (Reader (after c) (s :: fs) [])); [reflexivity| |exact L]. rewrite <- (rev_involutive s) at 2. destruct C as [->|[-> (r & ->)]]; reflexivity.
  - apply orb_false_iff in N as [N _]. destruct s as [|x s].
    + cbn [app]. apply step_char; [|exact L]. destruct C as [->|[-> (r & ->)]].
      * rewrite Z by reflexivity. reflexivity.
      * destruct S as [->|[-> [X|X]]]; [reflexivity|congruence|discriminate].
    + cbn [existsb] in N. apply orb_false_iff in N as [X N]. destruct (plain_char x X) as (A & B & E & L'). cbn [app]. rewrite (step_char _ (Reader InField fs [x])); [|rewrite Z by exact E; unfold start_field; rewrite E, B, A; reflexivity|apply L'].
      rewrite read_plain by exact N. apply step_char; [|exact L]. change (x :: s) with ([x] ++ s). rewrite <- (rev_involutive ([x] ++ s)), rev_app_distr. destruct C as [->|[-> (r & ->)]]; reflexivity.
Qed.
Lemma read_crlf : forall fs b rest, csv_records (Reader EatEnd fs []) b (lf :: rest) = (do l <- csv_records fresh false rest; Ok (rev fs :: l)).
Proof. intros fs b rest. cbn [csv_records]. unfold step. cbn [r_state is_end]. change (is_end lf) with true. cbn match. cbn [bind]. change (ends_line lf rest) with true. cbn match. unfold step_end, emit, goto. cbn [r_state r_fields r_field with_record]. reflexivity. Qed.
Lemma read_fields : forall fields s fs b rest, csv_records (Reader StartField fs []) b (join "," (map (csv_field false) (s :: fields)) ++ cr :: lf :: rest) = (do l <- csv_records fresh false rest; Ok ((rev fs ++ s :: fields) :: l)).
Proof.
  induction fields as [|s2 fields IH]; intros s fs b rest.
  - cbn [map join]. rewrite read_field; [|left; reflexivity|right; split; [reflexivity|eauto]]. change (after cr) with EatEnd. rewrite read_crlf. reflexivity.
  - change (join "," (map (csv_field false) (s :: s2 :: fields))) with (csv_field false s ++ lit "," ++ join "," (map (csv_field false) (s2 :: fields))). rewrite <- !app_assoc. change (lit "," ++ ?x) with (","%char :: x). cbn [app lit list_ascii_of_string].
    rewrite read_field; [|left; reflexivity|left; reflexivity]. change (after ",") with StartField. rewrite IH. cbn [rev]. rewrite <- app_assoc. reflexivity.
Qed.
Lemma csv_row_read : forall row rest, csv_read (csv_row row ++ rest) = (do l <- csv_read rest; Ok (row :: l)).
Proof.
  intros row rest. unfold csv_read, csv_row. rewrite <- app_assoc. cbn [app]. destruct row as [|s [|s2 row]].
  - cbn [map join app csv_records]. reflexivity.
  - cbn [map join]. unfold fresh. rewrite read_field; [|right; split; [reflexivity|left]|right; split; [reflexivity|eauto]].
    + change (after cr) with EatEnd. rewrite read_crlf. reflexivity.
    + unfold csv_field. destruct s as [|x s]; [discriminate|]. destruct (existsb needs_quotes (x :: s) || true && false); discriminate.
  - change (join "," (map (csv_field false) (s :: s2 :: row))) with (csv_field false s ++ lit "," ++ join "," (map (csv_field false) (s2 :: row))). rewrite <- !app_assoc. cbn [app lit list_ascii_of_string]. unfold fresh at 1.
    rewrite read_field; [|right; split; [reflexivity|right; reflexivity]|left; reflexivity]. change (after ",") with StartField. rewrite read_fields. reflexivity.
Qed.
Lemma csv_rows_read : forall rows, csv_read (concat (map csv_row rows)) = Ok rows.
Proof. induction rows as [|row rows IH]; [reflexivity|]. cbn [map concat]. rewrite csv_row_read, IH. reflexivity. Qed.

(** ** RECORD *)
Definition complete (r : record) : Prop := rec_file r <> None /\ rec_hash r <> None /\ rec_length r <> None.
(** a signature that its text gives back *)
Definition tidy_signature (s : signature) : Prop := ~ In "="%char (s_type s) /\ ~ In "="%char (s_value s) /\ rstrip_ws (s_type s) = s_type s /\ lstrip_ws (s_value s) = s_value s.
Lemma signature_round : forall s, tidy_signature s -> parse_signature (show_signature s) = Ok s.
Proof. intros [t v] (A & B & C & D). unfold parse_signature, show_signature. cbn [s_type s_value] in *. change (t ++ lit "=" ++ v) with (t ++ "="%char :: v). rewrite split_on_app by exact A. rewrite split_on_single by exact B. rewrite C, D. reflexivity. Qed.
Definition fields_of (r : record) : list str := match record_row r with Ok f => f | Err _ => [] end.
Lemma save_ok : forall l, (forall r, In r l -> complete r) -> save_records l = (Ok tt, concat (map (fun r => csv_row (fields_of r)) l)).
Proof.
  induction l as [|r l IH]; intro H; [reflexivity|]. cbn [save_records map concat]. destruct (H r (or_introl eq_refl)) as (A & B & C). unfold fields_of, record_row at 1. unfold record_row. destruct (rec_file r), (rec_hash r), (rec_length r); try congruence. rewrite IH by (intros x X; apply H; right; exact X). reflexivity.
Qed.
Lemma save_missing : forall a r b, (forall x, In x a -> complete x) -> ~ complete r -> save_records (a ++ r :: b) = (Err KeyError, concat (map (fun r => csv_row (fields_of r)) a)).
Proof.
  induction a as [|x a IH]; intros r b H N.
  - cbn [app save_records]. unfold record_row. unfold complete in N. destruct (rec_file r), (rec_hash r), (rec_length r); try reflexivity. exfalso. apply N. repeat split; discriminate.
  - cbn [app save_records map concat]. destruct (H x (or_introl eq_refl)) as (A & B & C). unfold fields_of, record_row at 1. unfold record_row. destruct (rec_file x), (rec_hash x), (rec_length x); try congruence. rewrite IH; [reflexivity|intros y Y; apply H; right; exact Y|exact N].
Qed.
Lemma load_saved : forall l, (forall r, In r l -> complete r /\ (forall s, rec_hash r = Some s -> tidy_signature s)) -> load_records (snd (save_records l)) = Ok l.
Proof.
  intros l H. rewrite save_ok by (intros r R; apply H; exact R). cbn [snd]. rewrite <- map_map with (f := fields_of) (g := csv_row). unfold load_records. rewrite csv_rows_read. cbn [bind].
  induction l as [|r l IH]; [reflexivity|]. cbn [map map_res]. destruct (H r (or_introl eq_refl)) as ((A & B & C) & D). unfold fields_of at 1, record_row. destruct r as [[f|] [h|] [n|]]; cbn [rec_file rec_hash rec_length] in *; try congruence. cbn [row_dict bind].
  specialize (IH (fun x X => H x (or_intror X))). destruct (map_res row_dict (map fields_of l)) as [ds|]; [|discriminate]. cbn [bind] in *. cbn [map_res]. unfold parse_record at 1. rewrite (signature_round h (D h eq_refl)).
  assert (E : show_signature h <> []) by (unfold show_signature; destruct (s_type h); discriminate). destruct (show_signature h); [congruence|]. cbn [bind]. pose proof (show_N_nonempty n) as F. pose proof (show_N_all_digits n) as G. pose proof (read_show_N n) as K. destruct (show_N n) as [|d ds']; [congruence|]. rewrite G. cbn [bind]. rewrite K, IH. reflexivity.
Qed.

(** ** Lines *)
Lemma split_lines_app : forall l rest, forallb (fun c => negb (is_line_end c)) l = true -> split_lines (l ++ lf :: rest) = l :: split_lines rest.
Proof.
  induction l as [|c l IH]; intros rest H.
  - cbn [app split_lines]. change (is_line_end lf) with true. cbn match. f_equal. destruct rest as [|d r]; reflexivity.
  - cbn [forallb] in H. apply andb_true_iff in H as [C H]. cbn [app split_lines]. destruct (is_line_end c); [discriminate|]. rewrite IH by exact H. reflexivity.
Qed.
Lemma split_lines_last : forall l, forallb (fun c => negb (is_line_end c)) l = true -> l <> [] -> split_lines l = [l].
Proof.
  induction l as [|c l IH]; intros H N; [congruence|]. cbn [forallb] in H. apply andb_true_iff in H as [C H]. cbn [split_lines]. destruct (is_line_end c); [discriminate|]. destruct l as [|d l]; [reflexivity|]. rewrite IH; [reflexivity|exact H|discriminate].
Qed.
Lemma split_lines_join : forall ls, Forall (fun l => forallb (fun c => negb (is_line_end c)) l = true /\ l <> []) ls -> split_lines (join [lf] ls) = ls.
Proof.
  induction ls as [|l ls IH]; intro H; [reflexivity|]. inversion H as [|? ? [A B] C]; subst. destruct ls as [|l2 ls]; [cbn [join]; apply split_lines_last; assumption|].
  change (join [lf] (l :: l2 :: ls)) with (l ++ [lf] ++ join [lf] (l2 :: ls)). cbn [app]. rewrite split_lines_app by exact A. rewrite IH by exact C. reflexivity.
Qed.
(** a text that survives: not empty, no blank at its ends, no line end, no colon *)
Definition plain_text (s : str) : Prop := s <> [] /\ strip_ws s = s /\ ~ In ":"%char s /\ forallb (fun c => negb (is_line_end c)) s = true.
Lemma lstrip_head : forall s, lstrip_ws s = s -> s = [] \/ exists c r, s = c :: r /\ is_space c = false.
Proof.
  intros [|c r] H; [left; reflexivity|right]. exists c, r. split; [reflexivity|]. cbn [lstrip_ws] in H. destruct (is_space c); [|reflexivity]. exfalso.
  assert (L : length (lstrip_ws r) <= length r) by (clear; induction r as [|d r IH]; [reflexivity|]; cbn [lstrip_ws]; destruct (is_space d); cbn; lia). rewrite H in L. cbn in L. lia.
Qed.
Lemma lstrip_shorter : forall s, length (lstrip_ws s) <= length s.
Proof. induction s as [|d r IH]; [reflexivity|]. cbn [lstrip_ws]. destruct (is_space d); cbn; lia. Qed.
Lemma lstrip_same : forall s, length (lstrip_ws s) = length s -> lstrip_ws s = s.
Proof. intros [|c s] H; [reflexivity|]. cbn [lstrip_ws] in *. destruct (is_space c); [|reflexivity]. pose proof (lstrip_shorter s). cbn in H. lia. Qed.
Lemma strip_sides : forall s, strip_ws s = s -> lstrip_ws s = s /\ rstrip_ws s = s.
Proof.
  intros s H. assert (A : lstrip_ws s = s).
  { apply lstrip_same. apply (f_equal (@length ascii)) in H. unfold strip_ws in H. rewrite rev_length in H. pose proof (lstrip_shorter (rev (lstrip_ws s))) as B. rewrite rev_length in B. pose proof (lstrip_shorter s). lia. }
  split; [exact A|]. unfold strip_ws in H. rewrite A in H. exact H.
Qed.
Lemma strip_line : forall k v, plain_text k -> plain_text v -> strip_ws (k ++ lit ": " ++ v) = k ++ lit ": " ++ v.
Proof.
  intros k v (K1 & K2 & _) (V1 & V2 & _). destruct (strip_sides k K2) as [K _]. destruct (strip_sides v V2) as [_ V]. destruct (lstrip_head k K) as [X|(c & r & -> & C)]; [congruence|].
  unfold strip_ws. cbn [app lstrip_ws]. rewrite C. change (c :: r ++ lit ": " ++ v) with ((c :: r) ++ lit ": " ++ v). rewrite !rev_app_distr. unfold rstrip_ws in V. apply (f_equal (@rev ascii)) in V. rewrite rev_involutive in V. destruct (lstrip_head (rev v) V) as [X|(d & q & E & D)]; [apply (f_equal (@rev ascii)) in X; rewrite rev_involutive in X; cbn in X; congruence|].
  rewrite E. cbn [app lstrip_ws]. rewrite D. change (d :: (q ++ rev (lit ": ")) ++ rev (c :: r)) with (((d :: q) ++ rev (lit ": ")) ++ rev (c :: r)). rewrite <- E. rewrite !rev_app_distr, !rev_involutive. reflexivity.
Qed.
Lemma line_split : forall k v, plain_text k -> plain_text v -> read_line (k ++ lit ": " ++ v) = Ok (k, v).
Proof.
  intros k v (K1 & K2 & K3 & _) (V1 & V2 & V3 & _). unfold read_line, split_colon. change (k ++ lit ": " ++ v) with (k ++ ":"%char :: " "%char :: v). rewrite split_on_app by exact K3. rewrite split_on_single by (intros [X|X]; [discriminate|contradiction]).
  cbn [trim_parts]. destruct (strip_sides k K2) as [_ ->]. destruct (strip_sides v V2) as [V _]. cbn [lstrip_ws]. change (is_space " ") with true. cbn match. rewrite V. reflexivity.
Qed.
Lemma filter_true : forall (A : Type) (f : A -> bool) l, (forall x, In x l -> f x = true) -> filter f l = l.
Proof. intros A f l H. induction l as [|x l IH]; [reflexivity|]. cbn [filter]. rewrite (H x (or_introl eq_refl)), IH; [reflexivity|]. intros y Y. apply H. right. exact Y. Qed.
Lemma lines_round : forall data, Forall (fun e => plain_text (fst e) /\ plain_text (snd e)) data -> read_lines (write_lines data) = Ok (dict_of data).
Proof.
  intros data H. unfold read_lines, write_lines. rewrite split_lines_join.
  - assert (E : map strip_ws (map (fun e => fst e ++ lit ": " ++ snd e) data) = map (fun e => fst e ++ lit ": " ++ snd e) data).
    { rewrite map_map. apply map_ext_in. intros e I. rewrite Forall_forall in H. destruct (H e I). apply strip_line; assumption. }
    rewrite E. clear E. rewrite filter_true.
    + enough (G : map_res read_line (map (fun e => fst e ++ lit ": " ++ snd e) data) = Ok data) by (rewrite G; reflexivity).
      induction H as [|[k v] data [K V] H IH]; [reflexivity|]. cbn [map map_res fst snd]. rewrite line_split by assumption. cbn [bind]. rewrite IH. reflexivity.
    + intros x X. apply in_map_iff in X as (e & <- & X). rewrite Forall_forall in H. destruct (H e X) as [(K & _) _]. destruct e as [[|k1 k] v]; [cbn in K; congruence|reflexivity].
  - apply Forall_forall. intros l I. apply in_map_iff in I as (e & <- & I). rewrite Forall_forall in H. destruct (H e I) as [(K1 & _ & _ & K) (_ & _ & _ & V)]. split.
    + rewrite forallb_app. apply andb_true_iff. split; [exact K|]. rewrite forallb_app. apply andb_true_iff. split; [reflexivity|exact V].
    + destruct e as [[|k1 k] v]; [cbn in K1; congruence|discriminate].
Qed.
Lemma no_setting : forall l, ~ In "="%char l -> python_setting l = None.
Proof.
  intros l H. unfold python_setting. enough (E : span (fun c => negb (Ascii.eqb c "=")) l = (l, [])) by (rewrite E; reflexivity).
  induction l as [|c l IH]; [reflexivity|]. cbn [span]. destruct (Ascii.eqb c "=") eqn:E; [exfalso; apply Ascii.eqb_eq in E; apply H; left; exact E|]. cbn [negb]. rewrite IH; [reflexivity|]. intro I. apply H. right. exact I.
Qed.
Lemma lines_chars : forall n text l c, length text <= n -> In l (split_lines text) -> In c l -> In c text.
Proof.
  induction n as [|n IH]; intros text l c N H I; [destruct text; [destruct H|cbn in N; lia]|]. destruct text as [|x r]; [destruct H|]. cbn [split_lines] in H. cbn in N. destruct (is_line_end x).
  - destruct H as [<-|H]; [destruct I|]. right. destruct r as [|d r']; [destruct H|]. destruct (Ascii.eqb x cr && Ascii.eqb d lf).
    + right. eapply IH; [|exact H|exact I]. cbn in N. lia.
    + eapply IH; [|exact H|exact I]. lia.
  - destruct (split_lines r) as [|l0 ls] eqn:E.
    + destruct H as [<-|[]]. destruct I as [<-|[]]. left. reflexivity.
    + destruct H as [<-|H].
      * destruct I as [<-|I]; [left; reflexivity|]. right. apply (IH r l0 c); [lia|rewrite E; left; reflexivity|exact I].
      * right. apply (IH r l c); [lia|rewrite E; right; exact H|exact I].
Qed.
Lemma no_settings : forall text, ~ In "="%char text -> python_settings text = [].
Proof.
  intros text H. unfold python_settings. assert (G : forall l, In l (split_lines text) -> python_setting l = None) by (intros l L; apply no_setting; intro I; apply H; eapply lines_chars; [apply Nat.le_refl|exact L|exact I]).
  induction (split_lines text) as [|l ls IH]; [reflexivity|]. cbn [flat_map]. rewrite (G l (or_introl eq_refl)). apply IH. intros x X. apply G. right. exact X.
Qed.
