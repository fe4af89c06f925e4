(** Reading back what the TOML writer writes: strings, keys and inline values. *)
From Coq Require Import String Ascii List Bool NArith ZArith Arith Lia.
From Coq Require Decimal DecimalFacts DecimalN.
From Verif Require Import Base BaseFacts ParserModel ParserFacts MarkerModel MarkerProofs TomlModel.
Import ListNotations.
Open Scope string_scope.
Open Scope nat_scope.
Open Scope list_scope.
Open Scope bool_scope.

(** * Strings *)
Definition esc (s : str) : str := concat (map escape s).
Definition str_ok (s : str) : Prop := (forall r, s <> r ++ [backslash]) /\ ~ In "000"%char s.
Ltac eqc c d := let E := fresh "E" in destruct (Ascii.eqb c d) eqn:E; [apply Ascii.eqb_eq in E; subst c|].

Lemma scan_esc : forall s bs R, (forall r, s <> r ++ [backslash]) -> (s = [] -> bs = false) ->
  scan bs (esc s ++ dquote :: R) = Some (esc s, R).
Proof.
  induction s as [|c s IH]; intros bs R H B.
  - rewrite (B eq_refl). reflexivity.
  - assert (H2 : forall r, s <> r ++ [backslash]) by (intros r ->; apply (H (c :: r)); reflexivity).
    unfold esc. cbn [map concat]. fold (esc s). rewrite <- app_assoc.
    assert (B2 : scan false (esc s ++ dquote :: R) = Some (esc s, R)) by (apply IH; [exact H2|reflexivity]).
    unfold escape.
    eqc c "008"%char; [cbn [app scan]; change (Ascii.eqb backslash dquote) with false; cbv iota; change (Ascii.eqb backslash backslash) with true; change (Ascii.eqb "b" dquote) with false; cbv iota; change (Ascii.eqb "b" backslash) with false; now rewrite B2|].
    eqc c "009"%char; [cbn [app scan]; change (Ascii.eqb backslash dquote) with false; cbv iota; change (Ascii.eqb backslash backslash) with true; change (Ascii.eqb "t" dquote) with false; cbv iota; change (Ascii.eqb "t" backslash) with false; now rewrite B2|].
    eqc c nl; [cbn [app scan]; change (Ascii.eqb backslash dquote) with false; cbv iota; change (Ascii.eqb backslash backslash) with true; change (Ascii.eqb "n" dquote) with false; cbv iota; change (Ascii.eqb "n" backslash) with false; now rewrite B2|].
    eqc c "012"%char; [cbn [app scan]; change (Ascii.eqb backslash dquote) with false; cbv iota; change (Ascii.eqb backslash backslash) with true; change (Ascii.eqb "f" dquote) with false; cbv iota; change (Ascii.eqb "f" backslash) with false; now rewrite B2|].
    eqc c "013"%char; [cbn [app scan]; change (Ascii.eqb backslash dquote) with false; cbv iota; change (Ascii.eqb backslash backslash) with true; change (Ascii.eqb "r" dquote) with false; cbv iota; change (Ascii.eqb "r" backslash) with false; now rewrite B2|].
    eqc c dquote; [cbn [app scan]; change (Ascii.eqb backslash dquote) with false; cbv iota; change (Ascii.eqb backslash backslash) with true; change (Ascii.eqb dquote dquote) with true; cbv iota; now rewrite B2|].
    eqc c backslash.
    + cbn [app scan]; change (Ascii.eqb backslash dquote) with false; cbv iota; change (Ascii.eqb backslash backslash) with true. cbv iota.
      rewrite IH; [reflexivity|exact H2|]. intros ->. exfalso. now apply (H []).
    + cbn [app scan]. rewrite E4, E5. now rewrite B2.
Qed.
Lemma unescape_esc : forall s, ~ In "000"%char s -> unescape (esc s) = Ok s.
Proof.
  induction s as [|c s IH]; intros H; [reflexivity|].
  assert (H2 : ~ In "000"%char s) by (intros X; apply H; now right). specialize (IH H2).
  unfold esc. cbn [map concat]. fold (esc s). unfold escape.
  eqc c "008"%char; [cbn; rewrite IH; reflexivity|].
  eqc c "009"%char; [cbn; rewrite IH; reflexivity|].
  eqc c nl; [cbn; rewrite IH; reflexivity|].
  eqc c "012"%char; [cbn; rewrite IH; reflexivity|].
  eqc c "013"%char; [cbn; rewrite IH; reflexivity|].
  eqc c dquote; [cbn; rewrite IH; reflexivity|].
  eqc c backslash; [cbn; rewrite IH; reflexivity|].
  cbn [app unescape]. rewrite E5. unfold bad_in_literal. rewrite E4, E1, E3.
  destruct (Ascii.eqb c "000") eqn:Z; [apply Ascii.eqb_eq in Z; subst c; exfalso; apply H; now left|].
  cbn [orb]. rewrite IH. reflexivity.
Qed.
Lemma esc_head : forall c s, exists x t, esc (c :: s) = x :: t /\ x <> dquote.
Proof.
  intros c s. unfold esc. cbn [map concat]. unfold escape.
  eqc c "008"%char; [eexists; eexists; split; [reflexivity|discriminate]|].
  eqc c "009"%char; [eexists; eexists; split; [reflexivity|discriminate]|].
  eqc c nl; [eexists; eexists; split; [reflexivity|discriminate]|].
  eqc c "012"%char; [eexists; eexists; split; [reflexivity|discriminate]|].
  eqc c "013"%char; [eexists; eexists; split; [reflexivity|discriminate]|].
  eqc c dquote; [eexists; eexists; split; [reflexivity|discriminate]|].
  eqc c backslash; [eexists; eexists; split; [reflexivity|discriminate]|].
  eexists; eexists; split; [reflexivity|]. intros ->. unfold dquote in E4. discriminate.
Qed.
Lemma write_str_cons : forall s R, write_str s ++ R = dquote :: esc s ++ dquote :: R.
Proof. intros s R. unfold write_str. cbn [app]. now rewrite <- app_assoc. Qed.
Lemma read_string_write : forall s R, str_ok s -> head_not (Ascii.eqb dquote) R -> read_string (write_str s ++ R) = Ok (s, R).
Proof.
  intros s R [H Z] HR. rewrite write_str_cons. unfold read_string.
  assert (S : starts_with [dquote; dquote; dquote] (dquote :: esc s ++ dquote :: R) = false).
  { destruct s as [|c s].
    - cbn. destruct R as [|x R]; [reflexivity|]. unfold head_not in HR. cbn in HR. unfold ascii_eqb in *. now rewrite HR.
    - destruct (esc_head c s) as (x & t & -> & N). cbn [app starts_with]. unfold ascii_eqb. change (Ascii.eqb dquote dquote) with true.
      replace (Ascii.eqb dquote x) with false; [reflexivity|]. symmetry. apply Ascii.eqb_neq. congruence. }
  rewrite S. change (starts_with [squote; squote; squote] (dquote :: esc s ++ dquote :: R)) with false. cbn [orb].
  change (Ascii.eqb dquote dquote) with true. cbv iota. rewrite scan_esc by auto. rewrite unescape_esc by auto. reflexivity.
Qed.

(** * Blanks *)
Definition plain (c : ascii) : bool := negb (is_space c) && negb (Ascii.eqb c "#").
Lemma plain_ws : forall c r, plain c = true -> ws (c :: r) = c :: r /\ line_ws (c :: r) = c :: r.
Proof.
  intros c r P. apply andb_true_iff in P as [P _]. apply negb_true_iff in P. unfold ws, line_ws. cbn [span]. rewrite P.
  split; [reflexivity|]. now destruct (Ascii.eqb c "010").
Qed.
Lemma skip_plain : forall b c r, plain c = true -> skip b (c :: r) = Ok (c :: r).
Proof.
  intros b c r P. destruct (plain_ws c r P) as [W L]. unfold skip. cbn [length non_data].
  replace (if b then ws (c :: r) else line_ws (c :: r)) with (c :: r) by (destruct b; congruence).
  apply andb_true_iff in P as [_ P]. apply negb_true_iff in P. now rewrite P.
Qed.
Lemma skip_nil : forall b, skip b [] = Ok [].
Proof. reflexivity. Qed.
Lemma skip_blank : forall b c r, plain c = true -> skip b (" "%char :: c :: r) = Ok (c :: r).
Proof.
  intros b c r P. destruct (plain_ws c r P) as [W L]. unfold skip. cbn [length non_data].
  replace (if b then ws (" "%char :: c :: r) else line_ws (" "%char :: c :: r)) with (c :: r).
  - apply andb_true_iff in P as [_ P]. apply negb_true_iff in P. now rewrite P.
  - destruct b; [rewrite <- W at 1|rewrite <- L at 1]; unfold ws, line_ws; cbn [span];
      change (is_space " ") with true; change (Ascii.eqb " " "010") with false; cbv iota;
      match goal with |- context [let '(_, _) := ?x in _] => now destruct x end.
Qed.
Lemma skip_newline : forall c r, plain c = true -> skip true (nl :: c :: r) = Ok (c :: r).
Proof.
  intros c r P. destruct (plain_ws c r P) as [W L]. unfold skip. cbn [length non_data].
  replace (ws (nl :: c :: r)) with (c :: r).
  - apply andb_true_iff in P as [_ P]. apply negb_true_iff in P. now rewrite P.
  - rewrite <- W at 1. unfold ws. cbn [span]. change (is_space nl) with true. cbv iota.
      match goal with |- context [let '(_, _) := ?x in _] => now destruct x end.
Qed.
Lemma skip_line_end : forall r, skip false (nl :: r) = Ok (nl :: r).
Proof. reflexivity. Qed.

(** what may follow a value *)
Definition stops (c : ascii) : bool := Ascii.eqb c "," || Ascii.eqb c "]" || Ascii.eqb c "}" || Ascii.eqb c nl.
Lemma stops_skip : forall c r, stops c = true -> skip false (c :: r) = Ok (c :: r).
Proof.
  intros c r S. unfold stops in S. eqc c ","%char; [now apply skip_plain|]. eqc c "]"%char; [now apply skip_plain|].
  eqc c "}"%char; [now apply skip_plain|]. eqc c nl; [reflexivity|discriminate].
Qed.

(** * Keys *)
Lemma key_char_plain : forall c, key_char c = true -> plain c = true /\ Ascii.eqb c "[" = false /\ is_quote c = false.
Proof. intros c. by_char c. all: intros _; repeat split. Qed.
Lemma key_part_cons : forall k, exists c t, key_part k = c :: t /\ plain c = true /\ Ascii.eqb c "[" = false /\ (is_quote c = true \/ key_char c = true)
  /\ Ascii.eqb c "}" = false.
Proof.
  intros k. unfold key_part. destruct (is_bare k) eqn:B.
  - destruct k as [|c k]; [discriminate|]. cbn in B. apply andb_true_iff in B as [B _].
    destruct (key_char_plain c B) as (A & D & _). exists c, k. repeat split; auto. destruct (Ascii.eqb c "}") eqn:E; [|reflexivity].
    apply Ascii.eqb_eq in E. subst c. discriminate.
  - exists dquote, (esc k ++ [dquote]). repeat split; auto.
Qed.
Definition after_key (R : str) : Prop := head_not key_char R /\ head_not (Ascii.eqb dquote) R.
Lemma read_part : forall k R, str_ok k -> after_key R ->
  match line_ws (key_part k ++ R) with
  | [] => Err IndexError
  | c :: _ => if is_quote c then read_string (line_ws (key_part k ++ R))
              else if key_char c then Ok (span key_char (line_ws (key_part k ++ R)))
              else Err ValueError
  end = Ok (k, R).
Proof.
  intros k R K [A1 A2]. destruct (key_part_cons k) as (c & t & E & P & _ & _).
  assert (L : line_ws (key_part k ++ R) = key_part k ++ R) by (rewrite E; cbn [app]; apply (plain_ws c (t ++ R) P)).
  rewrite L. clear L E P c t. unfold key_part. destruct (is_bare k) eqn:B.
  - destruct k as [|c k]; [discriminate|]. cbn [is_bare] in B. assert (B' := B). cbn in B. apply andb_true_iff in B as [B _].
    destruct (key_char_plain c B) as (_ & _ & Q). cbn [app]. rewrite Q, B.
    change (c :: k ++ R) with ((c :: k) ++ R). rewrite span_app; auto.
  - rewrite write_str_cons at 1. change (is_quote dquote) with true. cbv iota. now apply read_string_write.
Qed.
Lemma dot_join_length : forall (ns : list str), ns <> [] -> length ns <= length (join (lit ".") (map key_part ns)).
Proof.
  induction ns as [|k ns IH]; [congruence|]. intros _. destruct (key_part_cons k) as (c & t & E & _).
  destruct ns as [|k2 ns]; [cbn [map join]; rewrite E; cbn; lia|].
  change (join (lit ".") (map key_part (k :: k2 :: ns))) with (key_part k ++ lit "." ++ join (lit ".") (map key_part (k2 :: ns))).
  rewrite !app_length, E. cbn [length]. assert (k2 :: ns <> []) as N by discriminate. specialize (IH N). cbn [length] in IH. lia.
Qed.
Lemma parts_read : forall ns fuel acc R, Forall str_ok ns -> ns <> [] -> length ns <= fuel -> after_key R -> smatch "." (line_ws R) = None ->
  key_parts_loop fuel acc (join (lit ".") (map key_part ns) ++ R) = Ok (acc ++ ns, R).
Proof.
  induction ns as [|k ns IH]; [congruence|]. intros fuel acc R F _ L A D. apply Forall_cons_iff in F as [K F].
  destruct fuel as [|fuel]; [cbn in L; lia|]. cbn [length] in L.
  destruct ns as [|k2 ns].
  - cbn [map join]. destruct (key_part_cons k) as (c & t & E & _). pose proof (read_part k R K A) as RP.
    remember (key_part k ++ R) as s. destruct s as [|x s]; [rewrite E in Heqs; discriminate|].
    cbn [key_parts_loop]. rewrite RP. cbn [bind]. now rewrite D.
  - set (R2 := join (lit ".") (map key_part (k2 :: ns)) ++ R).
    assert (E2 : join (lit ".") (map key_part (k :: k2 :: ns)) ++ R = key_part k ++ "."%char :: R2).
    { cbn [map join]. unfold R2. rewrite <- !app_assoc. reflexivity. }
    rewrite E2. destruct (key_part_cons k) as (c & t & E & _).
    assert (A2 : after_key ("."%char :: R2)) by (split; reflexivity).
    pose proof (read_part k _ K A2) as RP.
    remember (key_part k ++ "."%char :: R2) as s. destruct s as [|x s]; [rewrite E in Heqs; discriminate|].
    cbn [key_parts_loop]. rewrite RP. cbn [bind]. change (smatch (lit ".") (line_ws ("."%char :: R2))) with (Some R2).
    unfold R2. rewrite (IH fuel (acc ++ [k]) R F); [now rewrite <- app_assoc|discriminate|lia|exact A|exact D].
Qed.
Lemma smatch_other : forall c d r, Ascii.eqb c d = false -> smatch [c] (d :: r) = None.
Proof. intros c d r E. unfold smatch. cbn [starts_with]. now rewrite E. Qed.
Lemma smatch_same : forall c r, smatch [c] (c :: r) = Some r.
Proof. intros c r. unfold smatch. cbn [starts_with]. now rewrite Ascii.eqb_refl. Qed.
Lemma read_key_assign : forall k R, str_ok k -> read_key (key_part k ++ " "%char :: "="%char :: R) = Ok ([KName k], "="%char :: R).
Proof.
  intros k R K. unfold read_key. destruct (key_part_cons k) as (c & t & E & P & B & _).
  assert (S : skip true (key_part k ++ " "%char :: "="%char :: R) = Ok (key_part k ++ " "%char :: "="%char :: R)) by (rewrite E; now apply skip_plain).
  rewrite S. cbn [bind]. clear S.
  assert (M : smatch (lit "[") (key_part k ++ " "%char :: "="%char :: R) = None).
  { rewrite E. apply (smatch_other "["). rewrite Ascii.eqb_sym. exact B. }
  rewrite M. cbv iota beta. clear M.
  pose proof (parts_read [k] (S (length (key_part k ++ " "%char :: "="%char :: R))) [] (" "%char :: "="%char :: R)) as PR.
  cbn [map join] in PR. rewrite PR; [|now constructor|discriminate|cbn; lia|split; reflexivity|reflexivity].
  cbn [bind app]. rewrite skip_blank by reflexivity. reflexivity.
Qed.
Lemma read_key_table : forall ns R, Forall str_ok ns -> ns <> [] -> (R = [] \/ exists r, R = nl :: r) ->
  read_key (lit "[" ++ join (lit ".") (map key_part ns) ++ lit "]" ++ R) = Ok (map KName ns, R).
Proof.
  intros ns R F N HR. unfold read_key. set (body := join (lit ".") (map key_part ns) ++ lit "]" ++ R).
  change (lit "[" ++ body) with ("["%char :: body). rewrite skip_plain by reflexivity. cbn [bind].
  change (smatch (lit "[") ("["%char :: body)) with (Some body). cbv iota beta.
  assert (B : exists c t, body = c :: t /\ plain c = true /\ Ascii.eqb c "[" = false).
  { unfold body. destruct ns as [|k ns]; [congruence|]. destruct (key_part_cons k) as (c & t & E & P & B & _).
    destruct ns; cbn [map join]; rewrite E; cbn [app]; eexists; eexists; split; [reflexivity|auto|reflexivity|auto]. }
  destruct B as (c & t & EB & P & NB). assert (L : line_ws body = body) by (rewrite EB; apply (plain_ws c t P)). rewrite L.
  assert (M : smatch (lit "[") body = None) by (rewrite EB; apply (smatch_other "["); rewrite Ascii.eqb_sym; exact NB). rewrite M. cbv iota beta.
  assert (PR : key_parts_loop (S (length body)) [] body = Ok (ns, lit "]" ++ R)).
  { unfold body at 2. rewrite parts_read; auto; [|split; reflexivity]. unfold body. rewrite app_length. pose proof (dot_join_length ns N). lia. }
  rewrite PR. cbn [bind]. change (match_or_err (lit "]") (lit "]" ++ R)) with (Ok R). cbn [bind].
  assert (S : skip false R = Ok R) by (destruct HR as [->|(r & ->)]; reflexivity). rewrite S. cbn [bind]. now rewrite app_nil_r.
Qed.
Lemma read_key_item : forall ns R, Forall str_ok ns -> ns <> [] -> (R = [] \/ exists r, R = nl :: r) ->
  read_key (lit "[[" ++ join (lit ".") (map key_part ns) ++ lit "]]" ++ R) = Ok (map KName ns ++ [KItem], R).
Proof.
  intros ns R F N HR. unfold read_key. set (body := join (lit ".") (map key_part ns) ++ lit "]]" ++ R).
  change (lit "[[" ++ body) with ("["%char :: "["%char :: body). rewrite skip_plain by reflexivity. cbn [bind].
  change (smatch (lit "[") ("["%char :: "["%char :: body)) with (Some ("["%char :: body)). cbv iota beta.
  change (line_ws ("["%char :: body)) with ("["%char :: body).
  change (smatch (lit "[") ("["%char :: body)) with (Some body). cbv iota beta.
  assert (PR : key_parts_loop (S (length body)) [] body = Ok (ns, lit "]]" ++ R)).
  { unfold body at 2. rewrite parts_read; auto; [|split; reflexivity]. unfold body. rewrite app_length. pose proof (dot_join_length ns N). lia. }
  rewrite PR. cbn [bind]. change (match_or_err (lit "]") (lit "]]" ++ R)) with (Ok (lit "]" ++ R)). cbn [bind].
  change (match_or_err (lit "]") (ws (lit "]" ++ R))) with (Ok R). cbn [bind].
  assert (S : skip false R = Ok R) by (destruct HR as [->|(r & ->)]; reflexivity). rewrite S. cbn [bind]. reflexivity.
Qed.

(** * Numbers *)
Lemma no_leading_zero : forall n r, show_N n = "0"%char :: r -> r = [].
Proof.
  intros n r. unfold show_N. rewrite nilzero_unfold. intros E.
  assert (U : Decimal.unorm (N.to_uint n) = N.to_uint n).
  { rewrite <- (DecimalN.Unsigned.to_of (N.to_uint n)). now rewrite DecimalN.Unsigned.of_to. }
  destruct (N.to_uint n) as [|d|d|d|d|d|d|d|d|d|d]; cbn in E; try discriminate.
  injection E as E. unfold Decimal.unorm in U. cbn [Decimal.nzhead] in U.
  destruct (Decimal.nzhead d) as [|d'|d'|d'|d'|d'|d'|d'|d'|d'|d'] eqn:Z; try discriminate.
  - injection U as U. subst d. now rewrite <- E.
  - exfalso. exact (DecimalFacts.nzhead_nonzero d d' Z).
Qed.
Lemma eval_show : forall b n, eval_int b (show_N n) = Ok (if b then Z.opp (Z.of_N n) else Z.of_N n).
Proof.
  intros b n. unfold eval_int. destruct (show_N n) as [|c r] eqn:E; [now apply show_N_nonempty in E|].
  pose proof (show_N_digits n) as D. rewrite E in D. rewrite D. cbn [negb]. destruct (Ascii.eqb c "0") eqn:Z.
  - apply Ascii.eqb_eq in Z. subst c. apply no_leading_zero in E as E2. subst r. cbn [andb all_zeros forallb negb]. rewrite <- E, read_show_N. now destruct b.
  - cbn [andb]. rewrite <- E, read_show_N. now destruct b.
Qed.
Definition int_digits (z : Z) : str := match z with Zneg p => show_N (Npos p) | _ => show_N (Z.to_N z) end.
Lemma digits_numbers : forall n, forallb number_char (show_N n) = true.
Proof.
  intros n. pose proof (show_N_digits n) as D. induction (show_N n) as [|c r IH]; [reflexivity|]. cbn in D |- *.
  apply andb_true_iff in D as [D1 D2]. unfold number_char at 1. rewrite D1. cbn. auto.
Qed.
Lemma stops_number : forall c, stops c = true -> number_char c = false /\ (Ascii.eqb c "-" || Ascii.eqb c ":" = false) /\ plain c || Ascii.eqb c nl = true.
Proof. intros c S. unfold stops in S. eqc c ","%char; [now repeat split|]. eqc c "]"%char; [now repeat split|]. eqc c "}"%char; [now repeat split|]. eqc c nl; [now repeat split|discriminate]. Qed.
Lemma read_number_show : forall z c r, stops c = true -> read_number (show_Z z ++ c :: r) = Ok (TInt z, c :: r).
Proof.
  intros z c r S. destruct (stops_number c S) as (N & D & _). unfold read_number.
  assert (pos : forall n, (match smatch "-" (show_N n ++ c :: r) with
      | Some r => (true, false, r)
      | None => match smatch "+" (show_N n ++ c :: r) with Some r => (false, true, r) | None => (false, false, show_N n ++ c :: r) end
      end) = (false, false, show_N n ++ c :: r)).
  { intros n. destruct (show_N_cons n) as (d & ds & E & Dd & _). rewrite E. cbn [app].
    rewrite (smatch_other "-"), (smatch_other "+"); [reflexivity| |]; rewrite Ascii.eqb_sym; destruct (Ascii.eqb d _) eqn:Q; auto; apply Ascii.eqb_eq in Q; subst d; discriminate. }
  assert (step : forall b n, (match show_N n with [] => if (b || false) : bool then Err OtherErr else Err ValueError | _ => do z <- eval_int b (show_N n); Ok (TInt z, c :: r) end)
      = Ok (TInt (if b then Z.opp (Z.of_N n) else Z.of_N n), c :: r)).
  { intros b n. rewrite eval_show. destruct (show_N n) eqn:E; [now apply show_N_nonempty in E|]. reflexivity. }
  destruct z as [|p|p]; cbn [show_Z].
  - rewrite pos. cbv iota beta. rewrite span_app by (auto using digits_numbers). cbv iota beta. rewrite D. rewrite step. reflexivity.
  - rewrite pos. cbv iota beta. rewrite span_app by (auto using digits_numbers). cbv iota beta. rewrite D. rewrite step. cbn. reflexivity.
  - cbn [app]. rewrite (smatch_same "-"). cbv iota beta. rewrite span_app by (auto using digits_numbers). cbv iota beta. rewrite D. rewrite step. reflexivity.
Qed.

(** * Inline values *)
Definition tv_ind' (P : tv -> Prop) (Hs : forall s, P (TStr s)) (Hi : forall z, P (TInt z)) (Hb : forall b, P (TBool b))
  (Hl : forall l, Forall P l -> P (TList l)) (Ht : forall t, Forall (fun e => P (snd e)) t -> P (TTab t)) : forall v, P v :=
  fix go (v : tv) : P v :=
    match v with
    | TStr s => Hs s
    | TInt z => Hi z
    | TBool b => Hb b
    | TList l => Hl l ((fix all l : Forall P l := match l with [] => Forall_nil _ | x :: r => Forall_cons x (go x) (all r) end) l)
    | TTab t => Ht t ((fix all (t : list (str * tv)) : Forall (fun e => P (snd e)) t :=
                         match t with [] => Forall_nil _ | e :: r => Forall_cons e (go (snd e)) (all r) end) t)
    end.
Inductive inline_ok : tv -> Prop :=
| ok_str : forall s, str_ok s -> inline_ok (TStr s)
| ok_int : forall z, inline_ok (TInt z)
| ok_bool : forall b, inline_ok (TBool b)
| ok_list : forall l, Forall inline_ok l -> inline_ok (TList l)
| ok_tab : forall t, t <> [] -> NoDup (map fst t) -> Forall (fun e => str_ok (fst e) /\ inline_ok (snd e)) t -> inline_ok (TTab t).
Definition body (v : tv) : str :=
  match v with
  | TStr s => write_str s
  | TInt z => show_Z z
  | TBool b => if b then lit "true" else lit "false"
  | TList l => lit "[" ++ join (lit ", ") (map (fun x => strip_blanks (inline x)) l) ++ lit "]"
  | TTab t => lit "{" ++ join (lit ", ") (map (fun e => key_part (fst e) ++ lit " =" ++ inline (snd e)) t) ++ lit "}"
  end.
Lemma inline_body : forall v, inline v = " "%char :: body v.
Proof. destruct v; reflexivity. Qed.
Lemma show_Z_ends : forall z, exists c t, show_Z z = c :: t /\ (is_digit c || Ascii.eqb c "-") = true /\ exists t2 d, show_Z z = t2 ++ [d] /\ is_digit d = true.
Proof.
  intros z. assert (last : forall n, exists t2 d, show_N n = t2 ++ [d] /\ is_digit d = true).
  { intros n. pose proof (show_N_digits n) as D. destruct (exists_last (show_N_nonempty n)) as (t2 & d & E). exists t2, d. split; [exact E|].
    rewrite E, forallb_app in D. apply andb_true_iff in D as [_ D]. cbn in D. now rewrite andb_true_r in D. }
  destruct z as [|p|p]; cbn [show_Z].
  - exists "0"%char, []. repeat split. exists [], "0"%char. split; reflexivity.
  - destruct (show_N_cons (Z.to_N (Zpos p))) as (d & ds & E & Dd & _). exists d, ds. rewrite E, Dd. repeat split. rewrite <- E. apply last.
  - exists "-"%char, (show_N (Npos p)). repeat split. destruct (last (Npos p)) as (t2 & d & E & D). exists ("-"%char :: t2), d. rewrite E. split; [reflexivity|exact D].
Qed.
Definition starts_value (c : ascii) : bool :=
  Ascii.eqb c "+" || Ascii.eqb c "-" || is_digit c || is_quote c || Ascii.eqb c "t" || Ascii.eqb c "f" || Ascii.eqb c "[" || Ascii.eqb c "{".
Lemma starts_value_plain : forall c, starts_value c = true -> plain c = true /\ Ascii.eqb c "]" = false.
Proof. intros c. by_char c. all: intros _; split; reflexivity. Qed.
Lemma body_ends : forall v, exists c t, body v = c :: t /\ starts_value c = true /\ exists t2 d, body v = t2 ++ [d] /\ is_space d = false.
Proof.
  destruct v as [s|z|b|l|t]; cbn [body].
  - exists dquote, (esc s ++ [dquote]). repeat split. exists (dquote :: esc s), dquote. split; reflexivity.
  - destruct (show_Z_ends z) as (c & t & E & D & t2 & d & E2 & D2). exists c, t. split; [exact E|]. split.
    + unfold starts_value. apply orb_true_iff in D as [D|D]; rewrite D; now rewrite ?orb_true_r.
    + exists t2, d. split; [exact E2|]. revert D2. by_char d.
  - destruct b; eexists; eexists; (split; [reflexivity|]); split; try reflexivity; [exists (lit "tru"), "e"%char|exists (lit "fals"), "e"%char]; split; reflexivity.
  - exists "["%char. eexists. split; [reflexivity|]. split; [reflexivity|]. eexists. exists "]"%char. split; [|reflexivity]. rewrite app_assoc. reflexivity.
  - exists "{"%char. eexists. split; [reflexivity|]. split; [reflexivity|]. eexists. exists "}"%char. split; [|reflexivity]. rewrite app_assoc. reflexivity.
Qed.
Lemma strip_inline : forall v, strip_blanks (inline v) = body v.
Proof.
  intros v. rewrite inline_body. destruct (body_ends v) as (c & t & E & S & t2 & d & E2 & D).
  unfold strip_blanks. assert (F : drop_blanks (" "%char :: body v) = body v).
  { unfold drop_blanks. rewrite E. cbn [span]. change (Ascii.eqb " " " ") with true. cbv iota.
    assert (N : Ascii.eqb c " " = false) by (revert S; by_char c). rewrite N. reflexivity. }
  rewrite F. rewrite E2. rewrite rev_app_distr. cbn [rev app]. unfold drop_blanks. cbn [span].
  assert (N : Ascii.eqb d " " = false) by (revert D; by_char d). rewrite N. cbn [snd rev]. now rewrite rev_involutive.
Qed.
Lemma body_list : forall l, body (TList l) = lit "[" ++ join (lit ", ") (map body l) ++ lit "]".
Proof. intros l. cbn [body]. do 3 f_equal. apply map_ext. intros x. apply strip_inline. Qed.
Definition pair_text (e : str * tv) : str := key_part (fst e) ++ " "%char :: "="%char :: " "%char :: body (snd e).
Lemma body_tab : forall t, body (TTab t) = lit "{" ++ join (lit ", ") (map pair_text t) ++ lit "}".
Proof. intros t. cbn [body]. do 3 f_equal. apply map_ext. intros e. unfold pair_text. rewrite inline_body. reflexivity. Qed.
Definition is_int (v : tv) : bool := match v with TInt _ => true | _ => false end.
Definition follows (v : tv) (R : str) : Prop := match R with [] => is_int v = false | c :: _ => stops c = true end.
Definition reads (value : str -> res (tv * str)) (x : tv) : Prop :=
  forall R, follows x R -> value (body x ++ R) = Ok (x, R) /\ value (" "%char :: body x ++ R) = Ok (x, R).
Lemma follows_skip : forall v R, follows v R -> skip false R = Ok R.
Proof. intros v [|c R] F; [reflexivity|]. now apply stops_skip. Qed.
Lemma set_fresh : forall V k (v : V) t, ~ In k (map fst t) -> dict_set k v t = t ++ [(k, v)].
Proof.
  intros V k v t. induction t as [|[k' v'] t IH]; intros H; [reflexivity|]. cbn in H |- *.
  destruct (str_eqb k k') eqn:E; [apply str_eqb_eq in E; subst; tauto|]. rewrite IH by tauto. reflexivity.
Qed.
Lemma list_read : forall value l, Forall (reads value) l -> forall fuel acc R, length l <= fuel ->
  list_loop value fuel acc (join (lit ", ") (map body l) ++ "]"%char :: R) = Ok (acc ++ l, "]"%char :: R).
Proof.
  intros value. induction l as [|x l IH]; intros F fuel acc R L.
  - cbn [map join app]. destruct fuel; cbn [list_loop]; rewrite skip_plain by reflexivity; cbn [bind];
      rewrite (smatch_same "]"); now rewrite app_nil_r.
  - apply Forall_cons_iff in F as [Fx F]. destruct fuel as [|fuel]; [cbn in L; lia|]. cbn [length] in L.
    destruct (body_ends x) as (c & t & E & S & _). destruct (starts_value_plain c S) as [P NB].
    assert (front : forall K, skip true (body x ++ K) = Ok (body x ++ K) /\ smatch (lit "]") (body x ++ K) = None).
    { intros K. rewrite E. cbn [app]. split; [now apply skip_plain|]. apply (smatch_other "]"). now rewrite Ascii.eqb_sym. }
    destruct l as [|y l].
    + cbn [map join]. destruct (front ("]"%char :: R)) as [F1 F2]. destruct (Fx ("]"%char :: R) eq_refl) as [V _].
      remember (body x ++ "]"%char :: R) as s. destruct s as [|a s]; [rewrite E in Heqs; discriminate|]. cbn [list_loop].
      rewrite F1. cbn [bind]. rewrite F2, V. cbn [bind]. rewrite skip_plain by reflexivity. reflexivity.
    + set (K := join (lit ", ") (map body (y :: l)) ++ "]"%char :: R).
      assert (EK : join (lit ", ") (map body (x :: y :: l)) ++ "]"%char :: R = body x ++ ","%char :: " "%char :: K).
      { cbn [map join]. unfold K. rewrite <- !app_assoc. reflexivity. }
      rewrite EK. destruct (front (","%char :: " "%char :: K)) as [F1 F2]. destruct (Fx (","%char :: " "%char :: K) eq_refl) as [V _].
      remember (body x ++ ","%char :: " "%char :: K) as s. destruct s as [|a s]; [rewrite E in Heqs; discriminate|]. cbn [list_loop].
      rewrite F1. cbn [bind]. rewrite F2, V. cbn [bind]. rewrite skip_plain by reflexivity. cbn [bind].
      change (comma (","%char :: " "%char :: K)) with (Some (lit ", ", K)). cbv iota beta. unfold K.
      rewrite IH; [now rewrite <- app_assoc|exact F|cbn [length] in *; lia].
Qed.
Lemma enter_one : forall t k v, enter_data (TTab t) [KName k] v = Ok (TTab (dict_set k v t)).
Proof. reflexivity. Qed.
(** one assignment *)
Definition pair_ok (value : str -> res (tv * str)) (e : str * tv) : Prop := str_ok (fst e) /\ reads value (snd e).
Lemma assign_step : forall value inl fuel t e R, pair_ok value e -> follows (snd e) R -> ~ In (fst e) (map fst t) ->
  assign_loop value inl (S fuel) (TTab t) (pair_text e ++ R) =
  match (if inl : bool then comma R else match smatch [nl] R with Some r => Some ([nl], r) | None => None end) with
  | Some (_, s) => assign_loop value inl fuel (TTab (t ++ [e])) s
  | None => Ok (TTab (t ++ [e]), R)
  end.
Proof.
  intros value inl fuel t [k v] R [K Rd] Fo N. cbn [fst snd] in *. unfold pair_text. cbn [fst snd]. rewrite <- app_assoc. cbn [app].
  destruct (key_part_cons k) as (c & tl & E & P & NB & _). pose proof (read_key_assign k (" "%char :: body v ++ R) K) as RK.
  assert (S1 : skip true (key_part k ++ " "%char :: "="%char :: " "%char :: body v ++ R) = Ok (key_part k ++ " "%char :: "="%char :: " "%char :: body v ++ R)).
  { rewrite E. now apply skip_plain. }
  remember (key_part k ++ " "%char :: "="%char :: " "%char :: body v ++ R) as s. destruct s as [|a s]; [rewrite E in Heqs; discriminate|].
  cbn [assign_loop]. rewrite S1. cbn [bind]. assert (a = c) by (rewrite E in Heqs; cbn in Heqs; congruence). subst a. rewrite NB, RK. cbn [bind].
  unfold match_or_err. change (smatch (lit "=") ("="%char :: " "%char :: body v ++ R)) with (Some (" "%char :: body v ++ R)). cbn [bind].
  destruct (Rd R Fo) as [_ V]. rewrite V. cbn [bind]. rewrite enter_one. cbn [bind]. now rewrite set_fresh.
Qed.
Lemma pairs_read : forall value t, Forall (pair_ok value) t -> t <> [] -> forall fuel t0 R, NoDup (map fst (t0 ++ t)) -> length t <= fuel ->
  assign_loop value true fuel (TTab t0) (join (lit ", ") (map pair_text t) ++ "}"%char :: R) = Ok (TTab (t0 ++ t), "}"%char :: R).
Proof.
  intros value. induction t as [|e t IH]; [congruence|]. intros F _ fuel t0 R ND L. apply Forall_cons_iff in F as [Fe F].
  destruct fuel as [|fuel]; [cbn in L; lia|]. cbn [length] in L.
  assert (N : ~ In (fst e) (map fst t0)).
  { rewrite map_app in ND. cbn [map] in ND. apply NoDup_remove_2 in ND. intros X. apply ND. apply in_app_iff. now left. }
  destruct t as [|e2 t].
  - cbn [map join]. rewrite assign_step; [reflexivity|exact Fe|reflexivity|exact N].
  - set (K := join (lit ", ") (map pair_text (e2 :: t)) ++ "}"%char :: R).
    assert (EK : join (lit ", ") (map pair_text (e :: e2 :: t)) ++ "}"%char :: R = pair_text e ++ ","%char :: " "%char :: K).
    { cbn [map join]. unfold K. rewrite <- !app_assoc. reflexivity. }
    rewrite EK, assign_step; [|exact Fe|reflexivity|exact N].
    change (comma (","%char :: " "%char :: K)) with (Some (lit ", ", K)). cbv iota beta. unfold K.
    rewrite IH; [now rewrite <- app_assoc|exact F|discriminate| |cbn [length] in *; lia]. now rewrite <- app_assoc.
Qed.
Lemma join_length : forall A (f : A -> str) sep l, (forall x, In x l -> f x <> []) -> length l <= length (join sep (map f l)).
Proof.
  intros A f sep. induction l as [|x l IH]; intros H; [cbn; lia|]. assert (X : 1 <= length (f x)).
  { specialize (H x (or_introl eq_refl)). destruct (f x); [congruence|cbn; lia]. }
  destruct l as [|y l]; [cbn [map join length]; lia|].
  change (join sep (map f (x :: y :: l))) with (f x ++ sep ++ join sep (map f (y :: l))). rewrite !app_length.
  assert (Y : forall z, In z (y :: l) -> f z <> []) by (intros z Z; apply H; now right). specialize (IH Y). cbn [length] in *. lia.
Qed.
Lemma body_nonempty : forall v, body v <> [].
Proof. intros v E. destruct (body_ends v) as (c & t & E2 & _). congruence. Qed.
Lemma depth_list : forall l x, In x l -> depth x < depth (TList l).
Proof.
  intros l x H. change (depth x < S (fold_right (fun x m => max (depth x) m) 0 l)). revert H.
  induction l as [|y l IH]; [contradiction|]. cbn [fold_right]. intros [->|H]; [lia|]. specialize (IH H). lia.
Qed.
Lemma depth_tab : forall t e, In e t -> depth (snd e) < depth (TTab t).
Proof.
  intros l x H. change (depth (snd x) < S (fold_right (fun e m => max (depth (snd e)) m) 0 l)). revert H.
  induction l as [|y l IH]; [contradiction|]. cbn [fold_right]. intros [->|H]; [lia|]. specialize (IH H). lia.
Qed.
Definition dispatch (fuel : nat) (s : str) : res (tv * str) :=
  match s with
  | [] => read_number s
  | c :: r =>
      if Ascii.eqb c "+" || Ascii.eqb c "-" || is_digit c then read_number s
      else if is_quote c then do (t, s) <- read_string s; Ok (TStr t, s)
      else if Ascii.eqb c "t" || Ascii.eqb c "f" then read_bool s
      else if Ascii.eqb c "[" then
        do (l, s) <- list_loop (read_value fuel) (S (length r)) [] r;
        do s <- skip true s;
        do s <- match_or_err "]" s;
        do s <- skip false s;
        Ok (TList l, s)
      else if Ascii.eqb c "{" then
        do (t, s) <- read_assignments (read_value fuel) true r;
        do s <- match_or_err "}" s;
        do s <- skip false s;
        Ok (t, s)
      else Err ValueError
  end.
Lemma read_value_eq : forall fuel s, read_value (S fuel) s = do s <- skip true s; do (v, s) <- dispatch fuel s; do s <- skip false s; Ok (v, s).
Proof. reflexivity. Qed.
Lemma dispatch_reads : forall v, inline_ok v -> (forall fuel, depth v <= fuel -> forall R, follows v R -> dispatch fuel (body v ++ R) = Ok (v, R)) ->
  forall fuel, depth v < fuel -> reads (read_value fuel) v.
Proof.
  intros v OK H [|fuel] D; [lia|]. intros R FR. destruct (body_ends v) as (c & tl & E & SV & _). destruct (starts_value_plain c SV) as [P _].
  assert (S1 : skip true (body v ++ R) = Ok (body v ++ R)) by (rewrite E; now apply skip_plain).
  assert (S2 : skip true (" "%char :: body v ++ R) = Ok (body v ++ R)) by (rewrite E; now apply skip_blank).
  rewrite !read_value_eq, S1, S2. cbn [bind]. rewrite H by (auto; lia). cbn [bind]. rewrite (follows_skip v R FR). split; reflexivity.
Qed.
Theorem read_inline : forall v, inline_ok v -> forall fuel, depth v < fuel -> reads (read_value fuel) v.
Proof.
  intros v. induction v as [s|z|b|l IH|t IH] using tv_ind'; intros OK; apply dispatch_reads; auto; intros fuel D R FR.
  - inversion OK as [s' So| | | |]; subst. cbn [body]. unfold dispatch. rewrite write_str_cons at 1.
    change (Ascii.eqb dquote "+" || Ascii.eqb dquote "-" || is_digit dquote) with false. change (is_quote dquote) with true. cbv iota.
    rewrite read_string_write; [reflexivity|exact So|]. destruct R as [|c R]; [reflexivity|]. cbn in FR |- *. unfold head_not. cbn.
    destruct (Ascii.eqb dquote c) eqn:E; [|reflexivity]. apply Ascii.eqb_eq in E. subst c. discriminate.
  - destruct R as [|c R]; [discriminate|]. cbn [body]. destruct (show_Z_ends z) as (a & t & E & Da & _).
    assert (X : dispatch fuel (show_Z z ++ c :: R) = read_number (show_Z z ++ c :: R)).
    { rewrite E. cbn [app dispatch]. apply orb_true_iff in Da as [Da|Da]; rewrite Da; now rewrite ?orb_true_r. }
    rewrite X. now apply read_number_show.
  - destruct b; reflexivity.
  - inversion OK as [| | |l' Fl|]; subst. replace (body (TList l) ++ R) with ("["%char :: join (lit ", ") (map body l) ++ "]"%char :: R) by (rewrite body_list, <- !app_assoc; reflexivity).
    change (dispatch fuel ("["%char :: join (lit ", ") (map body l) ++ "]"%char :: R)) with
      (do (l, s) <- list_loop (read_value fuel) (S (length (join (lit ", ") (map body l) ++ "]"%char :: R))) [] (join (lit ", ") (map body l) ++ "]"%char :: R);
        do s <- skip true s; do s <- match_or_err "]" s; do s <- skip false s; Ok (TList l, s)).
    rewrite list_read.
    + cbn [bind app]. rewrite skip_plain by reflexivity. cbn [bind]. change (match_or_err (lit "]") ("]"%char :: R)) with (Ok R). cbn [bind].
      rewrite (follows_skip _ R FR). reflexivity.
    + apply Forall_forall. intros x Hx. rewrite Forall_forall in IH, Fl. apply IH; auto. pose proof (depth_list l x Hx). lia.
    + pose proof (join_length tv body (lit ", ") l (fun x _ => body_nonempty x)). rewrite app_length. lia.
  - inversion OK as [| | | |t' Ne ND Ft]; subst. replace (body (TTab t) ++ R) with ("{"%char :: join (lit ", ") (map pair_text t) ++ "}"%char :: R) by (rewrite body_tab, <- !app_assoc; reflexivity).
    change (dispatch fuel ("{"%char :: join (lit ", ") (map pair_text t) ++ "}"%char :: R)) with
      (do (t, s) <- read_assignments (read_value fuel) true (join (lit ", ") (map pair_text t) ++ "}"%char :: R);
        do s <- match_or_err "}" s; do s <- skip false s; Ok (t, s)).
    unfold read_assignments. rewrite pairs_read.
    + cbn [bind app]. change (smatch [nl] ("}"%char :: R)) with (@None str). cbv iota. change (match_or_err (lit "}") ("}"%char :: R)) with (Ok R). cbn [bind].
      rewrite (follows_skip _ R FR). reflexivity.
    + apply Forall_forall. intros e He. rewrite Forall_forall in IH, Ft. destruct (Ft e He) as [K1 K2]. split; [exact K1|]. apply (IH e He K2).
      pose proof (depth_tab t e He). lia.
    + exact Ne.
    + exact ND.
    + pose proof (join_length _ pair_text (lit ", ") t) as JL. rewrite app_length. assert (forall x, In x t -> pair_text x <> []) as X.
      { intros x _. unfold pair_text. destruct (key_part_cons (fst x)) as (c & tl & -> & _). discriminate. }
      specialize (JL X). lia.
Qed.
