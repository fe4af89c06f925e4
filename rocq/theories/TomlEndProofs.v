(** Reading a TOML text that ends with a line end comes to an end. *)
From Coq Require Import String Ascii List Bool NArith ZArith Arith Lia.
From Verif Require Import Base BaseFacts ParserModel ParserFacts MarkerModel MarkerProofs TomlModel TomlProofs.
Import ListNotations.
Open Scope string_scope.
Open Scope nat_scope.
Open Scope list_scope.
Open Scope bool_scope.

Definition suffix (r s : str) : Prop := exists a, s = a ++ r.
Definition closed (s : str) : Prop := s = [] \/ exists a, s = a ++ [nl].
Lemma suffix_refl : forall s, suffix s s.
Proof. intros s. now exists []. Qed.
Lemma suffix_trans : forall a b c, suffix a b -> suffix b c -> suffix a c.
Proof. intros a b c (x & ->) (y & ->). exists (y ++ x). now rewrite app_assoc. Qed.
Lemma suffix_cons : forall c r s, suffix (c :: r) s -> suffix r s.
Proof. intros c r s (a & ->). exists (a ++ [c]). now rewrite <- app_assoc. Qed.
Lemma suffix_length : forall r s, suffix r s -> length r <= length s.
Proof. intros r s (a & ->). rewrite app_length. lia. Qed.
Lemma closed_suffix : forall r s, closed s -> suffix r s -> closed r.
Proof.
  intros r s [->|(b & ->)] (a & E); [left; now destruct a, r|]. destruct r as [|c r] using rev_ind; [now left|]. right. exists r.
  rewrite app_assoc in E. apply app_inj_tail in E as [_ <-]. reflexivity.
Qed.
Lemma ws_suffix : forall s, suffix (ws s) s /\ suffix (line_ws s) s.
Proof.
  intros s. split; unfold ws, line_ws; [destruct (span is_space s) as [a b] eqn:E|destruct (span _ s) as [a b] eqn:E]; apply span_split in E as (-> & _); now exists a.
Qed.
Lemma smatch_suffix : forall sub s r, smatch sub s = Some r -> suffix r s /\ length r + length sub = length s.
Proof. intros sub s r H. apply smatch_split in H. subst s. split; [now exists sub|]. rewrite app_length. lia. Qed.
Lemma cut_suffix : forall c s a b, cut c s = Some (a, b) -> s = a ++ b.
Proof.
  intros c. induction s as [|x s IH]; intros a b; [discriminate|]. cbn [cut]. destruct (Ascii.eqb x c); [now intros [= <- <-]|].
  destruct (cut c s) as [[a' b']|]; [|discriminate]. intros [= <- <-]. now rewrite (IH a' b').
Qed.
Lemma cut_closed : forall s, closed s -> s <> [] -> cut nl s <> None.
Proof.
  intros s [->|(a & ->)] N; [congruence|]. clear N. induction a as [|c a IH]; cbn [app cut]; [discriminate|]. destruct (Ascii.eqb c nl); [discriminate|].
  destruct (cut nl (a ++ [nl])) as [[x y]|]; [discriminate|congruence].
Qed.
Lemma non_data_ends : forall fuel b s, closed s -> length s < fuel -> exists r, non_data fuel b s = Ok r /\ suffix r s.
Proof.
  induction fuel as [|fuel IH]; intros b s C L; [lia|]. cbn [non_data]. destruct s as [|c0 s0] eqn:Es; [exists []; split; [reflexivity|apply suffix_refl]|].
  rewrite <- Es in *. destruct (ws_suffix s) as [W1 W2]. set (s1 := if b then ws s else line_ws s). assert (S1 : suffix s1 s) by (unfold s1; destruct b; assumption).
  destruct s1 as [|c r] eqn:E1; [exists []; split; [reflexivity|exact S1]|]. destruct (Ascii.eqb c "#") eqn:Ec; [|exists (c :: r); split; [reflexivity|exact S1]].
  pose proof (closed_suffix _ _ C S1) as C1. pose proof (cut_closed _ C1) as K. destruct (cut nl (c :: r)) as [[a t]|] eqn:Q; [|exfalso; now apply K].
  apply cut_suffix in Q as Q2. assert (a <> []).
  { intros ->. cbn [cut] in Q. apply Ascii.eqb_eq in Ec. subst c. change (Ascii.eqb "#" nl) with false in Q. cbv iota in Q. destruct (cut nl r) as [[? ?]|]; discriminate. }
  assert (St : suffix t (c :: r)) by (exists a; exact Q2). assert (Lt : length t < length (c :: r)) by (rewrite Q2, app_length; destruct a; [congruence|cbn; lia]).
  pose proof (suffix_length _ _ S1). destruct (IH b t) as (x & Ex & Sx); [exact (closed_suffix _ _ C1 St)|lia|].
  exists x. split; [exact Ex|]. eapply suffix_trans; [exact Sx|]. eapply suffix_trans; [exact St|exact S1].
Qed.
Lemma skip_ends : forall b s, closed s -> exists r, skip b s = Ok r /\ suffix r s.
Proof. intros b s C. apply non_data_ends; [exact C|lia]. Qed.

Definition fine {A} (o : res (A * str)) (s : str) : Prop := match o with Ok (_, r) => suffix r s | Err e => e <> RecursionErr end.
Definition calm {A} (o : res A) : Prop := match o with Ok _ => True | Err e => e <> RecursionErr end.
Lemma scan_suffix : forall s b a r, scan b s = Some (a, r) -> suffix r s /\ length r < length s.
Proof.
  induction s as [|c s IH]; intros b a r; [discriminate|]. cbn [scan length]. destruct (Ascii.eqb c dquote).
  - destruct b.
    + destruct (scan false s) as [[a' r']|] eqn:E; [|discriminate]. intros [= <- <-]. destruct (IH _ _ _ E) as [[x ->] L]. split; [now exists (c :: x)|lia].
    + intros [= <- <-]. split; [now exists [c]|lia].
  - destruct (scan (Ascii.eqb c backslash) s) as [[a' r']|] eqn:E; [|discriminate]. intros [= <- <-]. destruct (IH _ _ _ E) as [[x ->] L]. split; [now exists (c :: x)|lia].
Qed.
Lemma unescape_calm : forall n s, length s <= n -> calm (unescape s).
Proof.
  induction n as [|n IH]; intros [|c s] L; cbn [length] in L; try (cbn; trivial; lia). cbn [unescape]. destruct (Ascii.eqb c backslash).
  - destruct s as [|e s]; [discriminate|]. cbn [length] in L. assert (H : calm (unescape s)) by (apply IH; lia).
    destruct (Ascii.eqb e nl); [exact H|]. destruct (numeric_escape e); [discriminate|]. destruct (unescape s); cbn [bind]; [exact Logic.I|exact H].
  - destruct (bad_in_literal c); [discriminate|]. assert (H : calm (unescape s)) by (apply IH; lia). destruct (unescape s); cbn [bind]; [exact Logic.I|exact H].
Qed.
Lemma string_ends : forall s, match read_string s with Ok (_, r) => suffix r s /\ length r < length s | Err e => e <> RecursionErr end.
Proof.
  intros s. unfold read_string. destruct (_ || _); [discriminate|]. destruct s as [|c s]; [discriminate|]. destruct (Ascii.eqb c dquote).
  - destruct (scan false s) as [[raw r]|] eqn:E; [|discriminate]. apply scan_suffix in E as [[x ->] L]. pose proof (unescape_calm _ raw (le_n _)) as U.
    destruct (unescape raw); cbn [bind]; [|exact U]. split; [now exists (c :: x)|cbn [length] in *; lia].
  - destruct (Ascii.eqb c squote); [|discriminate]. destruct (cut squote s) as [[a [|q r]]|] eqn:E; try discriminate. apply cut_suffix in E. subst s.
    split; [exists (c :: a ++ [q]); cbn; now rewrite <- app_assoc|]. cbn [length]. rewrite app_length. cbn [length]. lia.
Qed.
Lemma parts_end : forall fuel acc s, length s < fuel -> match key_parts_loop fuel acc s with Ok (_, r) => suffix r s /\ (s <> [] -> length r < length s) | Err e => e <> RecursionErr end.
Proof.
  induction fuel as [|fuel IH]; intros acc s L; [lia|]. cbn [key_parts_loop]. destruct s as [|c0 s0] eqn:Es; [split; [apply suffix_refl|congruence]|]. rewrite <- Es in *.
  assert (NE : s <> []) by (rewrite Es; discriminate). clear Es c0 s0. destruct (ws_suffix s) as [_ W]. pose proof (suffix_length _ _ W) as WL.
  assert (P : match (match line_ws s with [] => Err IndexError | c :: _ => if is_quote c then read_string (line_ws s) else if key_char c then Ok (span key_char (line_ws s)) else Err ValueError end) with
     | Ok (_, r) => suffix r s /\ length r < length s | Err e => e <> RecursionErr end).
  { destruct (line_ws s) as [|c r] eqn:E; [discriminate|]. destruct (is_quote c).
    - pose proof (string_ends (c :: r)) as H. destruct (read_string (c :: r)) as [[x y]|e]; [|exact H]. destruct H as [H1 H2]. split; [now apply (suffix_trans _ _ _ H1)|lia].
    - destruct (key_char c) eqn:K; [|discriminate]. destruct (span key_char (c :: r)) as [x y] eqn:Q. apply span_split in Q as Q2. destruct Q2 as (Q1 & _).
      assert (SY : suffix y (c :: r)) by now exists x. split; [now apply (suffix_trans _ _ _ SY)|]. cbn [span] in Q. rewrite K in Q. destruct (span key_char r) as [u w] eqn:Q3.
      injection Q as <- <-. apply span_split in Q3 as (-> & _). cbn [length] in WL. rewrite app_length in WL. lia. }
  destruct (match line_ws s with [] => _ | c :: _ => _ end) as [[part r]|e]; cbn [bind]; [|exact P]. destruct P as [P1 P2].
  destruct (smatch (lit ".") (line_ws r)) as [r2|] eqn:M; [|split; [exact P1|auto]]. apply smatch_suffix in M as [M1 M2]. destruct (ws_suffix r) as [_ W3]. pose proof (suffix_length _ _ W3).
  specialize (IH (acc ++ [part]) r2). change (length (lit ".")) with 1 in M2. assert (L2 : length r2 < fuel) by lia. specialize (IH L2).
  destruct (key_parts_loop fuel (acc ++ [part]) r2) as [[q r3]|e]; [|exact IH]. destruct IH as [I1 _]. assert (S2 : suffix r2 s) by (eapply suffix_trans; [exact M1|]; eapply suffix_trans; [exact W3|exact P1]).
  split; [now apply (suffix_trans _ _ _ I1)|]. intros _. apply suffix_length in I1. lia.
Qed.
Lemma or_err_ends : forall sub s, sub <> [] -> match match_or_err sub s with Ok r => suffix r s /\ length r < length s | Err e => e <> RecursionErr end.
Proof.
  intros sub s N. unfold match_or_err. destruct (smatch sub s) as [r|] eqn:E; [|discriminate]. apply smatch_suffix in E as [E1 E2]. split; [exact E1|]. destruct sub; [congruence|cbn in E2; lia].
Qed.
Definition key_tail (table item : bool) (parts : list str) (s : str) : res (list kpart * str) :=
  do s <- if table then match_or_err "]" s else Ok s;
  do s <- if item then match_or_err "]" (ws s) else Ok s;
  do s <- skip false s;
  Ok (map KName parts ++ (if item then [KItem] else []), s).
Lemma key_tail_ends : forall table item parts s, closed s -> fine (key_tail table item parts s) s.
Proof.
  intros table item parts s C. unfold key_tail. assert (T : match (if table then match_or_err "]" s else Ok s) with Ok r => suffix r s | Err e => e <> RecursionErr end).
  { destruct table; [|apply suffix_refl]. pose proof (or_err_ends (lit "]") s) as H. destruct (match_or_err (lit "]") s); apply H; discriminate. }
  destruct (if table then match_or_err "]" s else Ok s) as [s1|e]; cbn [bind]; [|exact T].
  assert (I : match (if item then match_or_err "]" (ws s1) else Ok s1) with Ok r => suffix r s1 | Err e => e <> RecursionErr end).
  { destruct item; [|apply suffix_refl]. pose proof (or_err_ends (lit "]") (ws s1)) as H. destruct (match_or_err (lit "]") (ws s1)); [|apply H; discriminate].
    eapply suffix_trans; [apply H; discriminate|]. apply ws_suffix. }
  destruct (if item then match_or_err "]" (ws s1) else Ok s1) as [s2|e]; cbn [bind]; [|exact I].
  assert (C2 : closed s2) by (eapply closed_suffix; [exact C|]; eapply suffix_trans; [exact I|exact T]). destruct (skip_ends false s2 C2) as (s3 & -> & S3). cbn [bind fine].
  eapply suffix_trans; [exact S3|]. eapply suffix_trans; [exact I|exact T].
Qed.
Lemma read_key_eq : forall s, read_key s =
  do s <- skip true s;
  let '(table, item, s) :=
    match smatch "[" s with
    | None => (false, false, s)
    | Some s => match smatch "[" (line_ws s) with
                | None => (true, false, line_ws s)
                | Some s => (true, true, s)
                end
    end in
  do (parts, s) <- key_parts_loop (S (length s)) [] s; key_tail table item parts s.
Proof. reflexivity. Qed.
Lemma key_ends : forall s, closed s -> match read_key s with Ok (_, r) => suffix r s /\ (skip true s <> Ok [] -> length r < length s) | Err e => e <> RecursionErr end.
Proof.
  intros s C. rewrite read_key_eq. destruct (skip_ends true s C) as (s1 & E1 & S1). rewrite E1. cbn [bind]. pose proof (suffix_length _ _ S1) as L1.
  assert (T : let '(table, item, s2) := match smatch "[" s1 with None => (false, false, s1) | Some s => match smatch "[" (line_ws s) with None => (true, false, line_ws s) | Some s => (true, true, s) end end in
     suffix s2 s1 /\ (length s2 < length s1 \/ s2 = s1)).
  { destruct (smatch "[" s1) as [a|] eqn:Ea; [|split; [apply suffix_refl|now right]]. apply smatch_suffix in Ea as [A1 A2]. change (length (lit "[")) with 1 in A2. destruct (ws_suffix a) as [_ W]. pose proof (suffix_length _ _ W).
    destruct (smatch "[" (line_ws a)) as [b|] eqn:Eb.
    - apply smatch_suffix in Eb as [B1 B2]. split; [eapply suffix_trans; [exact B1|]; eapply suffix_trans; [exact W|exact A1]|]. left. lia.
    - split; [eapply suffix_trans; [exact W|exact A1]|left; lia]. }
  destruct (match smatch "[" s1 with None => (false, false, s1) | Some s => _ end) as [[table item] s2]. destruct T as [T1 T2].
  pose proof (parts_end (S (length s2)) [] s2 (Nat.lt_succ_diag_r _)) as P. destruct (key_parts_loop (S (length s2)) [] s2) as [[parts s3]|e]; cbn [bind]; [|exact P]. destruct P as [P1 P2].
  assert (S3 : suffix s3 s) by (eapply suffix_trans; [exact P1|]; eapply suffix_trans; [exact T1|exact S1]).
  pose proof (key_tail_ends table item parts s3 (closed_suffix _ _ C S3)) as K. destruct (key_tail table item parts s3) as [[k r]|e]; [|exact K]. cbn [fine] in K.
  split; [now apply (suffix_trans _ _ _ K)|]. intros N. apply suffix_length in K. apply suffix_length in P1. apply suffix_length in T1.
  destruct T2 as [T2| ->]; [lia|]. assert (s1 <> []) by (intros ->; now apply N). specialize (P2 H). lia.
Qed.
Lemma enter_calm : forall fuel data key v, length key + depth data < fuel -> calm (enter fuel data key v).
Proof.
  induction fuel as [|fuel IH]; intros data key v L; [lia|]. cbn [enter]. destruct key as [|k rest]; [exact Logic.I|]. cbn [length] in L.
  destruct data as [s|z|b|l|t]; try discriminate.
  - assert (G : calm match rev l with [] => Err IndexError | x :: before => do x <- enter fuel x (k :: rest) v; Ok (TList (rev before ++ [x])) end).
    { destruct (rev l) as [|x before] eqn:E; [discriminate|]. assert (In x l) by (rewrite in_rev, E; now left). pose proof (depth_list l x H).
      specialize (IH x (k :: rest) v). cbn [length] in IH. assert (H1 : S (length rest) + depth x < fuel) by lia. specialize (IH H1).
      destruct (enter fuel x (k :: rest) v); cbn [bind]; [exact Logic.I|exact IH]. }
    destruct k, rest; try exact G; exact Logic.I.
  - destruct k as [n|]; [|discriminate]. destruct rest as [|k2 rest]; [exact Logic.I|]. cbv zeta.
    set (sub := match dict_get n t with Some w => w | None => match k2 with KItem => TList [] | KName _ => TTab [] end end).
    assert (Ds : depth sub <= depth (TTab t)).
    { unfold sub. destruct (dict_get n t) as [w|] eqn:G; [apply dict_get_in in G; pose proof (depth_tab t (n, w) G); cbn [snd] in *; lia|].
      assert (1 <= depth (TTab t)) by (cbn [depth]; lia). destruct k2; cbn [depth fold_right] in *; lia. }
    specialize (IH sub (k2 :: rest) v). cbn [length] in *. assert (H : S (length rest) + depth sub < fuel) by lia. specialize (IH H).
    destruct (enter fuel sub (k2 :: rest) v); cbn [bind]; [exact Logic.I|exact IH].
Qed.
Lemma comma_suffix : forall s a r, comma s = Some (a, r) -> suffix r s /\ length r < length s.
Proof.
  intros s a r. unfold comma. cbn [smatch_any]. destruct (smatch (lit ", ") s) as [x|] eqn:E.
  - intros [= <- <-]. apply smatch_suffix in E as [E1 E2]. change (length (lit ", ")) with 2 in E2. split; [exact E1|lia].
  - destruct (smatch (lit ",") s) as [x|] eqn:E2; [|discriminate]. intros [= <- <-]. apply smatch_suffix in E2 as [E1 E3]. change (length (lit ",")) with 1 in E3. split; [exact E1|lia].
Qed.
Definition good_value (value : str -> res (tv * str)) (n : nat) : Prop := forall s, closed s -> length s <= n -> fine (value s) s.
Lemma list_ends : forall value n, good_value value n -> forall fuel acc s, closed s -> length s <= n -> length s < fuel -> fine (list_loop value fuel acc s) s.
Proof.
  intros value n V. induction fuel as [|fuel IH]; intros acc s C Ln L; [lia|]. cbn [list_loop]. destruct s as [|c0 s0] eqn:Es; [apply suffix_refl|]. rewrite <- Es in *. clear Es c0 s0.
  destruct (skip_ends true s C) as (s1 & -> & S1). cbn [bind]. destruct (smatch (lit "]") s1); [exact S1|]. pose proof (suffix_length _ _ S1). pose proof (closed_suffix _ _ C S1) as C1.
  pose proof (V s1 C1 ltac:(lia)) as Q. destruct (value s1) as [[v s2]|e]; cbn [bind]; [|exact Q]. cbn [fine] in Q. pose proof (closed_suffix _ _ C1 Q) as C2. pose proof (suffix_length _ _ Q).
  destruct (skip_ends true s2 C2) as (s3 & -> & S3). cbn [bind]. pose proof (suffix_length _ _ S3). assert (S30 : suffix s3 s) by (eapply suffix_trans; [exact S3|]; eapply suffix_trans; [exact Q|exact S1]).
  destruct (comma s3) as [[a s4]|] eqn:M; [|exact S30]. apply comma_suffix in M as [M1 M2]. assert (S40 : suffix s4 s) by (eapply suffix_trans; [exact M1|exact S30]).
  specialize (IH (acc ++ [v]) s4 (closed_suffix _ _ C S40)). assert (A : length s4 <= n) by lia. assert (B : length s4 < fuel) by lia. specialize (IH A B).
  destruct (list_loop value fuel (acc ++ [v]) s4) as [[x r]|e]; [|exact IH]. cbn [fine] in *. now apply (suffix_trans _ _ _ IH).
Qed.
Lemma assign_ends : forall value n inl, good_value value n -> forall fuel data s, closed s -> length s <= n -> length s < fuel -> fine (assign_loop value inl fuel data s) s.
Proof.
  intros value n inl V. induction fuel as [|fuel IH]; intros data s C Ln L; [lia|]. cbn [assign_loop]. destruct s as [|c0 s0] eqn:Es; [apply suffix_refl|]. rewrite <- Es in *. clear Es c0 s0.
  destruct (skip_ends true s C) as (s1 & -> & S1). cbn [bind]. destruct (match s1 with [] => true | c :: _ => Ascii.eqb c "[" end); [apply suffix_refl|].
  pose proof (key_ends s C) as K. destruct (read_key s) as [[k s2]|e]; cbn [bind]; [|exact K]. destruct K as [K _].
  pose proof (or_err_ends (lit "=") s2 ltac:(discriminate)) as M. destruct (match_or_err (lit "=") s2) as [s3|e]; cbn [bind]; [|exact M]. destruct M as [M1 M2].
  assert (S3 : suffix s3 s) by (eapply suffix_trans; [exact M1|exact K]). pose proof (suffix_length _ _ K). pose proof (closed_suffix _ _ C S3) as C3.
  pose proof (V s3 C3 ltac:(lia)) as Q. destruct (value s3) as [[v s4]|e]; cbn [bind]; [|exact Q]. cbn [fine] in Q. pose proof (suffix_length _ _ Q). assert (S4 : suffix s4 s) by (eapply suffix_trans; [exact Q|exact S3]).
  pose proof (enter_calm (S (length k + depth data)) data k v (Nat.lt_succ_diag_r _)) as En. unfold enter_data.
  destruct (enter (S (length k + depth data)) data k v) as [d2|e]; cbn [bind]; [|exact En].
  assert (T : forall a s5, (if inl : bool then comma s4 else match smatch [nl] s4 with Some r => Some ([nl], r) | None => None end) = Some (a, s5) -> suffix s5 s4 /\ length s5 < length s4).
  { intros a s5. destruct inl; [apply comma_suffix|]. destruct (smatch [nl] s4) as [x|] eqn:E; [|discriminate]. intros [= <- <-]. apply smatch_suffix in E as [E1 E2]. cbn in E2. split; [exact E1|lia]. }
  destruct (if inl : bool then comma s4 else match smatch [nl] s4 with Some r => Some ([nl], r) | None => None end) as [[a s5]|]; [|exact S4].
  destruct (T a s5 eq_refl) as [T1 T2]. assert (S5 : suffix s5 s) by (eapply suffix_trans; [exact T1|exact S4]). specialize (IH d2 s5 (closed_suffix _ _ C S5)).
  assert (A : length s5 <= n) by lia. assert (B : length s5 < fuel) by lia. specialize (IH A B). destruct (assign_loop value inl fuel d2 s5) as [[x r]|e]; [|exact IH]. cbn [fine] in *. now apply (suffix_trans _ _ _ IH).
Qed.
Lemma assignments_end : forall value n inl s, good_value value n -> closed s -> length s <= n -> fine (read_assignments value inl s) s.
Proof.
  intros value n inl s V C L. unfold read_assignments. pose proof (assign_ends value n inl V (S (length s)) (TTab []) s C L (Nat.lt_succ_diag_r _)) as A.
  destruct (assign_loop value inl (S (length s)) (TTab []) s) as [[d r]|e]; cbn [bind]; [|exact A]. cbn [fine] in *. destruct (smatch [nl] r) as [r2|] eqn:E; [|exact A].
  apply smatch_suffix in E as [E _]. now apply (suffix_trans _ _ _ E).
Qed.
Lemma number_ends : forall s, fine (read_number s) s.
Proof.
  intros s. unfold read_number. assert (T : let '(neg, plus, r) := match smatch "-" s with Some r => (true, false, r) | None => match smatch "+" s with Some r => (false, true, r) | None => (false, false, s) end end in suffix r s).
  { destruct (smatch "-" s) as [a|] eqn:E; [now apply smatch_suffix in E|]. destruct (smatch "+" s) as [a|] eqn:E2; [now apply smatch_suffix in E2|apply suffix_refl]. }
  destruct (match smatch "-" s with Some r => _ | None => _ end) as [[neg plus] r]. destruct (span number_char r) as [ds r2] eqn:E. apply span_split in E as (-> & _).
  assert (S2 : suffix r2 s) by (eapply suffix_trans; [now exists ds|exact T]). destruct (match r2 with [] => true | c :: _ => _ end).
  - destruct s; [apply suffix_refl|discriminate].
  - destruct ds as [|d ds']; [destruct (neg || plus); discriminate|].
    assert (Ec : calm (eval_int neg (d :: ds'))) by (unfold eval_int; destruct (negb _); [discriminate|]; destruct (_ && _); [discriminate|exact Logic.I]).
    destruct (eval_int neg (d :: ds')); cbn [bind]; [exact S2|exact Ec].
Qed.
Lemma bool_ends : forall s, fine (read_bool s) s.
Proof.
  intros s. unfold read_bool. destruct (smatch "true" s) as [a|] eqn:E; [now apply smatch_suffix in E|]. destruct (smatch "false" s) as [a|] eqn:E2; [now apply smatch_suffix in E2|discriminate].
Qed.
Lemma tail_ends : forall c (v : tv) s s0, closed s0 -> suffix s s0 -> c <> [] -> fine (do s <- match_or_err c s; do s <- skip false s; Ok (v, s)) s0.
Proof.
  intros c v s s0 C S N. pose proof (or_err_ends c s N) as M. destruct (match_or_err c s) as [s1|e]; cbn [bind]; [|exact M]. destruct M as [M _].
  assert (S1 : suffix s1 s0) by (eapply suffix_trans; [exact M|exact S]). destruct (skip_ends false s1 (closed_suffix _ _ C S1)) as (s2 & -> & S2). cbn [bind fine]. eapply suffix_trans; [exact S2|exact S1].
Qed.
Lemma value_ends : forall fuel, good_value (read_value (S fuel)) fuel.
Proof.
  induction fuel as [|fuel IH]; intros s C L.
  - destruct s; [|cbn in L; lia]. cbn. apply suffix_refl.
  - rewrite read_value_eq. destruct (skip_ends true s C) as (s1 & -> & S1). cbn [bind]. pose proof (suffix_length _ _ S1). pose proof (closed_suffix _ _ C S1) as C1.
    assert (D : fine (dispatch (S fuel) s1) s1).
    { unfold dispatch. destruct s1 as [|c r]; [apply number_ends|]. assert (Sr : suffix r (c :: r)) by now exists [c]. pose proof (closed_suffix _ _ C1 Sr) as Cr. cbn [length] in *.
      destruct (_ || _ || _); [apply number_ends|]. destruct (is_quote c).
      - pose proof (string_ends (c :: r)) as Q. destruct (read_string (c :: r)) as [[x y]|e]; cbn [bind]; [apply Q|exact Q].
      - destruct (_ || _); [apply bool_ends|]. destruct (Ascii.eqb c "[").
        + pose proof (list_ends (read_value (S fuel)) fuel IH (S (length r)) [] r Cr ltac:(lia) (Nat.lt_succ_diag_r _)) as Q.
          destruct (list_loop (read_value (S fuel)) (S (length r)) [] r) as [[x y]|e]; cbn [bind]; [|exact Q]. cbn [fine] in Q.
          destruct (skip_ends true y (closed_suffix _ _ Cr Q)) as (y2 & -> & Y2). cbn [bind]. apply tail_ends; [exact C1| |discriminate]. eapply suffix_trans; [exact Y2|]. eapply suffix_trans; [exact Q|exact Sr].
        + destruct (Ascii.eqb c "{"); [|discriminate]. pose proof (assignments_end (read_value (S fuel)) fuel true r IH Cr ltac:(lia)) as Q.
          destruct (read_assignments (read_value (S fuel)) true r) as [[x y]|e]; cbn [bind]; [|exact Q]. cbn [fine] in Q. apply tail_ends; [exact C1| |discriminate]. eapply suffix_trans; [exact Q|exact Sr]. }
    destruct (dispatch (S fuel) s1) as [[v s2]|e]; cbn [bind]; [|exact D]. cbn [fine] in D. destruct (skip_ends false s2 (closed_suffix _ _ C1 D)) as (s3 & -> & S3). cbn [bind fine].
    eapply suffix_trans; [exact S3|]. eapply suffix_trans; [exact D|exact S1].
Qed.
Lemma table_ends : forall s s1, closed s -> skip true s = Ok s1 -> s1 <> [] -> match read_table s with Ok (_, r) => suffix r s /\ length r < length s | Err e => e <> RecursionErr end.
Proof.
  intros s s1 C E N. unfold read_table. rewrite E. cbn [bind]. destruct (skip_ends true s C) as (s' & E' & S1). assert (s' = s1) by congruence. subst s'.
  pose proof (closed_suffix _ _ C S1) as C1. pose proof (key_ends s1 C1) as K. destruct (read_key s1) as [[k s2]|e]; cbn [bind]; [|exact K]. destruct K as [K1 K2].
  assert (N1 : skip true s1 <> Ok []).
  { intros X. assert (Y : exists c r, s1 = c :: r /\ plain c = true).
    { unfold skip in E. clear - E N. revert E. generalize (S (length s)). intros n. revert s. induction n as [|n IH]; intros s E.
      - destruct s as [|c0 s0]; cbn [non_data] in E; [injection E as <-; congruence|]. destruct (ws (c0 :: s0)) as [|c r] eqn:W; [injection E as <-; congruence|].
        destruct (Ascii.eqb c "#") eqn:Q; [discriminate|]. injection E as <-. exists c, r. split; [reflexivity|]. unfold plain. rewrite Q.
        unfold ws in W. destruct (span is_space (c0 :: s0)) as [a b] eqn:Sp. apply span_split in Sp as (_ & _ & H). cbn [snd] in W. subst b. unfold head_not in H. cbn in H. now rewrite H.
      - destruct s as [|c0 s0]; cbn [non_data] in E; [injection E as <-; congruence|]. destruct (ws (c0 :: s0)) as [|c r] eqn:W; [injection E as <-; congruence|].
        destruct (Ascii.eqb c "#") eqn:Q; [eapply IH; exact E|]. injection E as <-. exists c, r. split; [reflexivity|]. unfold plain. rewrite Q.
        unfold ws in W. destruct (span is_space (c0 :: s0)) as [a b] eqn:Sp. apply span_split in Sp as (_ & _ & H). cbn [snd] in W. subst b. unfold head_not in H. cbn in H. now rewrite H. }
    destruct Y as (c & r & -> & P). rewrite (skip_plain true c r P) in X. discriminate. }
  specialize (K2 N1). apply suffix_length in S1 as L1. assert (S2 : suffix s2 s) by (eapply suffix_trans; [exact K1|exact S1]).
  destruct s2 as [|c s2'] eqn:Es2; [split; [exact S2|cbn [length] in *; lia]|]. rewrite <- Es2 in *.
  pose proof (or_err_ends [nl] s2 ltac:(discriminate)) as M. destruct (match_or_err [nl] s2) as [s3|e]; cbn [bind]; [|exact M]. destruct M as [M1 M2].
  assert (S3 : suffix s3 s) by (eapply suffix_trans; [exact M1|exact S2]).
  pose proof (assignments_end (read_value (S (length s3))) (length s3) false s3 (value_ends (length s3)) (closed_suffix _ _ C S3) (le_n _)) as A.
  destruct (read_assignments (read_value (S (length s3))) false s3) as [[d s4]|e]; cbn [bind]; [|exact A]. cbn [fine] in A. apply suffix_length in A as LA. split; [eapply suffix_trans; [exact A|exact S3]|lia].
Qed.
Lemma tables_end : forall fuel data s, closed s -> length s < fuel -> calm (tables_loop fuel data s).
Proof.
  induction fuel as [|fuel IH]; intros data s C L; [lia|]. cbn [tables_loop]. destruct s as [|c0 s0] eqn:Es; [exact Logic.I|]. rewrite <- Es in *. clear Es c0 s0.
  destruct (skip_ends true s C) as (s1 & E & S1). rewrite E. cbn [bind]. destruct s1 as [|c r] eqn:Es; [exact Logic.I|]. rewrite <- Es in *.
  assert (N : s1 <> []) by (rewrite Es; discriminate). pose proof (table_ends s s1 C E N) as T. destruct (read_table s) as [[[k v] s2]|e]; cbn [bind]; [|exact T]. destruct T as [T1 T2].
  pose proof (enter_calm (S (length k + depth data)) data k v (Nat.lt_succ_diag_r _)) as En. unfold enter_data. destruct (enter (S (length k + depth data)) data k v) as [d2|e]; cbn [bind]; [|exact En].
  apply IH; [exact (closed_suffix _ _ C T1)|lia].
Qed.
Theorem loads_ends : forall s, closed s -> loads s <> Err RecursionErr.
Proof.
  intros s C. unfold loads. destruct (skip_ends true s C) as (s1 & -> & S1). cbn [bind]. pose proof (closed_suffix _ _ C S1) as C1.
  pose proof (assignments_end (read_value (S (length s1))) (length s1) false s1 (value_ends (length s1)) C1 (le_n _)) as A.
  destruct (read_assignments (read_value (S (length s1))) false s1) as [[d s2]|e]; cbn [bind]; [|cbn [fine] in A; congruence]. cbn [fine] in A.
  pose proof (tables_end (S (length s2)) d s2 (closed_suffix _ _ C1 A) (Nat.lt_succ_diag_r _)) as T. intros E. rewrite E in T. now apply T.
Qed.

(** * What is evaluated *)
(** the inside of a python string literal in double quotes *)
Inductive literal_inside : str -> Prop :=
| inside_nil : literal_inside []
| inside_char : forall c s, c <> backslash -> c <> dquote -> literal_inside s -> literal_inside (c :: s)
| inside_escape : forall c s, literal_inside s -> literal_inside (backslash :: c :: s).
Definition string_literal (t : str) : Prop := exists inside, t = dquote :: inside ++ [dquote] /\ literal_inside inside.
Lemma literal_app : forall a b, literal_inside a -> literal_inside b -> literal_inside (a ++ b).
Proof. intros a b A B. induction A; [exact B|now apply inside_char|now apply inside_escape]. Qed.
Lemma scan_literal : forall s raw r, (scan false s = Some (raw, r) -> (forall a b, raw <> a ++ [backslash; backslash] ++ b) -> literal_inside raw)
  /\ (scan true s = Some (raw, r) -> (forall a b, backslash :: raw <> a ++ [backslash; backslash] ++ b) -> literal_inside (backslash :: raw)).
Proof.
  induction s as [|c s IH]; intros raw r; [split; discriminate|]. cbn [scan]. destruct (Ascii.eqb c dquote) eqn:E.
  - apply Ascii.eqb_eq in E. subst c. split.
    + intros [= <- <-] _. constructor.
    + destruct (scan false s) as [[a b]|] eqn:Q; [|discriminate]. intros [= <- <-] N. destruct (IH a b) as [I _]. apply inside_escape. apply I; [reflexivity|].
      intros x y ->. apply (N (backslash :: dquote :: x) y). reflexivity.
  - split.
    + destruct (scan (Ascii.eqb c backslash) s) as [[a b]|] eqn:Q; [|discriminate]. intros [= <- <-] N. destruct (IH a b) as [I1 I2].
      destruct (Ascii.eqb c backslash) eqn:B.
      * apply Ascii.eqb_eq in B. subst c. now apply I2.
      * constructor; [intros ->; discriminate|intros ->; discriminate|]. apply I1; [exact Q|]. intros x y ->. apply (N (c :: x) y). reflexivity.
    + destruct (scan (Ascii.eqb c backslash) s) as [[a b]|] eqn:Q; [|discriminate]. intros [= <- <-] N. destruct (IH a b) as [I1 I2].
      destruct (Ascii.eqb c backslash) eqn:B.
      * apply Ascii.eqb_eq in B. subst c. exfalso. apply (N [] a). reflexivity.
      * apply inside_escape. apply I1; [exact Q|]. intros x y ->. apply (N (backslash :: c :: x) y). reflexivity.
Qed.
Lemma evaluated_literal : forall s t, evaluated s = Some t -> (forall a b, t <> a ++ [backslash; backslash] ++ b) -> string_literal t.
Proof.
  intros [|c s] t; [discriminate|]. cbn [evaluated]. destruct (Ascii.eqb c dquote) eqn:E; [|discriminate]. destruct (scan false s) as [[raw r]|] eqn:Q; [|discriminate].
  intros [= <-] N. exists raw. split; [reflexivity|]. apply (scan_literal s raw r); [exact Q|]. intros a b ->. apply (N (dquote :: a) (b ++ [dquote])). cbn. now rewrite <- app_assoc.
Qed.
(** no literal has a quote inside that is not escaped *)
Lemma literal_quote : forall s, literal_inside s -> forall a b, s = a ++ [backslash; backslash; dquote] ++ b -> literal_inside a -> False.
Proof.
  intros s L. assert (G : forall a, literal_inside a -> forall s b, literal_inside s -> s = a ++ [backslash; backslash; dquote] ++ b -> False).
  { intros a A. induction A as [|c a N1 N2 A IH|c a A IH]; intros s' b L' E.
    - subst s'. inversion L' as [|? ? X|? ? X]; subst; [congruence|]. inversion X; subst; congruence.
    - subst s'. inversion L' as [|? ? Y1 Y2 X|? ? X]; subst; [|congruence]. now apply (IH _ b X).
    - subst s'. inversion L' as [|? ? Y1 Y2 X|? ? X]; subst; [congruence|]. now apply (IH _ b X). }
  intros a b E A. exact (G a A s b L E).
Qed.
