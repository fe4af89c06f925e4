From Coq Require Import String Ascii List Bool NArith Arith Lia Permutation.
From Verif Require Import Base BaseFacts ParserModel ParserFacts PthModel PthProofs RecordFileModel RecordFileProofs ProjectModel IniModel.
Import ListNotations.
Open Scope string_scope.
Open Scope nat_scope.
Open Scope list_scope.
Open Scope bool_scope.

(** * Blanks at the ends *)
Definition tight (s : str) : Prop := strip_ws s = s.
Lemma rstrip_snoc : forall s c, rstrip_ws (s ++ [c]) = if is_space c then rstrip_ws s else s ++ [c].
Proof.
  intros s c. unfold rstrip_ws. rewrite rev_unit. cbn [lstrip_ws]. destruct (is_space c); [reflexivity|].
  cbn [rev]. rewrite rev_involutive. reflexivity.
Qed.
Lemma tight_head : forall c r, tight (c :: r) -> is_space c = false.
Proof.
  intros c r T. destruct (strip_sides _ T) as [L _]. destruct (lstrip_head _ L) as [X|(d & q & E & S)]; [discriminate|].
  congruence.
Qed.
Lemma tight_last : forall s c, tight (s ++ [c]) -> is_space c = false.
Proof.
  intros s c T. destruct (strip_sides _ T) as [_ R]. rewrite rstrip_snoc in R. destruct (is_space c); [|reflexivity].
  exfalso. apply (f_equal (@length ascii)) in R. unfold rstrip_ws in R. rewrite rev_length, app_length in R. pose proof (lstrip_shorter (rev s)) as L.
  rewrite rev_length in L. cbn in R. lia.
Qed.
Lemma lstrip_nonblank : forall c r, is_space c = false -> lstrip_ws (c :: r) = c :: r.
Proof. intros c r S. cbn [lstrip_ws]. rewrite S. reflexivity. Qed.
Lemma strip_rl : forall s, strip_ws s = rstrip_ws (lstrip_ws s).
Proof. reflexivity. Qed.
Lemma tight_ends : forall c m d, is_space c = false -> is_space d = false -> tight (c :: m ++ [d]).
Proof.
  intros c m d C D. unfold tight. rewrite strip_rl, lstrip_nonblank by exact C. change (c :: m ++ [d]) with ((c :: m) ++ [d]).
  rewrite rstrip_snoc, D. reflexivity.
Qed.
Lemma tight_one : forall c, is_space c = false -> tight [c].
Proof. intros c C. unfold tight. rewrite strip_rl, lstrip_nonblank by exact C. change [c] with ([] ++ [c]). rewrite rstrip_snoc, C. reflexivity. Qed.
(** the last sign of a text *)
Lemma last_sign : forall s : str, s <> [] -> exists m d, s = m ++ [d].
Proof. intros s N. destruct (exists_last N) as (m & d & ->). eauto. Qed.
Lemma tight_outer : forall s m t, s <> [] -> t <> [] -> tight s -> tight t -> tight (s ++ m ++ t).
Proof.
  intros s m t S T A B. destruct s as [|c s]; [congruence|]. destruct (last_sign t T) as (q & d & ->).
  cbn [app]. replace (s ++ m ++ q ++ [d]) with ((s ++ m ++ q) ++ [d]) by (rewrite <- !app_assoc; reflexivity).
  apply tight_ends; [exact (tight_head _ _ A)|exact (tight_last _ _ B)].
Qed.
(** every text that is stripped is tight *)
Lemma lstrip_idem : forall s, lstrip_ws (lstrip_ws s) = lstrip_ws s.
Proof. induction s as [|c s IH]; [reflexivity|]. cbn [lstrip_ws]. destruct (is_space c) eqn:E; [exact IH|]. cbn [lstrip_ws]. rewrite E. reflexivity. Qed.
Lemma rstrip_idem : forall s, rstrip_ws (rstrip_ws s) = rstrip_ws s.
Proof. intro s. unfold rstrip_ws. rewrite rev_involutive, lstrip_idem. reflexivity. Qed.
Lemma rstrip_head : forall c r, is_space c = false -> exists q, rstrip_ws (c :: r) = c :: q.
Proof.
  intros c r C. induction r as [|d r IH] using rev_ind.
  - exists []. change [c] with ([] ++ [c]). rewrite rstrip_snoc, C. reflexivity.
  - change (c :: r ++ [d]) with ((c :: r) ++ [d]). rewrite rstrip_snoc. destruct (is_space d); [exact IH|]. exists (r ++ [d]). reflexivity.
Qed.
Lemma lstrip_cases : forall s, lstrip_ws s = [] \/ exists c r, lstrip_ws s = c :: r /\ is_space c = false.
Proof. induction s as [|c s IH]; [left; reflexivity|]. cbn [lstrip_ws]. destruct (is_space c) eqn:E; [exact IH|]. right. eauto. Qed.
Lemma strip_tight : forall s, tight (strip_ws s).
Proof.
  intro s. unfold tight. rewrite !strip_rl. destruct (lstrip_cases s) as [->|(c & r & -> & C)]; [reflexivity|].
  destruct (rstrip_head c r C) as [q E]. rewrite E, lstrip_nonblank by exact C. rewrite <- E. apply rstrip_idem.
Qed.
Lemma lstrip_incl : forall s c, In c (lstrip_ws s) -> In c s.
Proof. induction s as [|d s IH]; [auto|]. intros c H. cbn [lstrip_ws] in H. destruct (is_space d); [right; apply IH, H|exact H]. Qed.
Lemma rstrip_incl : forall s c, In c (rstrip_ws s) -> In c s.
Proof. intros s c H. unfold rstrip_ws in H. apply in_rev, lstrip_incl, in_rev in H. exact H. Qed.
Lemma strip_incl : forall s c, In c (strip_ws s) -> In c s.
Proof. intros s c H. rewrite strip_rl in H. apply lstrip_incl, rstrip_incl, H. Qed.

(** * Texts without a percent sign *)
Definition plain (s : str) : Prop := ~ In "%"%char s.
Lemma plain_none : forall s, plain s -> has_percent s = false.
Proof.
  intros s P. unfold has_percent. destruct (existsb (Ascii.eqb "%") s) eqn:E; [|reflexivity]. apply existsb_exists in E as (c & C & E).
  apply Ascii.eqb_eq in E. subst c. contradiction.
Qed.
Lemma plain_cons : forall c s, plain (c :: s) -> Ascii.eqb c "%" = false /\ plain s.
Proof.
  intros c s P. split; [|intro H; apply P; right; exact H]. destruct (Ascii.eqb c "%") eqn:E; [|reflexivity]. apply Ascii.eqb_eq in E. subst. exfalso. apply P. left. reflexivity.
Qed.
Lemma escaped_plain : forall s, plain s -> drop_escaped s = s.
Proof.
  induction s as [|c s IH]; intro P; [reflexivity|]. destruct (plain_cons _ _ P) as [E Q]. cbn [drop_escaped]. destruct s as [|d s]; [reflexivity|].
  rewrite E. cbn [andb]. rewrite IH by exact Q. reflexivity.
Qed.
Lemma references_plain : forall fuel s, plain s -> drop_references fuel s = s.
Proof.
  induction fuel as [|fuel IH]; intros s P; [destruct s; reflexivity|]. destruct s as [|c s]; [reflexivity|]. destruct (plain_cons _ _ P) as [E Q].
  cbn [drop_references]. assert (R : reference (c :: s) = None) by (unfold reference; destruct s; [reflexivity|]; rewrite E; reflexivity).
  rewrite R, IH by exact Q. reflexivity.
Qed.
Lemma settable_plain : forall s, plain s -> settable s = true.
Proof. intros s P. unfold settable. rewrite escaped_plain, references_plain, plain_none by exact P. reflexivity. Qed.
Lemma span_plain : forall s, plain s -> span not_percent s = (s, []).
Proof.
  intros s P. rewrite <- (app_nil_r s) at 1. apply span_app; [|reflexivity]. apply forallb_forall. intros c C. unfold not_percent.
  destruct (Ascii.eqb c "%") eqn:E; [|reflexivity]. apply Ascii.eqb_eq in E. subst. contradiction.
Qed.
Lemma expand_plain : forall look s, plain s -> expand look max_depth s = Ok s.
Proof. intros look s P. unfold max_depth. cbn [expand expand_loop]. rewrite span_plain by exact P. reflexivity. Qed.

(** * What can be written and read *)
Definition good_key (k : str) : Prop :=
  k <> [] /\ one_line k /\ forallb not_delimiter k = true /\ tight k /\ is_comment k = false.
Definition good_value (v : str) : Prop :=
  ~ In CR v /\ plain v /\ rstrip_ws v = v /\ Forall tight (split_on LF v) /\ Forall (fun l => is_comment l = false) (tl (split_on LF v)).
(** the first line of the option is not taken for a header *)
Definition not_header (k v : str) : Prop :=
  match k with c :: r => c = "["%char -> ~ In "]"%char (tl r) /\ ~ In "]"%char (hd [] (split_on LF v)) | [] => True end.
Definition good_option (kv : str * str) : Prop := good_key (fst kv) /\ good_value (snd kv) /\ not_header (fst kv) (snd kv).
Definition good_name (n : str) : Prop := n <> [] /\ one_line n /\ n <> default_section.
Definition texts (d : data) : list (str * str) := flat_map (fun e => match snd e with Text v => [(fst e, v)] | Section_ _ => [] end) d.
Definition sects (d : data) : list (str * list (str * str)) := flat_map (fun e => match snd e with Text _ => [] | Section_ kvs => [(fst e, kvs)] end) d.
Definition good_options (kvs : list (str * str)) : Prop := NoDup (map fst kvs) /\ Forall good_option kvs.
Record normal (d : data) : Prop := {
  n_keys : NoDup (map fst d);
  n_texts : Forall good_option (texts d);
  n_sects : Forall (fun s => good_name (fst s) /\ good_options (snd s) /\ incl (map fst (texts d)) (map fst (snd s))) (sects d) }.

(** * Writing *)
Lemma dict_set_fresh : forall V k (v : V) d, ~ In k (map fst d) -> dict_set k v d = d ++ [(k, v)].
Proof.
  intros V k v d. induction d as [|[k' v'] d IH]; intro N; [reflexivity|]. cbn [dict_set]. destruct (str_eqb k k') eqn:E.
  - apply str_eqb_eq in E. exfalso. apply N. left. symmetry. exact E.
  - rewrite IH by (intro H; apply N; right; exact H). reflexivity.
Qed.
Lemma dict_set_at_end : forall V k (v w : V) d, ~ In k (map fst d) -> dict_set k v (d ++ [(k, w)]) = d ++ [(k, v)].
Proof.
  intros V k v w d. induction d as [|[k' v'] d IH]; intro N.
  - cbn. rewrite str_eqb_refl. reflexivity.
  - cbn [app dict_set]. destruct (str_eqb k k') eqn:E.
    + apply str_eqb_eq in E. exfalso. apply N. left. symmetry. exact E.
    + rewrite IH by (intro H; apply N; right; exact H). reflexivity.
Qed.
Lemma dict_get_at_end : forall V k (w : V) d, ~ In k (map fst d) -> dict_get k (d ++ [(k, w)]) = Some w.
Proof.
  intros V k w d. induction d as [|[k' v'] d IH]; intro N.
  - cbn. rewrite str_eqb_refl. reflexivity.
  - cbn [app dict_get]. destruct (str_eqb k k') eqn:E.
    + apply str_eqb_eq in E. exfalso. apply N. left. symmetry. exact E.
    + apply IH. intro H. apply N. right. exact H.
Qed.
Lemma not_in_snoc : forall V (k : str) (d : list (str * V)) e, ~ In k (map fst d) -> k <> fst e -> ~ In k (map fst (d ++ [e])).
Proof. intros V k d e N M H. rewrite map_app in H. apply in_app_or in H as [H|[H|[]]]; [contradiction|]. cbn in H. congruence. Qed.
Lemma value_test : forall v, plain v -> (match v with [] => true | _ => settable v end) = true.
Proof. intros [|c v] P; [reflexivity|]. apply settable_plain, P. Qed.
Lemma set_all_spec : forall name kvs D S acc, name <> [] -> ~ In name (map fst S) -> Forall good_option kvs ->
  NoDup (map fst acc ++ map fst kvs) ->
  set_all name kvs (Parser D (S ++ [(name, acc)])) = Ok (Parser D (S ++ [(name, acc ++ kvs)])).
Proof.
  intros name kvs. induction kvs as [|[k v] kvs IH]; intros D S acc N F G ND; cbn [set_all].
  - rewrite app_nil_r. reflexivity.
  - inversion G as [|? ? (_ & (_ & P & _) & _) G2]; subst. cbn [snd] in P. unfold set_option. rewrite value_test by exact P.
    destruct name as [|n0 name]; [congruence|]. cbn [p_sections p_defaults]. rewrite dict_get_at_end by exact F. cbn [bind].
    cbn [map fst] in ND. assert (NA : ~ In k (map fst acc)).
    { intro H. apply NoDup_remove_2 in ND. apply ND, in_or_app. left. exact H. }
    rewrite dict_set_at_end by exact F. rewrite dict_set_fresh by exact NA. rewrite IH; try assumption.
    + rewrite <- app_assoc. reflexivity.
    + rewrite map_app. cbn [map fst]. rewrite <- app_assoc. exact ND.
Qed.
Lemma fill_spec : forall d D S, Forall good_option (texts d) ->
  Forall (fun s => good_name (fst s) /\ good_options (snd s)) (sects d) ->
  NoDup (map fst D ++ map fst (texts d)) -> NoDup (map fst S ++ map fst (sects d)) ->
  fill d (Parser D S) = Ok (Parser (D ++ texts d) (S ++ sects d)).
Proof.
  induction d as [|[k [v|kvs]] d IH]; intros D S GT GS ND NS; cbn [fill].
  - cbn. rewrite !app_nil_r. reflexivity.
  - cbn [texts sects flat_map snd fst app] in *. fold (texts d) in *. fold (sects d) in *. inversion GT as [|? ? (_ & (_ & P & _) & _) GT2]; subst.
    cbn [snd] in P. unfold set_option. rewrite value_test by exact P. cbn [bind p_defaults p_sections].
    cbn [map fst] in ND. assert (NA : ~ In k (map fst D)) by (intro H; apply NoDup_remove_2 in ND; apply ND, in_or_app; left; exact H).
    rewrite dict_set_fresh by exact NA. rewrite IH; try assumption; [rewrite <- app_assoc; reflexivity|].
    rewrite map_app. cbn [map fst]. rewrite <- app_assoc. exact ND.
  - cbn [texts sects flat_map snd fst app] in *. fold (texts d) in *. fold (sects d) in *. inversion GS as [|? ? [(N1 & N2 & N3) [G1 G2]] GS2]; subst.
    cbn [fst snd map] in *. unfold add_section. destruct (str_eqb k default_section) eqn:E; [apply str_eqb_eq in E; contradiction|].
    assert (NA : ~ In k (map fst S)) by (intro H; apply NoDup_remove_2 in NS; apply NS, in_or_app; left; exact H).
    cbn [p_defaults p_sections]. unfold dict_has. rewrite (proj2 (dict_get_none _ k S) NA). cbn [is_some bind]. rewrite dict_set_fresh by exact NA.
    change (is_some (@None (list (str * str)))) with false. cbn iota. cbn [bind]. rewrite set_all_spec by assumption. cbn [bind app]. rewrite IH; try assumption; [rewrite <- app_assoc; reflexivity|].
    rewrite map_app. cbn [map fst]. rewrite <- app_assoc. exact NS.
Qed.

(** * The lines of a written file *)
Definition option_lines (kv : str * str) : list str :=
  match split_on LF (snd kv) with
  | l :: ls => (fst kv ++ lit " = " ++ l) :: map (cons tab) ls
  | [] => []
  end.
Definition section_lines (s : str * list (str * str)) : list str :=
  (lit "[" ++ fst s ++ lit "]") :: flat_map option_lines (snd s) ++ [[]].
Definition closed (l : list str) : str := concat (map (fun l => l ++ [LF]) l).
Lemma closed_app : forall a b, closed (a ++ b) = closed a ++ closed b.
Proof. intros. unfold closed. rewrite map_app, concat_app. reflexivity. Qed.
Lemma indent_spec : forall v, indent_lines v ++ [LF] = match split_on LF v with l :: ls => closed (l :: map (cons tab) ls) | [] => [] end.
Proof.
  induction v as [|c v IH]; [reflexivity|]. cbn [indent_lines flat_map split_on]. fold (indent_lines v).
  destruct (Ascii.eqb c LF) eqn:E.
  - cbn [app]. rewrite IH. pose proof (split_on_nonempty LF v) as N. destruct (split_on LF v) as [|l ls]; [contradiction|]. reflexivity.
  - cbn [app]. rewrite IH. pose proof (split_on_nonempty LF v) as N. destruct (split_on LF v) as [|l ls]; [contradiction|]. reflexivity.
Qed.
Lemma option_text_lines : forall kv, option_text kv = closed (option_lines kv).
Proof.
  intros [k v]. unfold option_text, option_lines. cbn [fst snd]. pose proof (indent_spec v) as I. pose proof (split_on_nonempty LF v) as N.
  destruct (split_on LF v) as [|l ls]; [contradiction|]. rewrite I. unfold closed. cbn [map concat]. rewrite <- !app_assoc. reflexivity.
Qed.
Lemma section_text_lines : forall s, section_text s = closed (section_lines s).
Proof.
  intros [n kvs]. unfold section_text, section_lines. cbn [fst snd]. change (?a :: ?b) with ([a] ++ b). rewrite !closed_app.
  unfold closed at 1. cbn [map concat]. rewrite <- !app_assoc. cbn [app].
  assert (X : concat (map option_text kvs) = closed (flat_map option_lines kvs)).
  { induction kvs as [|kv kvs IH]; [reflexivity|]. cbn [map concat flat_map]. rewrite closed_app, option_text_lines, IH. reflexivity. }
  rewrite X. reflexivity.
Qed.
Definition all_sections (p : parser) : list (str * list (str * str)) :=
  match p_defaults p with [] => [] | kvs => [(default_section, kvs)] end ++ p_sections p.
Lemma parser_text_lines : forall p, parser_text p = closed (flat_map section_lines (all_sections p)).
Proof.
  intros [D S]. unfold parser_text, all_sections. cbn [p_defaults p_sections]. rewrite flat_map_app, closed_app. f_equal.
  - destruct D as [|kv D]; [reflexivity|]. rewrite section_text_lines. cbn [flat_map]. rewrite app_nil_r. reflexivity.
  - induction S as [|s S IH]; [reflexivity|]. cbn [map concat flat_map]. rewrite closed_app, section_text_lines, IH. reflexivity.
Qed.
Lemma one_line_app : forall a b, one_line a -> one_line b -> one_line (a ++ b).
Proof. intros a b [A1 A2] [B1 B2]. split; intro H; apply in_app_or in H as [H|H]; contradiction. Qed.
Lemma split_incl : forall c s w x, In w (split_on c s) -> In x w -> In x s.
Proof.
  intros c s. induction s as [|y s IH]; cbn [split_on]; intros w x H X.
  - destruct H as [<-|[]]. contradiction.
  - destruct (Ascii.eqb y c).
    + destruct H as [<-|H]; [contradiction|]. right. exact (IH w x H X).
    + pose proof (split_on_nonempty c s) as N. destruct (split_on c s) as [|l ls]; [contradiction|]. destruct H as [<-|H].
      * destruct X as [->|X]; [left; reflexivity|]. right. apply (IH l x); [left; reflexivity|exact X].
      * right. apply (IH w x); [right; exact H|exact X].
Qed.
Lemma value_line : forall v l, ~ In CR v -> In l (split_on LF v) -> one_line l.
Proof. intros v l C H. split; [exact (split_on_no_char _ _ _ H)|]. intro X. apply C. exact (split_incl _ _ _ _ H X). Qed.
Lemma tab_line : forall l, one_line l -> one_line (tab :: l).
Proof. intros l [A B]. split; intros [H|H]; try contradiction; discriminate H. Qed.
Lemma option_lines_ok : forall kv, good_option kv -> Forall one_line (option_lines kv).
Proof.
  intros [k v] ((_ & K & _) & (C & _) & _). unfold option_lines. cbn [fst snd] in *. pose proof (value_line v) as V.
  destruct (split_on LF v) as [|l ls] eqn:E; constructor.
  - apply one_line_app; [exact K|]. apply one_line_app; [split; intro H; cbn in H; repeat (destruct H as [H|H]; [discriminate H|]); exact H|].
    apply V; [exact C|left; reflexivity].
  - apply Forall_forall. intros x X. apply in_map_iff in X as (y & <- & Y). apply tab_line, V; [exact C|right; exact Y].
Qed.
Lemma section_lines_ok : forall s, one_line (fst s) -> Forall good_option (snd s) -> Forall one_line (section_lines s).
Proof.
  intros [n kvs] N G. unfold section_lines. cbn [fst snd] in *. constructor.
  - apply one_line_app; [split; intros [H|[]]; discriminate H|]. apply one_line_app; [exact N|split; intros [H|[]]; discriminate H].
  - apply Forall_app. split; [|constructor; [split; intros []|constructor]]. apply Forall_flat_map. apply Forall_forall. intros kv H.
    apply option_lines_ok. exact (proj1 (Forall_forall _ _) G kv H).
Qed.
Lemma lines_of_closed : forall l, Forall one_line l -> IniModel.file_lines (closed l) = l.
Proof.
  intros l H. unfold IniModel.file_lines, closed. rewrite (PthProofs.file_lines l H). unfold drop_last_empty. rewrite rev_unit. apply rev_involutive.
Qed.

(** * Reading an option *)
Lemma not_comment_cons : forall c r s, is_comment (c :: r) = false -> is_comment ((c :: r) ++ s) = false.
Proof. intros. exact H. Qed.
Lemma is_comment_head : forall c r s, is_comment (c :: r) = is_comment (c :: s).
Proof. reflexivity. Qed.
Lemma header_none : forall c r, (c = "["%char -> ~ In "]"%char (tl r)) -> header (c :: r) = None.
Proof.
  intros c r H. unfold header. destruct (Ascii.eqb c "[") eqn:E; [|reflexivity]. apply Ascii.eqb_eq in E. specialize (H E).
  destruct r as [|d r]; [reflexivity|]. cbn [tl rev] in *.
  assert (S : span (fun c => negb (Ascii.eqb c "]")) (rev r ++ [d]) = if Ascii.eqb d "]" then (rev r, [d]) else (rev r ++ [d], [])).
  { assert (F : forallb (fun c => negb (Ascii.eqb c "]")) (rev r) = true).
    { apply forallb_forall. intros x X. apply in_rev in X. destruct (Ascii.eqb x "]") eqn:Q; [|reflexivity]. apply Ascii.eqb_eq in Q. subst. contradiction. }
    destruct (Ascii.eqb d "]") eqn:Q.
    - apply span_app; [exact F|]. unfold head_not. cbn. rewrite Q. reflexivity.
    - rewrite <- (app_nil_r (rev r ++ [d])) at 1. apply span_app; [|reflexivity]. rewrite forallb_app, F. cbn. rewrite Q. reflexivity. }
  rewrite S. destruct (Ascii.eqb d "]"); reflexivity.
Qed.
Lemma header_name : forall n, n <> [] -> header (lit "[" ++ n ++ lit "]") = Some n.
Proof.
  intros n N. cbn [app lit]. change (lit "[") with ["["%char]. cbn [app]. unfold header. rewrite Ascii.eqb_refl. rewrite rev_app_distr. cbn [rev app lit].
  change (lit "]") with ["]"%char]. cbn [rev app span]. rewrite Ascii.eqb_refl. cbn [negb snd]. destruct (rev n) eqn:E.
  - apply (f_equal (@rev ascii)) in E. rewrite rev_involutive in E. cbn in E. congruence.
  - rewrite <- E, rev_involutive. reflexivity.
Qed.
(** the first line of an option, without its blanks *)
Definition first_line (k l : str) : str := k ++ lit " =" ++ match l with [] => [] | _ => lit " " ++ l end.
Lemma first_line_strip : forall k l, k <> [] -> tight k -> tight l -> strip_ws (k ++ lit " = " ++ l) = first_line k l.
Proof.
  intros k l K TK TL. unfold first_line. destruct l as [|c l].
  - destruct k as [|d k]; [congruence|]. rewrite strip_rl. cbn [app]. rewrite lstrip_nonblank by exact (tight_head _ _ TK).
    change (d :: k ++ lit " = " ++ []) with (d :: k ++ lit " = "). replace (d :: k ++ lit " = ") with (((d :: k) ++ lit " =") ++ [" "%char]) by (rewrite <- app_assoc; reflexivity).
    rewrite rstrip_snoc. change (is_space " ") with true. cbn iota. replace ((d :: k) ++ lit " =") with (((d :: k) ++ [" "%char]) ++ ["="%char]) by (rewrite <- app_assoc; reflexivity).
    rewrite rstrip_snoc. change (is_space "=") with false. cbn iota. rewrite <- app_assoc. reflexivity.
  - transitivity (k ++ lit " = " ++ (c :: l)); [|reflexivity]. apply (tight_outer k (lit " = ") (c :: l)); [exact K|discriminate|exact TK|exact TL].
Qed.
Lemma first_line_option : forall k l, k <> [] -> tight k -> tight l -> forallb not_delimiter k = true -> option_line (first_line k l) = Some (k, l).
Proof.
  intros k l K TK TL F. unfold option_line, first_line.
  replace (k ++ lit " =" ++ match l with [] => [] | _ => lit " " ++ l end)
    with ((k ++ [" "%char]) ++ "="%char :: match l with [] => [] | _ => " "%char :: l end) by (rewrite <- app_assoc; reflexivity).
  rewrite span_app; [|rewrite forallb_app, F; reflexivity|reflexivity]. rewrite rstrip_snoc. change (is_space " ") with true. cbn iota.
  destruct (strip_sides k TK) as [_ ->]. destruct l as [|c l]; [reflexivity|]. do 2 f_equal. exact TL.
Qed.
Lemma first_line_head : forall k l, k <> [] -> exists c r q, k = c :: r /\ first_line k l = c :: q.
Proof. intros [|c r] l N; [congruence|]. exists c, r. eexists. split; [reflexivity|]. reflexivity. Qed.
Lemma first_line_header : forall k v, k <> [] -> not_header k v -> header (first_line k (hd [] (split_on LF v))) = None.
Proof.
  intros k v K H. destruct k as [|c r]; [congruence|]. unfold first_line. cbn [app]. apply header_none. intro C. destruct (H C) as [A B].
  set (l := hd [] (split_on LF v)) in *. clearbody l. intro X.
  assert (Y : In "]"%char (tl r ++ lit " =" ++ match l with [] => [] | _ => lit " " ++ l end)).
  { destruct r as [|d r]; [cbn [app tl] in X |- *; right; exact X|exact X]. }
  apply in_app_or in Y as [Y|Y]; [contradiction|]. apply in_app_or in Y as [Y|Y]; [cbn in Y; repeat (destruct Y as [Y|Y]; [discriminate Y|]); exact Y|].
  destruct l as [|d l]; [contradiction|]. apply in_app_or in Y as [Y|Y]; [cbn in Y; repeat (destruct Y as [Y|Y]; [discriminate Y|]); exact Y|contradiction].
Qed.

(** * Reading a section *)
Lemma tight_nil : tight [].
Proof. reflexivity. Qed.
Lemma indent_zero : forall c r, is_space c = false -> length (fst (span is_space (c :: r))) = 0.
Proof. intros c r C. cbn [span]. rewrite C. reflexivity. Qed.
Lemma added_none : forall k s, (forall x, In x (s_added s) -> x <> k) -> added k s = false.
Proof.
  intros [n o] s H. unfold added. destruct (existsb _ (s_added s)) eqn:E; [|reflexivity]. apply existsb_exists in E as ([n2 o2] & I & X).
  cbn [fst snd] in X. apply andb_true_iff in X as [X1 X2]. apply str_eqb_eq in X1. exfalso. apply (H _ I). subst. f_equal.
  destruct o2, o; try discriminate; [|reflexivity]. apply str_eqb_eq in X2. congruence.
Qed.
Definition split_values (kvs : list (str * str)) : list (str * list str) := map (fun kv => (fst kv, split_on LF (snd kv))) kvs.
Lemma rstrip_lf : forall v, rstrip_ws (v ++ [LF]) = rstrip_ws v.
Proof. intro v. rewrite rstrip_snoc. reflexivity. Qed.
Lemma join_open : forall l x, l <> [] -> join [LF] (l ++ [x]) = join [LF] l ++ LF :: x.
Proof.
  intros l x. induction l as [|a l IH]; [congruence|]. intros _. destruct l as [|b l]; [reflexivity|].
  change (join [LF] ((a :: b :: l) ++ [x])) with (a ++ [LF] ++ join [LF] ((b :: l) ++ [x])). rewrite IH by discriminate.
  change (join [LF] (a :: b :: l)) with (a ++ [LF] ++ join [LF] (b :: l)). rewrite <- !app_assoc. reflexivity.
Qed.
Lemma joined : forall kvs, Forall good_option kvs -> join_lines (split_values kvs) = kvs.
Proof.
  induction kvs as [|[k v] kvs IH]; intro G; [reflexivity|]. inversion G as [|? ? (_ & (_ & _ & R & _) & _) G2]; subst. cbn [snd] in R.
  cbn [split_values map join_lines fst snd]. rewrite join_split, R. f_equal. exact (IH G2).
Qed.

Section Options.
  Variable name : str.
  Variable mk : list (str * list str) -> str -> nat -> list (str * option str) -> state.
  Hypothesis mk_section : forall o p i a, s_section (mk o p i a) = Some name.
  Hypothesis mk_option : forall o p i a, s_option (mk o p i a) = p.
  Hypothesis mk_indent : forall o p i a, s_indent (mk o p i a) = i.
  Hypothesis mk_added : forall o p i a, s_added (mk o p i a) = a.
  Hypothesis mk_options : forall o p i a, options_of name (mk o p i a) = o.
  Hypothesis mk_with : forall o p i a o', with_options name o' (mk o p i a) = mk o' p i a.
  Hypothesis mk_ind : forall o p i a i', with_indent i' (mk o p i a) = mk o p i' a.
  Hypothesis mk_open : forall o p i a k a', let s := mk o p i a in
    State (s_defaults s) (s_sections s) (s_section s) k (s_indent s) a' (s_bad s) = mk o k i a'.

  Lemma read_first : forall o p i a k v, good_option (k, v) -> ~ In k (map fst o) -> (forall x, In x a -> x <> (name, Some k)) ->
    read_one (mk o p i a) (k ++ lit " = " ++ hd [] (split_on LF v)) = Ok (mk (o ++ [(k, [hd [] (split_on LF v)])]) k 0 ((name, Some k) :: a)).
  Proof.
    intros o p i a k v ((K & L & F & T & C) & (_ & _ & _ & TV & _) & H) N A. cbn [fst snd] in *.
    set (l := hd [] (split_on LF v)) in *. assert (TL : tight l).
    { subst l. pose proof (split_on_nonempty LF v) as Z. destruct (split_on LF v) as [|w ws]; [contradiction|]. inversion TV; assumption. }
    unfold read_one. rewrite first_line_strip by assumption. destruct (first_line_head k l K) as (c & r & q & -> & E).
    pose proof (first_line_option (c :: r) l K T TL F) as O. pose proof (first_line_header (c :: r) v K H) as HD. fold l in HD.
    rewrite E in O, HD |- *. rewrite (is_comment_head c q r), C. cbv beta iota zeta. rewrite mk_section, mk_option, mk_indent.
    cbn [app]. rewrite indent_zero by exact (tight_head _ _ T).
    replace (match p with [] => false | _ :: _ => i <? 0 end) with false by (destruct p; [reflexivity|]; destruct i; reflexivity).
    cbv iota. rewrite mk_ind, HD, O. unfold open_option. cbv zeta. rewrite added_none by (rewrite mk_added; exact A). cbv iota.
    rewrite mk_open, mk_options, mk_with, mk_added, dict_set_fresh by exact N. reflexivity.
  Qed.
  Lemma read_more : forall o k ls a l, k <> [] -> ~ In k (map fst o) -> tight l -> is_comment l = false ->
    read_one (mk (o ++ [(k, ls)]) k 0 a) (tab :: l) = Ok (mk (o ++ [(k, ls ++ [l])]) k 0 a).
  Proof.
    intros o k ls a l K N T C. unfold read_one.
    assert (S : strip_ws (tab :: l) = l) by (transitivity (strip_ws l); [reflexivity|exact T]). rewrite S, C. cbv beta iota zeta.
    assert (A : append_line name l (mk (o ++ [(k, ls)]) k 0 a) = mk (o ++ [(k, ls ++ [l])]) k 0 a).
    { unfold append_line. rewrite mk_option, mk_options, dict_get_at_end by exact N. cbn [opt_or]. rewrite dict_set_at_end by exact N. apply mk_with. }
    rewrite mk_section, mk_option, mk_indent. destruct k as [|k0 k]; [congruence|]. destruct l as [|c l].
    - rewrite A. reflexivity.
    - replace (length (fst (span is_space (tab :: c :: l)))) with 1.
      + cbn [Nat.ltb Nat.leb]. rewrite A. reflexivity.
      + cbn [span]. change (is_space tab) with true. rewrite (tight_head _ _ T). reflexivity.
  Qed.
  Lemma read_rest : forall rest o k ls a, k <> [] -> ~ In k (map fst o) -> Forall tight rest -> Forall (fun l => is_comment l = false) rest ->
    read_all (mk (o ++ [(k, ls)]) k 0 a) (map (cons tab) rest) = Ok (mk (o ++ [(k, ls ++ rest)]) k 0 a).
  Proof.
    induction rest as [|l rest IH]; intros o k ls a K N T C; cbn [map read_all].
    - rewrite app_nil_r. reflexivity.
    - inversion T; subst. inversion C; subst. rewrite read_more by assumption. cbn [bind]. rewrite IH by assumption. rewrite <- app_assoc. reflexivity.
  Qed.
  Lemma read_app : forall a b s, read_all s (a ++ b) = do s' <- read_all s a; read_all s' b.
  Proof. induction a as [|x a IH]; intros b s; [reflexivity|]. cbn [app read_all]. destruct (read_one s x); [apply IH|reflexivity]. Qed.
  Lemma read_option : forall o p i a k v, good_option (k, v) -> ~ In k (map fst o) -> (forall x, In x a -> x <> (name, Some k)) ->
    read_all (mk o p i a) (option_lines (k, v)) = Ok (mk (o ++ [(k, split_on LF v)]) k 0 ((name, Some k) :: a)).
  Proof.
    intros o p i a k v G N A. pose proof (read_first o p i a k v G N A) as R. destruct G as ((K & _) & (_ & _ & _ & TV & CV) & _).
    unfold option_lines. cbn [fst snd] in *. pose proof (split_on_nonempty LF v) as Z. destruct (split_on LF v) as [|l ls]; [contradiction|].
    cbn [hd tl] in *. cbn [read_all]. rewrite R. cbn [bind]. inversion TV; subst. rewrite read_rest by assumption. reflexivity.
  Qed.
  Definition keys_added (kvs : list (str * str)) : list (str * option str) := rev (map (fun kv => (name, Some (fst kv))) kvs).
  Lemma read_options : forall kvs o p a, Forall good_option kvs -> NoDup (map fst o ++ map fst kvs) ->
    (forall k, In k (map fst kvs) -> ~ In (name, Some k) a) ->
    read_all (mk o p 0 a) (flat_map option_lines kvs) = Ok (mk (o ++ split_values kvs) (last (map fst kvs) p) 0 (keys_added kvs ++ a)).
  Proof.
    induction kvs as [|[k v] kvs IH]; intros o p a G ND A; cbn [flat_map].
    - cbn. rewrite app_nil_r. reflexivity.
    - inversion G; subst. cbn [map fst] in ND. rewrite read_app. rewrite read_option; [|assumption| |].
      + cbn [bind]. rewrite IH; [|assumption| |].
        * unfold keys_added. cbn [map rev fst split_values snd]. rewrite <- !app_assoc. cbn [app]. do 2 f_equal.
          destruct (map fst kvs) as [|x l]; [reflexivity|]. cbn [last]. clear. revert x k. induction l as [|y l IHl]; intros x k; [reflexivity|]. cbn [last]. apply IHl.
        * rewrite map_app. cbn [map fst]. rewrite <- app_assoc. exact ND.
        * intros k2 K2 [X|X]; [|apply (A k2); [right; exact K2|exact X]].
          assert (k = k2) by congruence. subst. apply NoDup_remove_2 in ND. apply ND, in_or_app. right. exact K2.
      + intro X. apply NoDup_remove_2 in ND. apply ND, in_or_app. left. exact X.
      + intros x X Y. subst x. apply (A k); [left; reflexivity|exact X].
  Qed.
  (** the empty line at the end of a section *)
  Lemma read_blank : forall o p a, (p = [] /\ o = [] \/ exists o' ls, o = o' ++ [(p, ls)] /\ ~ In p (map fst o') /\ ls <> []) ->
    exists o2, read_one (mk o p 0 a) [] = Ok (mk o2 p 0 a) /\ join_lines o2 = join_lines o.
  Proof.
    intros o p a [[-> ->]|(o' & ls & -> & N & L)].
    - exists []. split; [|reflexivity]. unfold read_one. cbn. rewrite mk_section, mk_option. reflexivity.
    - unfold read_one. cbn. rewrite mk_section, mk_option. destruct p as [|p0 p].
      + exists (o' ++ [([], ls)]). split; reflexivity.
      + exists (o' ++ [(p0 :: p, ls ++ [[]])]). split.
        * unfold append_line. rewrite mk_option, mk_options, dict_get_at_end by exact N. cbn [opt_or]. rewrite dict_set_at_end by exact N. rewrite mk_with. reflexivity.
        * unfold join_lines. rewrite !map_app. cbn [map fst snd]. rewrite join_open by exact L. rewrite rstrip_lf. reflexivity.
  Qed.
  Lemma read_body : forall kvs a, good_options kvs -> (forall k, ~ In (name, Some k) a) ->
    exists o p, read_all (mk [] [] 0 a) (flat_map option_lines kvs ++ [[]]) = Ok (mk o p 0 (keys_added kvs ++ a)) /\ join_lines o = kvs.
  Proof.
    intros kvs a [ND G] A. rewrite read_app. rewrite read_options; [|exact G|exact ND|intros k _; exact (A k)]. cbn [bind read_all app].
    destruct (read_blank (split_values kvs) (last (map fst kvs) []) (keys_added kvs ++ a)) as (o2 & R & J).
    { destruct kvs as [|kv kvs'] using rev_ind; [left; split; reflexivity|]. right. exists (split_values kvs'), (split_on LF (snd kv)).
      unfold split_values. rewrite !map_app. cbn [map]. rewrite last_last. split; [reflexivity|]. split; [|apply split_on_nonempty].
      rewrite map_map. cbn [fst]. rewrite map_app in ND. cbn [map] in ND. apply NoDup_remove_2 in ND. rewrite app_nil_r in ND. exact ND. }
    rewrite R. cbn [bind]. exists o2, (last (map fst kvs) []). split; [reflexivity|]. rewrite J. apply joined, G.
  Qed.
End Options.

(** * Reading the sections *)
Lemma read_header : forall D S sec p i a n, n <> [] -> ~ In n (map fst S) ->
  read_one (State D S sec p i a false) (lit "[" ++ n ++ lit "]") =
  Ok (if str_eqb n default_section then State D S (Some n) [] 0 a false
      else State D (S ++ [(n, [])]) (Some n) [] 0 ((n, None) :: a) false).
Proof.
  intros D S sec p i a n N F. unfold read_one. pose proof (header_name n N) as H.
  assert (T : strip_ws (lit "[" ++ n ++ lit "]") = lit "[" ++ n ++ lit "]") by (apply (tight_ends "[" n "]"); reflexivity).
  rewrite T. change (is_comment (lit "[" ++ n ++ lit "]")) with false. cbv beta iota zeta.
  assert (O : open_section n (with_indent 0 (State D S sec p i a false)) =
    Ok (if str_eqb n default_section then State D S (Some n) [] 0 a false
        else State D (S ++ [(n, [])]) (Some n) [] 0 ((n, None) :: a) false)).
  { unfold open_section. cbn [with_indent s_sections s_defaults s_section s_option s_indent s_added s_bad]. unfold dict_has.
    rewrite (proj2 (dict_get_none _ n S) F). cbn [is_some]. destruct (str_eqb n default_section); [reflexivity|].
    rewrite dict_set_fresh by exact F. reflexivity. }
  change (length (fst (span is_space (lit "[" ++ n ++ lit "]")))) with 0.
  change (match lit "[" ++ n ++ lit "]" with
          | [] => match s_section (State D S sec p i a false) with Some name => match s_option (State D S sec p i a false) with [] => Ok (State D S sec p i a false) | _ :: _ => Ok (append_line name [] (State D S sec p i a false)) end | None => Ok (State D S sec p i a false) end
          | _ => Ok (State D S sec p i a false) end) with (Ok (State D S sec p i a false)).
  rewrite H. cbn [s_section s_option s_indent]. destruct (lit "[" ++ n ++ lit "]") as [|x y] eqn:Q; [discriminate|].
  destruct sec as [sec|]; [|exact O]. destruct p as [|p0 p]; [exact O|]. destruct i; exact O.
Qed.
Lemma read_section : forall D S sec p i a n kvs, good_name n -> good_options kvs -> ~ In n (map fst S) -> (forall k, ~ In (n, Some k) a) ->
  exists o p' a', read_all (State D S sec p i a false) (section_lines (n, kvs)) = Ok (State D (S ++ [(n, o)]) (Some n) p' 0 a' false) /\
    join_lines o = kvs /\ (forall x, In x a' -> In x a \/ fst x = n).
Proof.
  intros D S sec p i a n kvs (N & _ & ND) G F A. unfold section_lines. cbn [fst snd read_all]. rewrite read_header by assumption.
  destruct (str_eqb n default_section) eqn:E; [apply str_eqb_eq in E; contradiction|]. cbn [bind].
  pose proof (read_body n (fun o p i a => State D (S ++ [(n, o)]) (Some n) p i a false)) as B.
  edestruct B as (o & p' & R & J); try (intros; reflexivity); [| |exact G| |].
  - intros. unfold options_of. rewrite E. cbn [s_sections]. rewrite dict_get_at_end by exact F. reflexivity.
  - intros. unfold with_options. rewrite E. cbn. rewrite dict_set_at_end by exact F. reflexivity.
  - instantiate (1 := (n, None) :: a). intros k [X|X]; [discriminate X|exact (A k X)].
  - exists o, p'. eexists. split; [exact R|]. split; [exact J|]. intros x X. apply in_app_or in X as [X|[X|X]].
    + right. unfold keys_added in X. apply in_rev, in_map_iff in X as (kv & <- & _). reflexivity.
    + right. subst x. reflexivity.
    + left. exact X.
Qed.
Lemma read_sections : forall secs D S sec p i a, Forall (fun s => good_name (fst s) /\ good_options (snd s)) secs ->
  NoDup (map fst S ++ map fst secs) -> (forall x, In x a -> fst x = default_section \/ In (fst x) (map fst S)) ->
  exists S' sec' p' i' a', read_all (State D S sec p i a false) (flat_map section_lines secs) = Ok (State D (S ++ S') sec' p' i' a' false) /\
    map (fun e => (fst e, join_lines (snd e))) S' = secs.
Proof.
  induction secs as [|[n kvs] secs IH]; intros D S sec p i a G ND A.
  - exists [], sec, p, i, a. cbn. rewrite app_nil_r. split; reflexivity.
  - inversion G as [|? ? [GN GO] G2]; subst. cbn [fst snd] in *. cbn [map fst] in ND. cbn [flat_map]. rewrite read_app.
    destruct (read_section D S sec p i a n kvs GN GO) as (o & p' & a' & R & J & A').
    + intro X. apply NoDup_remove_2 in ND. apply ND, in_or_app. left. exact X.
    + intros k X. destruct (A _ X) as [Y|Y]; cbn [fst] in Y; [destruct GN as (_ & _ & Z); congruence|]. apply NoDup_remove_2 in ND. apply ND, in_or_app. left. exact Y.
    + rewrite R. cbn [bind]. destruct (IH D (S ++ [(n, o)]) (Some n) p' 0 a') as (S' & sec' & p2 & i2 & a2 & R2 & J2).
      * exact G2.
      * rewrite map_app. cbn [map fst]. rewrite <- app_assoc. exact ND.
      * intros x X. rewrite map_app. destruct (A' x X) as [Y|Y].
        -- destruct (A x Y) as [Z|Z]; [left; exact Z|right; apply in_or_app; left; exact Z].
        -- right. apply in_or_app. right. left. symmetry. exact Y.
      * exists ((n, o) :: S'), sec', p2, i2, a2. split; [rewrite R2, <- app_assoc; reflexivity|]. cbn [map fst snd]. rewrite J, J2. reflexivity.
Qed.
Lemma read_written : forall D S, good_options D -> Forall (fun s => good_name (fst s) /\ good_options (snd s)) S -> NoDup (map fst S) ->
  exists s, read_all start (flat_map section_lines (all_sections (Parser D S))) = Ok s /\ s_bad s = false /\
    join_lines (s_defaults s) = D /\ map (fun e => (fst e, join_lines (snd e))) (s_sections s) = S.
Proof.
  intros D S GD GS NS. unfold all_sections. cbn [p_defaults p_sections]. rewrite flat_map_app, read_app.
  assert (X : exists o sec p a, read_all start (flat_map section_lines (match D with [] => [] | _ => [(default_section, D)] end)) = Ok (State o [] sec p 0 a false) /\
    join_lines o = D /\ forall x, In x a -> fst x = default_section).
  { destruct D as [|kv D]; [exists [], None, [], []; split; [reflexivity|]; split; [reflexivity|intros x []]|].
    cbn [flat_map]. rewrite app_nil_r. unfold section_lines. cbn [fst snd read_all]. unfold start. rewrite read_header; [|discriminate|intros []].
    rewrite str_eqb_refl. cbn [bind].
    destruct (read_body default_section (fun o p i a => State o [] (Some default_section) p i a false)) with (kvs := kv :: D) (a := @nil (str * option str)) as (o & p & R & J);
      try (intros; reflexivity); [exact GD|intros k []|]. exists o, (Some default_section), p. eexists. split; [exact R|]. split; [exact J|].
    intros x X. rewrite app_nil_r in X. unfold keys_added in X. apply in_rev, in_map_iff in X as (q & <- & _). reflexivity. }
  destruct X as (o & sec & p & a & R & J & A).
  destruct (read_sections S o [] sec p 0 a GS NS) as (S' & sec' & p' & i' & a' & R2 & J2); [intros x X; left; exact (A x X)|].
  exists (State o S' sec' p' i' a' false). split; [|split; [reflexivity|split; [exact J|exact J2]]].
  destruct D; rewrite R; cbn [bind]; exact R2.
Qed.

(** * The round trip *)
Lemma get_all_spec : forall look names kvs, map fst kvs = names -> Forall (fun kv => look (fst kv) = Some (snd kv) /\ plain (snd kv)) kvs ->
  get_all look names = Ok kvs.
Proof.
  intros look names kvs <-. induction kvs as [|[k v] kvs IH]; intro F; [reflexivity|]. inversion F as [|? ? [A B] F2]; subst. cbn [fst snd] in A, B.
  cbn [map fst get_all]. rewrite A, expand_plain by exact B. cbn [bind]. rewrite IH by exact F2. reflexivity.
Qed.
Lemma dict_get_nodup : forall V k (v : V) d, NoDup (map fst d) -> In (k, v) d -> dict_get k d = Some v.
Proof.
  intros V k v d. induction d as [|[k' v'] d IH]; intros N H; [contradiction|]. inversion N; subst. cbn [dict_get]. destruct H as [H|H].
  - injection H as -> ->. rewrite str_eqb_refl. reflexivity.
  - destruct (str_eqb k k') eqn:E; [|apply IH; assumption]. apply str_eqb_eq in E. subst. exfalso. apply H2. apply (in_map fst) in H. exact H.
Qed.
Lemma option_names_all : forall kvs D : list (str * str), incl (map fst D) (map fst kvs) -> option_names kvs D = map fst kvs.
Proof.
  intros kvs D I. unfold option_names. rewrite <- (app_nil_r (map fst kvs)) at 2. f_equal. revert I. induction D as [|[k v] D IH]; intro I; [reflexivity|].
  cbn [map fst filter]. assert (H : dict_has k kvs = true).
  { unfold dict_has. destruct (dict_get k kvs) eqn:E; [reflexivity|]. apply (proj1 (dict_get_none _ k kvs)) in E. exfalso. apply E, I. left. reflexivity. }
  rewrite H. apply IH. intros x X. apply I. right. exact X.
Qed.
Lemma get_sections_spec : forall D S d, Forall (fun s => good_options (snd s) /\ incl (map fst D) (map fst (snd s))) S -> NoDup (map fst d ++ map fst S) ->
  get_sections D S d = Ok (d ++ map (fun s => (fst s, Section_ (snd s))) S).
Proof.
  intros D S. induction S as [|[n kvs] S IH]; intros d G ND; cbn [get_sections].
  - cbn. rewrite app_nil_r. reflexivity.
  - inversion G as [|? ? [[GN GO] I] G2]; subst. cbn [fst snd map] in *. rewrite option_names_all by exact I.
    rewrite (get_all_spec _ _ kvs eq_refl).
    + cbn [bind]. rewrite dict_set_fresh by (intro X; apply NoDup_remove_2 in ND; apply ND, in_or_app; left; exact X). rewrite IH.
      * rewrite <- app_assoc. reflexivity.
      * exact G2.
      * rewrite map_app. cbn [map fst]. rewrite <- app_assoc. exact ND.
    + apply Forall_forall. intros [k v] X. cbn [fst snd]. split.
      * unfold lookup_in. rewrite (dict_get_nodup _ k v kvs GN X). reflexivity.
      * destruct (proj1 (Forall_forall _ _) GO _ X) as (_ & (_ & P & _) & _). exact P.
Qed.
Lemma data_parts : forall d k, In k (map fst d) <-> In k (map fst (texts d)) \/ In k (map fst (sects d)).
Proof.
  induction d as [|[k0 [v|kvs]] d IH]; intro k; [cbn; tauto| |]; cbn [map fst texts sects flat_map snd app]; fold (texts d); fold (sects d).
  - cbn [In]. rewrite IH. tauto.
  - cbn [In]. rewrite IH. tauto.
Qed.
Lemma parts_nodup : forall d, NoDup (map fst d) -> NoDup (map fst (texts d) ++ map fst (sects d)).
Proof.
  induction d as [|[k0 [v|kvs]] d IH]; intro N; [constructor| |]; cbn [map fst texts sects flat_map snd app]; fold (texts d); fold (sects d).
  - inversion N; subst. constructor; [|apply IH; assumption]. intro X. apply H1, data_parts. apply in_app_or, X.
  - inversion N; subst. apply NoDup_Add with (a := k0) (l := map fst (texts d) ++ map fst (sects d)); [apply Add_app|]. split; [apply IH; assumption|].
    intro X. apply H1, data_parts. apply in_app_or, X.
Qed.
Lemma nodup_app_l : forall A (a b : list A), NoDup (a ++ b) -> NoDup a.
Proof. intros A a b. induction a as [|x a IH]; intro H; [constructor|]. inversion H; subst. constructor; [|apply IH; assumption]. intro X. apply H2, in_or_app. left. exact X. Qed.
Lemma nodup_app_r : forall A (a b : list A), NoDup (a ++ b) -> NoDup b.
Proof. intros A a b. induction a as [|x a IH]; intro H; [exact H|]. inversion H; subst. apply IH. assumption. Qed.
Definition rearranged (d : data) : data :=
  map (fun kv => (fst kv, Text (snd kv))) (texts d) ++ map (fun s => (fst s, Section_ (snd s))) (sects d).
Theorem round_trip : forall d, normal d -> exists t, ini_write d = Ok t /\ ini_read t = Ok (rearranged d).
Proof.
  intros d [NK NT NS]. pose proof (parts_nodup d NK) as ND. pose proof (nodup_app_l _ _ _ ND) as N1. pose proof (nodup_app_r _ _ _ ND) as N2.
  assert (GS : Forall (fun s => good_name (fst s) /\ good_options (snd s)) (sects d)) by (eapply Forall_impl; [|exact NS]; cbn; tauto).
  unfold ini_write. rewrite (fill_spec d [] [] NT GS N1 N2). cbn [bind app]. eexists. split; [reflexivity|].
  unfold ini_read. rewrite parser_text_lines, lines_of_closed.
  - destruct (read_written (texts d) (sects d) (conj N1 NT) GS N2) as (s & R & B & J1 & J2). rewrite R. cbn [bind]. rewrite B, J1, J2.
    rewrite (get_all_spec _ _ (texts d) eq_refl).
    + cbn [bind]. apply get_sections_spec; [eapply Forall_impl; [|exact NS]; cbn; tauto|]. rewrite map_map. cbn [fst]. exact ND.
    + apply Forall_forall. intros [k v] X. cbn [fst snd]. split; [unfold lookup_in; cbn [dict_get]; exact (dict_get_nodup _ k v _ N1 X)|].
      destruct (proj1 (Forall_forall _ _) NT _ X) as (_ & (_ & P & _) & _). exact P.
  - apply Forall_flat_map. apply Forall_forall. intros s X. unfold all_sections in X. cbn [p_defaults p_sections] in X. apply in_app_or in X as [X|X].
    + destruct (texts d) as [|kv l] eqn:E; [contradiction|]. destruct X as [<-|[]]. apply section_lines_ok; [split; intro H; cbn in H; repeat (destruct H as [H|H]; [discriminate H|]); exact H|exact NT].
    + destruct (proj1 (Forall_forall _ _) GS _ X) as [(_ & L & _) [_ G]]. apply section_lines_ok; assumption.
Qed.
