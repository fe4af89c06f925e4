From Coq Require Import String Ascii List Bool NArith Arith Lia.
From Verif Require Import Base BaseFacts ParserModel ParserFacts PthModel PthProofs RecordFileModel RecordFileProofs ProjectModel ProjectProofs IniModel IniProofs.
Import ListNotations.
Open Scope string_scope.
Open Scope nat_scope.
Open Scope list_scope.
Open Scope bool_scope.

(** * The order of a dictionary does not matter *)
Lemma rearranged_in : forall d e, In e (rearranged d) <-> In e d.
Proof.
  intros d [k n]. unfold rearranged. rewrite in_app_iff, !in_map_iff. unfold texts, sects. split.
  - intros [((k2 & v) & E & H)|((k2 & kvs) & E & H)]; cbn [fst snd] in E; injection E as <- <-; apply in_flat_map in H as ([k3 [w|w]] & H & X);
      cbn [fst snd] in X; try contradiction; destruct X as [X|[]]; injection X as <- <-; exact H.
  - intro H. destruct n as [v|kvs].
    + left. exists (k, v). split; [reflexivity|]. apply in_flat_map. exists (k, Text v). split; [exact H|left; reflexivity].
    + right. exists (k, kvs). split; [reflexivity|]. apply in_flat_map. exists (k, Section_ kvs). split; [exact H|left; reflexivity].
Qed.
Lemma rearranged_keys : forall d, map fst (rearranged d) = map fst (texts d) ++ map fst (sects d).
Proof. intro d. unfold rearranged. rewrite map_app, !map_map. reflexivity. Qed.
Lemma rearranged_get : forall d k, NoDup (map fst d) -> dict_get k (rearranged d) = dict_get k d.
Proof.
  intros d k N. assert (M : NoDup (map fst (rearranged d))) by (rewrite rearranged_keys; apply parts_nodup, N).
  destruct (dict_get k d) as [n|] eqn:E.
  - apply dict_get_nodup; [exact M|]. apply rearranged_in. exact (dict_get_in _ _ _ _ E).
  - apply (proj2 (dict_get_none _ _ _)). intro H. apply (proj1 (dict_get_none _ _ _)) in E. apply E. apply in_map_iff in H as (e & <- & H). apply in_map. apply rearranged_in, H.
Qed.

(** * Values that are refused *)
Definition lone_percent (v : str) : Prop := exists a b, v = a ++ "%"%char :: b /\ plain a /\ plain b /\ match b with c :: _ => c <> "("%char | [] => True end.
Lemma escaped_lone : forall a b, plain a -> plain b -> drop_escaped (a ++ "%"%char :: b) = a ++ "%"%char :: b.
Proof.
  induction a as [|c a IH]; intros b A B.
  - cbn [app drop_escaped]. destruct b as [|d b]; [reflexivity|]. destruct (plain_cons _ _ B) as [E Q]. rewrite E. cbn [andb]. rewrite Ascii.eqb_refl. cbn [andb].
    rewrite escaped_plain by exact B. reflexivity.
  - destruct (plain_cons _ _ A) as [E Q]. cbn [app drop_escaped]. destruct (a ++ "%"%char :: b) as [|d r] eqn:X; [destruct a; discriminate|].
    rewrite E. cbn [andb]. rewrite <- X, IH by assumption. reflexivity.
Qed.
Lemma references_lone : forall fuel a b, plain a -> plain b -> match b with c :: _ => c <> "("%char | [] => True end ->
  drop_references fuel (a ++ "%"%char :: b) = a ++ "%"%char :: b.
Proof.
  induction fuel as [|fuel IH]; intros a b A B N; [destruct a; reflexivity|]. destruct a as [|c a]; cbn [app drop_references].
  - assert (R : reference ("%"%char :: b) = None).
    { unfold reference. destruct b as [|d b]; [reflexivity|]. destruct (Ascii.eqb d "(") eqn:E; [apply Ascii.eqb_eq in E; contradiction|]. rewrite andb_false_r. reflexivity. }
    rewrite R. rewrite references_plain by exact B. reflexivity.
  - destruct (plain_cons _ _ A) as [E Q].
    assert (R : reference (c :: a ++ "%"%char :: b) = None) by (unfold reference; destruct (a ++ "%"%char :: b); [reflexivity|]; rewrite E; reflexivity).
    rewrite R, IH by assumption. reflexivity.
Qed.
Lemma lone_refused : forall v, lone_percent v -> (match v with [] => true | _ => settable v end) = false.
Proof.
  intros v (a & b & -> & A & B & N). assert (S : settable (a ++ "%"%char :: b) = false).
  { unfold settable. rewrite escaped_lone by assumption. rewrite references_lone by assumption. unfold has_percent. rewrite existsb_app. cbn. rewrite orb_true_r. reflexivity. }
  destruct (a ++ "%"%char :: b) eqn:E; [destruct a; discriminate|exact S].
Qed.
Definition values_of (d : data) : list str := flat_map (fun e => match snd e with Text v => [v] | Section_ kvs => map snd kvs end) d.
Lemma set_option_refused : forall s k v p, (match v with [] => true | _ => settable v end) = false -> set_option s k v p = Err ValueError.
Proof. intros s k v p H. unfold set_option. rewrite H. reflexivity. Qed.
Lemma set_all_refused : forall s kvs p v, In v (map snd kvs) -> lone_percent v -> exists e, set_all s kvs p = Err e.
Proof.
  intros s kvs. induction kvs as [|[k w] kvs IH]; intros p v H L; [contradiction|]. cbn [set_all]. destruct H as [H|H].
  - cbn in H. subst w. rewrite set_option_refused by (apply lone_refused, L). eexists. reflexivity.
  - destruct (set_option s k w p) as [p'|e]; [|eexists; reflexivity]. cbn [bind]. exact (IH p' v H L).
Qed.
Lemma fill_refused : forall d p v, In v (values_of d) -> lone_percent v -> exists e, fill d p = Err e.
Proof.
  induction d as [|[k [w|kvs]] d IH]; intros p v H L; [contradiction| |]; cbn [values_of flat_map snd] in H; fold (values_of d) in H; cbn [fill].
  - apply in_app_or in H as [[H|[]]|H].
    + subst w. rewrite set_option_refused by (apply lone_refused, L). eexists. reflexivity.
    + destruct (set_option [] k w p) as [p'|e]; [|eexists; reflexivity]. cbn [bind]. exact (IH p' v H L).
  - destruct (add_section k p) as [p1|e]; [|eexists; reflexivity]. cbn [bind]. apply in_app_or in H as [H|H].
    + destruct (set_all_refused k kvs p1 v H L) as [e ->]. eexists. reflexivity.
    + destruct (set_all k kvs p1) as [p2|e]; [|eexists; reflexivity]. cbn [bind]. exact (IH p2 v H L).
Qed.

(** * Sections and options that occur twice *)
Lemma with_options_added : forall n o s, s_added (with_options n o s) = s_added s.
Proof. intros. unfold with_options. destruct (str_eqb n default_section); reflexivity. Qed.
Lemma with_options_section : forall n o s, s_section (with_options n o s) = s_section s.
Proof. intros. unfold with_options. destruct (str_eqb n default_section); reflexivity. Qed.
Lemma dict_has_set : forall V n k (v : V) d, dict_has n d = true -> dict_has n (dict_set k v d) = true.
Proof.
  intros V n k v d. unfold dict_has. destruct (str_eqb n k) eqn:E.
  - apply str_eqb_eq in E. subst. rewrite dict_get_set_same. reflexivity.
  - rewrite dict_get_set_other; [auto|]. intro X. subst. rewrite str_eqb_refl in E. discriminate.
Qed.
Lemma with_options_has : forall n m o s, dict_has n (s_sections s) = true -> dict_has n (s_sections (with_options m o s)) = true.
Proof. intros n m o s H. unfold with_options. destruct (str_eqb m default_section); [exact H|]. apply dict_has_set, H. Qed.
Definition known (n : str) (s : state) : Prop := dict_has n (s_sections s) = true /\ In (n, None) (s_added s).
Lemma known_step : forall n s l s', known n s -> read_one s l = Ok s' -> known n s'.
Proof.
  intros n s l s' [A B] R. unfold read_one in R. set (value := if is_comment (strip_ws l) then [] else strip_ws l) in R. clearbody value.
  assert (AL : forall m v, known n (append_line m v s)).
  { intros m v. unfold append_line. split; [apply with_options_has, A|rewrite with_options_added; exact B]. }
  assert (OS : forall h i s2, open_section h (with_indent i s) = Ok s2 -> known n s2).
  { intros h i s2 H. unfold open_section in H. cbn [with_indent s_sections s_defaults s_section s_option s_indent s_added s_bad] in H.
    destruct (dict_has h (s_sections s)).
    - match type of H with (if ?b then _ else _) = _ => destruct b end; [discriminate H|]. injection H as <-. split; [exact A|right; exact B].
    - destruct (str_eqb h default_section); injection H as <-; (split; [|cbn; auto]); [exact A|apply dict_has_set, A]. }
  destruct value as [|c value].
  - destruct (is_comment (strip_ws l)); [injection R as <-; split; assumption|].
    destruct (s_section s); [|injection R as <-; split; assumption]. destruct (s_option s); injection R as <-; [split; assumption|apply AL].
  - destruct (s_section s) as [m|].
    + destruct (match s_option s with [] => false | _ :: _ => s_indent s <? length (fst (span is_space l)) end); [injection R as <-; apply AL|].
      destruct (header (c :: value)) as [h|]; [exact (OS _ _ _ R)|]. destruct (option_line (c :: value)) as [[k v]|].
      * unfold open_option in R. destruct k as [|k0 k]; cbv zeta in R;
          (match type of R with (if ?b then _ else _) = _ => destruct b end; [discriminate R|]); injection R as <-; (split; [apply with_options_has, A|rewrite with_options_added; right; exact B]).
      * injection R as <-. split; assumption.
    + destruct (header (c :: value)) as [h|]; [exact (OS _ _ _ R)|discriminate].
Qed.
Lemma known_all : forall n ls s s', known n s -> read_all s ls = Ok s' -> known n s'.
Proof.
  intros n ls. induction ls as [|l ls IH]; intros s s' K R; cbn [read_all] in R; [injection R as <-; exact K|].
  destruct (read_one s l) as [s1|] eqn:E; [|discriminate]. exact (IH s1 s' (known_step _ _ _ _ K E) R).
Qed.
Lemma header_step : forall n s, n <> [] -> read_one s (lit "[" ++ n ++ lit "]") = open_section n (with_indent 0 s).
Proof.
  intros n s N. unfold read_one. pose proof (header_name n N) as H.
  assert (T : strip_ws (lit "[" ++ n ++ lit "]") = lit "[" ++ n ++ lit "]") by (apply (tight_ends "[" n "]"); reflexivity).
  rewrite T. change (is_comment (lit "[" ++ n ++ lit "]")) with false. cbv beta iota zeta.
  change (length (fst (span is_space (lit "[" ++ n ++ lit "]")))) with 0. rewrite H.
  destruct (lit "[" ++ n ++ lit "]") as [|x y] eqn:Q; [discriminate|]. destruct (s_section s) as [sec|]; [|reflexivity].
  destruct (s_option s); [reflexivity|]. destruct (s_indent s); reflexivity.
Qed.
Lemma header_known : forall n s s', n <> [] -> n <> default_section -> read_one s (lit "[" ++ n ++ lit "]") = Ok s' -> known n s'.
Proof.
  intros n s s' N D R. rewrite header_step in R by exact N. unfold open_section in R. cbn [with_indent s_sections s_defaults s_section s_option s_indent s_added s_bad] in R.
  destruct (dict_has n (s_sections s)) eqn:H.
  - match type of R with (if ?b then _ else _) = _ => destruct b end; [discriminate R|]. injection R as <-. split; [exact H|left; reflexivity].
  - destruct (str_eqb n default_section) eqn:E; [apply str_eqb_eq in E; contradiction|]. injection R as <-. split; [|left; reflexivity].
    cbn [s_sections]. unfold dict_has. rewrite dict_get_set_same. reflexivity.
Qed.
Lemma known_added : forall n s, known n s -> added (n, None) s = true.
Proof. intros n s [_ B]. unfold added. apply existsb_exists. exists (n, None). split; [exact B|]. cbn. rewrite str_eqb_refl. reflexivity. Qed.
Lemma twice : forall n a b c s, n <> [] -> n <> default_section ->
  exists e, read_all s (a ++ [lit "[" ++ n ++ lit "]"] ++ b ++ [lit "[" ++ n ++ lit "]"] ++ c) = Err e.
Proof.
  intros n a b c s N D. rewrite read_app. destruct (read_all s a) as [s1|e]; [|eexists; reflexivity]. cbn [bind]. rewrite read_app. cbn [read_all].
  destruct (read_one s1 (lit "[" ++ n ++ lit "]")) as [s2|e] eqn:E; [|eexists; reflexivity]. cbn [bind]. rewrite read_app.
  destruct (read_all s2 b) as [s3|e] eqn:E3; [|eexists; reflexivity]. cbn [bind]. rewrite read_app. cbn [read_all].
  pose proof (known_all n b s2 s3 (header_known n s1 s2 N D E) E3) as K. rewrite header_step by exact N. unfold open_section.
  cbn [with_indent s_sections]. rewrite (proj1 K). pose proof (known_added n s3 K) as A. unfold added in *. cbn [with_indent s_added]. rewrite A. eexists. reflexivity.
Qed.

(** * Entry points *)
Definition sections (d : list (str * list (str * str))) : data := map (fun e => (fst e, Section_ (snd e))) d.
Lemma sections_texts : forall d, texts (sections d) = [].
Proof. induction d as [|[g t] d IH]; [reflexivity|]. exact IH. Qed.
Lemma sections_sects : forall d, sects (sections d) = d.
Proof. induction d as [|[g t] d IH]; [reflexivity|]. cbn [sections map sects flat_map fst snd app]. f_equal. exact IH. Qed.
Lemma entries_in_sections : forall d, entries_in (sections d) = Ok (data_entries d).
Proof. induction d as [|[g t] d IH]; [reflexivity|]. cbn [sections map fst snd entries_in]. fold (sections d). rewrite IH. reflexivity. Qed.
Definition good_entry (e : entry) : Prop := good_name (e_group e) /\ good_option (e_name e, oref_str (e_ref e)).
Definition good_data (d : list (str * list (str * str))) : Prop := Forall (fun s => good_name (fst s) /\ Forall good_option (snd s)) d.
Lemma dict_set_forall : forall V (P : str * V -> Prop) k v d, Forall P d -> P (k, v) -> Forall P (dict_set k v d).
Proof.
  intros V P k v d. induction d as [|[k' v'] d IH]; intros F H; cbn [dict_set]; [constructor; [exact H|constructor]|].
  inversion F; subst. destruct (str_eqb k k') eqn:E; constructor; auto. apply str_eqb_eq in E. subst. assumption.
Qed.
Lemma add_entry_good : forall d e, good_data d -> good_entry e -> good_data (add_entry d e).
Proof.
  intros d e D [G O]. unfold add_entry. apply dict_set_forall; [exact D|]. cbn [fst snd]. split; [exact G|]. apply dict_set_forall; [|exact O].
  destruct (dict_get (e_group e) d) as [t|] eqn:E; cbn [opt_or]; [|constructor]. apply dict_get_in in E.
  exact (proj2 (proj1 (Forall_forall _ _) D _ E)).
Qed.
Lemma entries_data_good : forall l, Forall good_entry l -> good_data (entries_data l).
Proof.
  intros l G. unfold entries_data. assert (X : forall d, good_data d -> good_data (fold_left add_entry l d)).
  { revert G. induction l as [|e l IH]; intros G d D; [exact D|]. inversion G; subst. cbn [fold_left]. apply IH; [assumption|]. apply add_entry_good; assumption. }
  apply X. constructor.
Qed.
Lemma sections_keys : forall d, map fst (sections d) = map fst d.
Proof. intro d. unfold sections. rewrite map_map. reflexivity. Qed.
Lemma saved_loaded : forall l, Forall good_entry l -> exists t, save_entries l = Ok t /\ load_entries (Some t) = Ok (data_entries (entries_data l)).
Proof.
  intros l G. destruct (entries_data_spec l) as [[K1 K2] _]. pose proof (entries_data_good l G) as D.
  assert (N : normal (sections (entries_data l))).
  { constructor.
    - rewrite sections_keys. exact K1.
    - rewrite sections_texts. constructor.
    - rewrite sections_sects, sections_texts. apply Forall_forall. intros [g t] H. cbn [fst snd]. destruct (proj1 (Forall_forall _ _) D _ H) as [A B].
      split; [exact A|]. split; [split; [exact (K2 _ _ H)|exact B]|]. intros x []. }
  destruct (round_trip _ N) as (t & W & R). exists t. split; [exact W|]. unfold load_entries, ini_load. rewrite R. cbn [bind]. unfold rearranged.
  rewrite sections_texts, sections_sects. cbn [map app]. apply entries_in_sections.
Qed.

(** * The entry points of an environment *)
Lemma fold_group : forall P (p : P) l groups g, opt_or (dict_get g (fold_left (add_to_group p) l groups)) [] =
  opt_or (dict_get g groups) [] ++ map (pair p) (filter (fun e => str_eqb g (e_group e)) l).
Proof.
  intros P p l. induction l as [|e l IH]; intros groups g; cbn [fold_left filter map]; [rewrite app_nil_r; reflexivity|].
  rewrite IH. unfold add_to_group. destruct (str_eqb g (e_group e)) eqn:E.
  - apply str_eqb_eq in E. subst g. rewrite dict_get_set_same. cbn [opt_or map]. rewrite <- app_assoc. reflexivity.
  - rewrite dict_get_set_other by (intro X; subst; rewrite str_eqb_refl in E; discriminate). reflexivity.
Qed.
Lemma env_spec : forall P (packages : list (P * option str)) (found : list (P * list entry)) groups,
  Forall2 (fun a b => fst a = fst b /\ load_entries (snd a) = Ok (snd b)) packages found ->
  exists r, env_entries packages groups = Ok r /\
    forall g, opt_or (dict_get g r) [] = opt_or (dict_get g groups) [] ++ flat_map (fun b => map (pair (fst b)) (filter (fun e => str_eqb g (e_group e)) (snd b))) found.
Proof.
  intros P packages found groups H. revert groups. induction H as [|[p f] [q l] packages found [A B] F IH]; intro groups.
  - exists groups. split; [reflexivity|]. intro g. cbn. rewrite app_nil_r. reflexivity.
  - cbn [fst snd] in A, B. subst q. cbn [env_entries]. rewrite B. cbn [bind]. destruct (IH (fold_left (add_to_group p) l groups)) as (r & R & S).
    exists r. split; [exact R|]. intro g. rewrite S, fold_group. cbn [flat_map fst snd]. rewrite <- app_assoc. reflexivity.
Qed.
Lemma env_bad : forall P (packages : list (P * option str)) groups p f e, In (p, f) packages -> load_entries f = Err e ->
  exists e', env_entries packages groups = Err e'.
Proof.
  intros P packages. induction packages as [|[q h] packages IH]; intros groups p f e I L; [contradiction|]. cbn [env_entries]. destruct I as [I|I].
  - injection I as -> ->. rewrite L. eexists. reflexivity.
  - destruct (load_entries h) as [l|e2]; [|eexists; reflexivity]. cbn [bind]. exact (IH _ p f e I L).
Qed.

(** * Checking the conditions of a sample *)
Lemma no_sign : forall c s, existsb (Ascii.eqb c) s = false -> ~ In c s.
Proof. intros c s E H. assert (X : existsb (Ascii.eqb c) s = true) by (apply existsb_exists; exists c; split; [exact H|apply Ascii.eqb_refl]). congruence. Qed.
Lemma no_name : forall (c : str) s, existsb (str_eqb c) s = false -> ~ In c s.
Proof. intros c s E H. assert (X : existsb (str_eqb c) s = true) by (apply existsb_exists; exists c; split; [exact H|apply str_eqb_refl]). congruence. Qed.
Definition has (c : ascii) (s : str) : bool := existsb (Ascii.eqb c) s.
Definition option_check (kv : str * str) : bool :=
  let (k, v) := kv in
  match k with
  | [] => false
  | c :: r =>
      negb (has LF k) && negb (has CR k) && forallb not_delimiter k && str_eqb (strip_ws k) k && negb (is_comment k) &&
      negb (has CR v) && negb (has "%" v) && str_eqb (rstrip_ws v) v && forallb (fun l => str_eqb (strip_ws l) l) (split_on LF v) &&
      forallb (fun l => negb (is_comment l)) (tl (split_on LF v)) &&
      (negb (Ascii.eqb c "[") || negb (has "]" (tl r)) && negb (has "]" (hd [] (split_on LF v))))
  end.
Lemma option_by : forall kv, option_check kv = true -> good_option kv.
Proof.
  intros [[|c r] v] H; [discriminate|]. unfold option_check in H. rewrite !andb_true_iff in H.
  destruct H as ((((((((((H1 & H2) & H3) & H4) & H5) & H6) & H7) & H8) & H9) & H10) & H11). rewrite negb_true_iff in *.
  unfold has in *. split; [|split]; cbn [fst snd].
  - split; [discriminate|]. split; [split; apply no_sign; assumption|]. split; [exact H3|]. split; [apply str_eqb_eq, H4|exact H5].
  - split; [apply no_sign, H6|]. split; [apply no_sign, H7|]. split; [apply str_eqb_eq, H8|]. split.
    + apply Forall_forall. intros x X. rewrite forallb_forall in H9. apply str_eqb_eq, H9, X.
    + apply Forall_forall. intros x X. rewrite forallb_forall in H10. apply negb_true_iff, H10, X.
  - intro E. subst c. cbn [Ascii.eqb] in H11. rewrite Ascii.eqb_refl in H11. cbn [negb orb] in H11. apply andb_true_iff in H11 as [A B].
    apply negb_true_iff in A, B. split; apply no_sign; assumption.
Qed.

(** * Options that occur twice, and lines that mean nothing *)
Definition opened (n k : str) (s : state) : Prop := s_section s = Some n /\ In (n, Some k) (s_added s).
Definition at_section (n : str) (s : state) : Prop := s_section s = Some n.
Definition no_header (l : str) : Prop := header (strip_ws l) = None.
Lemma step_section : forall n s l s', no_header l -> s_section s = Some n -> read_one s l = Ok s' -> s_section s' = Some n /\ incl (s_added s) (s_added s').
Proof.
  intros n s l s' NH S R. unfold read_one in R. rewrite S in R.
  assert (AL : forall v, s_section (append_line n v s) = Some n /\ incl (s_added s) (s_added (append_line n v s))).
  { intro v. unfold append_line. rewrite with_options_section, with_options_added. split; [exact S|apply incl_refl]. }
  destruct (is_comment (strip_ws l)).
  - injection R as <-. split; [exact S|apply incl_refl].
  - destruct (strip_ws l) as [|c value] eqn:E.
    + destruct (s_option s); injection R as <-; [split; [exact S|apply incl_refl]|apply AL].
    + unfold no_header in NH. rewrite E in NH. rewrite NH in R.
      destruct (match s_option s with [] => false | _ :: _ => s_indent s <? length (fst (span is_space l)) end); [injection R as <-; apply AL|].
      destruct (option_line (c :: value)) as [[k v]|].
      * unfold open_option in R. destruct k as [|k0 k]; cbv zeta in R;
          (match type of R with (if ?b then _ else _) = _ => destruct b end; [discriminate R|]); injection R as <-;
          rewrite with_options_section, with_options_added; (split; [exact S|intros x X; right; exact X]).
      * injection R as <-. split; [exact S|apply incl_refl].
Qed.
Lemma all_section : forall n ls s s', Forall no_header ls -> s_section s = Some n -> read_all s ls = Ok s' -> s_section s' = Some n /\ incl (s_added s) (s_added s').
Proof.
  intros n ls. induction ls as [|l ls IH]; intros s s' F S R; cbn [read_all] in R.
  - injection R as <-. split; [exact S|apply incl_refl].
  - inversion F; subst. destruct (read_one s l) as [s1|] eqn:E; [|discriminate]. destruct (step_section n s l s1 H1 S E) as [S1 I1].
    destruct (IH s1 s' H2 S1 R) as [S2 I2]. split; [exact S2|]. eapply incl_tran; eassumption.
Qed.
Lemma header_section : forall n s s', n <> [] -> read_one s (lit "[" ++ n ++ lit "]") = Ok s' -> s_section s' = Some n.
Proof.
  intros n s s' N R. rewrite header_step in R by exact N. unfold open_section in R.
  destruct (dict_has n (s_sections (with_indent 0 s))).
  - match type of R with (if ?b then _ else _) = _ => destruct b end; [discriminate R|]. injection R as <-. reflexivity.
  - destruct (str_eqb n default_section); injection R as <-; reflexivity.
Qed.
Lemma option_step : forall n k l s, good_key k -> tight l -> header (first_line k l) = None -> s_section s = Some n ->
  read_one s (k ++ lit " = " ++ l) = open_option n k l (with_indent 0 s).
Proof.
  intros n k l s (K & L & F & T & C) TL HD S. unfold read_one. rewrite first_line_strip by assumption. destruct (first_line_head k l K) as (c & r & q & -> & E).
  pose proof (first_line_option (c :: r) l K T TL F) as O. rewrite E in O, HD |- *. rewrite (is_comment_head c q r), C. cbv beta iota zeta. rewrite S.
  cbn [app]. rewrite indent_zero by exact (tight_head _ _ T).
  replace (match s_option s with [] => false | _ :: _ => s_indent s <? 0 end) with false by (destruct (s_option s); [reflexivity|]; destruct (s_indent s); reflexivity).
  cbv iota. rewrite HD, O. reflexivity.
Qed.
Lemma opened_added : forall n k s, In (n, Some k) (s_added s) -> added (n, Some k) s = true.
Proof. intros n k s B. unfold added. apply existsb_exists. exists (n, Some k). split; [exact B|]. cbn. rewrite !str_eqb_refl. reflexivity. Qed.
Lemma option_twice : forall n k v w a b c d s, n <> [] -> good_key k -> tight v -> tight w -> header (first_line k v) = None -> header (first_line k w) = None ->
  Forall no_header b -> Forall no_header c ->
  exists e, read_all s (a ++ [lit "[" ++ n ++ lit "]"] ++ b ++ [k ++ lit " = " ++ v] ++ c ++ [k ++ lit " = " ++ w] ++ d) = Err e.
Proof.
  intros n k v w a b c d s N K TV TW HV HW NB NC. rewrite read_app. destruct (read_all s a) as [s1|e]; [|eexists; reflexivity]. cbn [bind]. rewrite read_app. cbn [read_all].
  destruct (read_one s1 (lit "[" ++ n ++ lit "]")) as [s2|e] eqn:E; [|eexists; reflexivity]. cbn [bind]. rewrite read_app.
  pose proof (header_section n s1 s2 N E) as S2.
  destruct (read_all s2 b) as [s3|e] eqn:E3; [|eexists; reflexivity]. cbn [bind]. destruct (all_section n b s2 s3 NB S2 E3) as [S3 _].
  rewrite read_app. cbn [read_all]. rewrite (option_step n k v s3) by assumption.
  destruct (open_option n k v (with_indent 0 s3)) as [s4|e] eqn:E4; [|eexists; reflexivity]. cbn [bind].
  assert (A4 : s_section s4 = Some n /\ In (n, Some k) (s_added s4)).
  { unfold open_option in E4. destruct k as [|k0 k]; [destruct K as [X _]; congruence|]. cbv zeta in E4.
    match type of E4 with (if ?b then _ else _) = _ => destruct b end; [discriminate E4|]. injection E4 as <-. rewrite with_options_section, with_options_added.
    split; [exact S3|left; reflexivity]. }
  destruct A4 as [S4 A4]. rewrite read_app. destruct (read_all s4 c) as [s5|e] eqn:E5; [|eexists; reflexivity]. cbn [bind].
  destruct (all_section n c s4 s5 NC S4 E5) as [S5 I5]. rewrite read_app. cbn [read_all]. rewrite (option_step n k w s5) by assumption.
  unfold open_option. destruct k as [|k0 k]; [destruct K as [X _]; congruence|]. cbv zeta.
  pose proof (opened_added n (k0 :: k) (with_indent 0 s5) (I5 _ A4)) as X. rewrite X. eexists. reflexivity.
Qed.
Lemma bad_step : forall s l s', s_bad s = true -> read_one s l = Ok s' -> s_bad s' = true.
Proof.
  intros s l s' B R. unfold read_one in R. set (value := if is_comment (strip_ws l) then [] else strip_ws l) in R. clearbody value.
  assert (WO : forall m o t, s_bad (with_options m o t) = s_bad t) by (intros; unfold with_options; destruct (str_eqb m default_section); reflexivity).
  assert (AL : forall m v, s_bad (append_line m v s) = true) by (intros; unfold append_line; rewrite WO; exact B).
  assert (OS : forall h i s2, open_section h (with_indent i s) = Ok s2 -> s_bad s2 = true).
  { intros h i s2 H. unfold open_section in H. destruct (dict_has h (s_sections (with_indent i s))).
    - match type of H with (if ?b then _ else _) = _ => destruct b end; [discriminate H|]. injection H as <-. exact B.
    - destruct (str_eqb h default_section); injection H as <-; exact B. }
  destruct value as [|c value].
  - destruct (is_comment (strip_ws l)); [injection R as <-; exact B|].
    destruct (s_section s); [|injection R as <-; exact B]. destruct (s_option s); injection R as <-; [exact B|apply AL].
  - destruct (s_section s) as [m|].
    + destruct (match s_option s with [] => false | _ :: _ => s_indent s <? length (fst (span is_space l)) end); [injection R as <-; apply AL|].
      destruct (header (c :: value)) as [h|]; [exact (OS _ _ _ R)|]. destruct (option_line (c :: value)) as [[k v]|].
      * unfold open_option in R. destruct k as [|k0 k]; cbv zeta in R;
          (match type of R with (if ?b then _ else _) = _ => destruct b end; [discriminate R|]); injection R as <-; rewrite WO; [reflexivity|exact B].
      * injection R as <-. reflexivity.
    + destruct (header (c :: value)) as [h|]; [exact (OS _ _ _ R)|discriminate].
Qed.
Lemma bad_all : forall ls s s', s_bad s = true -> read_all s ls = Ok s' -> s_bad s' = true.
Proof.
  induction ls as [|l ls IH]; intros s s' K R; cbn [read_all] in R; [injection R as <-; exact K|].
  destruct (read_one s l) as [s1|] eqn:E; [|discriminate]. exact (IH s1 s' (bad_step _ _ _ K E) R).
Qed.
Lemma senseless : forall c r s s', tight (c :: r) -> is_comment (c :: r) = false -> c <> "["%char -> forallb not_delimiter (c :: r) = true ->
  read_one s (c :: r) = Ok s' -> s_bad s' = true.
Proof.
  intros c r s s' T C H F R. unfold read_one in R. assert (TT : strip_ws (c :: r) = c :: r) by exact T. rewrite TT, C in R. cbv beta iota zeta in R.
  rewrite indent_zero in R by exact (tight_head _ _ T).
  assert (HD : header (c :: r) = None) by (apply header_none; intro X; contradiction). rewrite HD in R.
  assert (O : option_line (c :: r) = None).
  { unfold option_line. replace (span not_delimiter (c :: r)) with (c :: r, @nil ascii); [reflexivity|]. symmetry. rewrite <- (app_nil_r (c :: r)) at 1. apply span_app; [exact F|reflexivity]. }
  rewrite O in R. destruct (s_section s) as [m|]; [|discriminate].
  replace (match s_option s with [] => false | _ :: _ => s_indent s <? 0 end) with false in R by (destruct (s_option s); [reflexivity|]; destruct (s_indent s); reflexivity).
  injection R as <-. reflexivity.
Qed.
