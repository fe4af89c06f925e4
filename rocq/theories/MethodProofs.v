(** Facts about the commands made of functions. *)
From Coq Require Import String Ascii List Bool NArith Arith Lia.
From Verif Require Import Base BaseFacts ParserModel MarkerModel ProjectModel CliModel ContextModel MethodModel.
Import ListNotations.
Open Scope string_scope.
Open Scope nat_scope.
Open Scope list_scope.
Open Scope bool_scope.

(** ** Names *)
(** the name of a parameter *)
Definition identifier (a : str) : Prop := (exists c r, a = c :: r /\ (is_alpha c = true \/ c = "_"%char)) /\ forallb is_word a = true.
(** neither a leading underscore nor two of them in a row *)
Fixpoint no_double (a : str) : Prop :=
  match a with
  | c :: ((d :: _) as r) => ~ (c = "_"%char /\ d = "_"%char) /\ no_double r
  | _ => True
  end.
Definition tidy_name (a : str) : Prop := (exists c r, a = c :: r /\ is_alpha c = true) /\ forallb is_word a = true /\ no_double a.
Lemma tidy_identifier : forall a, tidy_name a -> identifier a.
Proof. intros a ((c & r & E & A) & W & _). split; [exists c, r; auto|exact W]. Qed.
Lemma word_not : forall c d, is_word c = true -> is_word d = false -> c <> d.
Proof. intros c d H1 H2 ->. congruence. Qed.
Lemma dashes_inj : forall a b, forallb is_word a = true -> forallb is_word b = true -> dashes a = dashes b -> a = b.
Proof.
  induction a as [|x a IH]; intros [|y b] A B E; try discriminate; [reflexivity|]. cbn in A, B. apply andb_true_iff in A, B. cbn in E. injection E as E1 E2. f_equal; [|exact (IH _ (proj2 A) (proj2 B) E2)].
  destruct (Ascii.eqb x "_") eqn:X, (Ascii.eqb y "_") eqn:Y.
  - apply Ascii.eqb_eq in X, Y. congruence.
  - exfalso. subst y. destruct B as [B _]. discriminate.
  - exfalso. subst x. destruct A as [A _]. discriminate.
  - exact E1.
Qed.
Lemma collapse_dashes : forall a, forallb is_word a = true -> no_double a ->
  collapse false (dashes a) = a /\ (match a with c :: _ => c <> "_"%char | [] => True end -> collapse true (dashes a) = a).
Proof.
  induction a as [|c a IH]; intros W D; [auto|]. cbn [forallb] in W. apply andb_true_iff in W. destruct W as [W1 W2].
  assert (D2 : no_double a) by (destruct a; [exact I|exact (proj2 D)]). destruct (IH W2 D2) as [I1 I2]. cbn [dashes map]. fold (dashes a).
  destruct (Ascii.eqb c "_") eqn:E.
  - apply Ascii.eqb_eq in E. subst c. split; [|intro N; contradiction]. change (("_"%char :: collapse true (dashes a)) = "_"%char :: a). f_equal. apply I2. destruct a as [|d a]; [exact I|]. intros ->. destruct D as [D _]. apply D. auto.
  - cbn [collapse]. rewrite W1. split; [|intros _]; rewrite I1; reflexivity.
Qed.
Lemma alpha_facts : forall c, is_alpha c = true -> is_digit c = false /\ c <> "-"%char /\ c <> "+"%char /\ c <> "_"%char /\ c <> ","%char.
Proof.
  intros c H. assert (X : forall d, is_alpha d = false -> c <> d) by (intros d D ->; congruence). repeat split; try (apply X; reflexivity).
  destruct (is_digit c) eqn:E; [exfalso|reflexivity]. unfold is_alpha, is_lower, is_upper, is_digit, in_range in *. apply andb_true_iff in E. rewrite orb_true_iff, !andb_true_iff in H. rewrite !N.leb_le in *. lia.
Qed.
Lemma field_of_long : forall p a, tidy_name a -> (p = [] \/ p = lit "--") -> identifierify (lstrip_marks (p ++ dashes a)) = a.
Proof.
  intros p a ((c & r & -> & A) & W & D) P. destruct (alpha_facts c A) as (F1 & F2 & F3 & F4 & _).
  assert (X : lstrip_marks (p ++ dashes (c :: r)) = dashes (c :: r)).
  { assert (Y : lstrip_marks (dashes (c :: r)) = dashes (c :: r)).
    { unfold lstrip_marks. cbn [dashes map]. rewrite (proj2 (Ascii.eqb_neq c "_") F4). cbn [span]. rewrite (proj2 (Ascii.eqb_neq c "-") F2), (proj2 (Ascii.eqb_neq c "+") F3). reflexivity. }
    destruct P as [->| ->]; [exact Y|]. transitivity (lstrip_marks (dashes (c :: r))); [|exact Y]. unfold lstrip_marks. cbn [lit list_ascii_of_string app]. cbn [span]. rewrite Ascii.eqb_refl. cbn [orb].
    destruct (span (fun c0 => Ascii.eqb c0 "-" || Ascii.eqb c0 "+") (dashes (c :: r))) as [u v]. reflexivity. }
  rewrite X. unfold identifierify. destruct (collapse_dashes (c :: r) W D) as [C _]. cbn [dashes map] in *. fold (dashes r) in *. rewrite (proj2 (Ascii.eqb_neq c "_") F4) in *. rewrite F1. exact C.
Qed.
Lemma field_positional : forall a, tidy_name a -> field_name [dashes a] = a.
Proof.
  intros a T. unfold field_name. cbn [sort_len fold_left insert_len find]. destruct T as ((c & r & -> & A) & W & D). destruct (alpha_facts c A) as (F1 & F2 & F3 & F4 & _).
  assert (S : starts_with (lit "-") (dashes (c :: r)) = false). { cbn [dashes map]. rewrite (proj2 (Ascii.eqb_neq c "_") F4). cbn [lit list_ascii_of_string starts_with]. unfold ascii_eqb. destruct (Ascii.eqb "-" c) eqn:E; [apply Ascii.eqb_eq in E; congruence|reflexivity]. }
  rewrite S, orb_true_r. cbn [dashes map]. rewrite (proj2 (Ascii.eqb_neq c "_") F4). pose proof (field_of_long [] (c :: r) (conj (ex_intro _ c (ex_intro _ r (conj eq_refl A))) (conj W D)) (or_introl eq_refl)) as X.
  cbn [app dashes map] in X. rewrite (proj2 (Ascii.eqb_neq c "_") F4) in X. exact X.
Qed.
Lemma short_mark : forall c, c <> "-"%char -> starts_with (lit "--") ["-"%char; c] || negb (starts_with (lit "-") ["-"%char; c]) = false.
Proof.
  intros c C. apply orb_false_iff. split; [|reflexivity]. destruct (starts_with (lit "--") ["-"%char; c]) eqn:E; [|reflexivity]. apply starts_with_iff in E. destruct E as [r E]. cbn in E. injection E as E _. contradiction.
Qed.
Lemma field_long : forall a rest, tidy_name a -> length a <> 1 -> (rest = [] \/ exists c, is_alpha c = true /\ rest = [["-"%char; c]]) -> field_name (long_name a :: rest) = a.
Proof.
  intros a rest T L R. assert (X : identifierify (lstrip_marks (long_name a)) = a) by (apply field_of_long; auto).
  assert (B : starts_with (lit "--") (long_name a) = true) by apply starts_with_app.
  destruct R as [->|(c & A & ->)].
  - unfold field_name. cbn [sort_len fold_left insert_len find]. rewrite B. cbn [orb]. exact X.
  - unfold field_name. cbn [sort_len fold_left insert_len]. assert (N : (length ["-"%char; c] <? length (long_name a)) = true).
    { apply Nat.ltb_lt. unfold long_name. rewrite app_length. unfold dashes. rewrite map_length. destruct T as ((d & r & -> & _) & _). cbn in *. lia. }
    rewrite N. cbn [find]. destruct (alpha_facts c A) as (_ & F2 & _). assert (S : starts_with (lit "--") ["-"%char; c] || negb (starts_with (lit "-") ["-"%char; c]) = false).
    { apply short_mark. exact F2. }
    rewrite S, B. cbn [orb]. exact X.
Qed.
Lemma field_single : forall c, is_alpha c = true -> field_name [["-"%char; c]] = [c].
Proof.
  intros c A. destruct (alpha_facts c A) as (F1 & F2 & F3 & F4 & _). unfold field_name. cbn [sort_len fold_left insert_len find].
  assert (S : starts_with (lit "--") ["-"%char; c] || negb (starts_with (lit "-") ["-"%char; c]) = false).
  { apply short_mark. exact F2. }
  rewrite S. cbn [hd]. unfold lstrip_marks. cbn [span]. rewrite Ascii.eqb_refl. cbn [orb]. rewrite (proj2 (Ascii.eqb_neq c "-") F2), (proj2 (Ascii.eqb_neq c "+") F3). cbn. rewrite F1. cbn. unfold is_word, is_alnum. unfold is_alpha in A.
  apply orb_true_iff in A. destruct A as [A|A]; rewrite A; rewrite ?orb_true_r; reflexivity.
Qed.

(** ** The names of options *)
Definition names_of (d : list (str * list str)) : list str := flat_map snd d.
Definition shaped (done : list str) (n : str) : Prop := (exists a, In a done /\ n = long_name a) \/ exists c, c <> "-"%char /\ n = ["-"%char; c].
Record fine (done : list str) (st : list (str * list str) * list str) : Prop := Fine {
  fine_names : names_of (fst st) = snd st;
  fine_nodup : NoDup (snd st);
  fine_shape : forall n, In n (snd st) -> shaped done n;
  fine_keys : forall k, In k (map fst (fst st)) -> In k done }.
Lemma dict_set_new : forall V k (v : V) d, ~ In k (map fst d) -> dict_set k v d = d ++ [(k, v)].
Proof.
  induction d as [|[k' v'] d IH]; intro H; [reflexivity|]. cbn in *. destruct (str_eqb k k') eqn:E; [apply str_eqb_eq in E; subst; exfalso; apply H; auto|]. rewrite IH; [reflexivity|]. intro I. apply H. auto.
Qed.
Lemma shaped_more : forall done a n, shaped done n -> shaped (done ++ [a]) n.
Proof. intros done a n [(b & I & ->)|(c & C & ->)]; [left; exists b; split; [apply in_or_app; auto|reflexivity]|right; eauto]. Qed.
Lemma assign_fine : forall done st a names, fine done st -> ~ In a (map fst (fst st)) -> NoDup names -> (forall n, In n names -> ~ In n (snd st)) -> (forall n, In n names -> shaped (done ++ [a]) n) ->
  fine (done ++ [a]) (assign st a names) /\ fst (assign st a names) = fst st ++ [(a, names)].
Proof.
  intros done [d taken] a names [F1 F2 F3 F4] N ND DJ SH. unfold assign. cbn [fst snd] in *. rewrite (proj2 (dict_get_none _ a d) N), (dict_set_new _ _ _ _ N). cbn [app]. split; [|reflexivity]. constructor; cbn [fst snd].
  - unfold names_of in *. rewrite flat_map_app, F1. cbn. rewrite app_nil_r. reflexivity.
  - clear -F2 ND DJ. induction taken as [|t taken IH]; [exact ND|]. inversion F2; subst. cbn. constructor.
    + rewrite in_app_iff. intros [I|I]; [contradiction|]. apply (DJ t I). left. reflexivity.
    + apply IH; [assumption|]. intros n I J. apply (DJ n I). right. exact J.
  - intros n I. apply in_app_or in I. destruct I as [I|I]; [apply shaped_more, F3, I|exact (SH n I)].
  - intros k I. rewrite map_app, in_app_iff in I. apply in_or_app. destruct I as [I|[<-|[]]]; [left; exact (F4 k I)|right; left; reflexivity].
Qed.
Definition single (a : str) : bool := length a =? 1.
Lemma single_char : forall a, single a = true -> exists c, a = [c].
Proof. intros [|c [|d a]] H; try discriminate. eauto. Qed.
Lemma shorts_fine : forall args done st, fine done st -> (forall n, In n (snd st) -> exists c, In [c] done /\ n = ["-"%char; c]) -> NoDup (done ++ args) -> (forall a, In a args -> identifier a) ->
  let st' := fold_left short_step args st in
  fine (done ++ args) st' /\ (forall n, In n (snd st') -> exists c, In [c] (done ++ args) /\ n = ["-"%char; c]) /\
  fst st' = fst st ++ map (fun a => (a, ["-"%char :: a])) (filter single args).
Proof.
  induction args as [|a args IH]; intros done st F T N ID; cbn [fold_left].
  - rewrite !app_nil_r. auto.
  - assert (NA : ~ In a done). { intro I. apply NoDup_remove_2 in N. apply N. apply in_or_app. auto. }
    replace (done ++ a :: args) with ((done ++ [a]) ++ args) in * by (rewrite <- app_assoc; reflexivity).
    change (short_step st a) with (if single a then assign st a ["-"%char :: a] else st). cbn [filter]. destruct (single a) eqn:S.
    + destruct (single_char a S) as [c ->]. assert (C : c <> "-"%char). { destruct (ID [c] (or_introl eq_refl)) as [_ W]. cbn in W. intros ->. discriminate. }
      destruct (assign_fine done st [c] [["-"%char; c]] F) as [F' E'].
      * intro I. apply NA. exact (fine_keys _ _ F _ I).
      * constructor; [intros []|constructor].
      * intros n [<-|[]] I. destruct (T _ I) as (d & I2 & E). injection E as <-. contradiction.
      * intros n [<-|[]]. right. eauto.
      * destruct (IH (done ++ [[c]]) (assign st [c] [["-"%char; c]]) F') as (R1 & R2 & R3); [|exact N|intros; apply ID; right; assumption|].
        -- intros n I. cbn [snd assign] in I. apply in_app_or in I. destruct I as [I|[<-|[]]]; [destruct (T n I) as (d & D & E); exists d; split; [apply in_or_app; auto|exact E]|exists c; split; [apply in_or_app; right; left; reflexivity|reflexivity]].
        -- split; [exact R1|]. split; [exact R2|]. rewrite R3, E', <- app_assoc. reflexivity.
    + assert (F' : fine (done ++ [a]) st). { destruct F as [F1 F2 F3 F4]. constructor; auto; [intros n I; apply shaped_more, F3, I|intros k I; apply in_or_app; left; exact (F4 k I)]. }
      apply (IH (done ++ [a]) st F'); [|exact N|intros; apply ID; right; assumption]. intros n I. destruct (T n I) as (c & D & E). exists c. split; [apply in_or_app; auto|exact E].
Qed.
Lemma free_letter_spec : forall taken a s, free_letter taken a = Some s -> exists c, In c a /\ is_alpha c = true /\ s = ["-"%char; c] /\ ~ In s taken.
Proof.
  induction a as [|c a IH]; intros s H; [discriminate|]. cbn in H. destruct (is_alpha c && negb (str_mem ["-"%char; c] taken)) eqn:E.
  - injection H as <-. apply andb_true_iff in E. destruct E as [E1 E2]. exists c. split; [left; reflexivity|]. split; [exact E1|]. split; [reflexivity|]. intro I. apply negb_true_iff in E2. unfold str_mem in E2.
    assert (X : existsb (str_eqb ["-"%char; c]) taken = true) by (apply existsb_exists; exists ["-"%char; c]; split; [exact I|apply str_eqb_refl]). congruence.
  - destruct (IH s H) as (d & D & R). exists d. split; [right; exact D|exact R].
Qed.
Definition long_names (a : str) (l : list str) : Prop := l = [long_name a] \/ exists c, In c a /\ is_alpha c = true /\ l = [long_name a; ["-"%char; c]].
Lemma long_not_short : forall a c, identifier a -> c <> "-"%char -> long_name a <> ["-"%char; c].
Proof. intros a c _ C E. unfold long_name in E. cbn in E. injection E as E _. congruence. Qed.
(** [all]: every parameter; [done]: those whose turn was *)
Lemma longs_fine : forall args done all st, fine all st -> (forall a, In a args -> In a all) ->
  (forall k, In k (map fst (fst st)) -> single k = true \/ In k done) -> (forall n, In n (snd st) -> (exists a, In a done /\ single a = false /\ n = long_name a) \/ exists c, c <> "-"%char /\ n = ["-"%char; c]) ->
  NoDup (done ++ args) -> (forall a, In a (done ++ args) -> identifier a) ->
  let st' := fold_left long_step args st in
  NoDup (snd st') /\ names_of (fst st') = snd st' /\
  exists added, fst st' = fst st ++ added /\ map fst added = filter (fun a => negb (single a)) args /\ forall a l, In (a, l) added -> long_names a l.
Proof.
  induction args as [|a args IH]; intros done all st F SUB K T N ID; cbn [fold_left].
  - split; [exact (fine_nodup _ _ F)|]. split; [exact (fine_names _ _ F)|]. exists []. rewrite app_nil_r. split; [reflexivity|]. split; [reflexivity|intros a l []].
  - assert (NA : ~ In a done). { intro I. apply NoDup_remove_2 in N. apply N. apply in_or_app. auto. }
    replace (done ++ a :: args) with ((done ++ [a]) ++ args) in * by (rewrite <- app_assoc; reflexivity).
    change (long_step st a) with (if single a then st else match free_letter (snd st) a with Some s => assign st a [long_name a; s] | None => assign st a [long_name a] end). cbn [filter]. destruct (single a) eqn:S; cbn [negb].
    + apply (IH (done ++ [a]) all st F); [intros; apply SUB; right; assumption| |  |exact N|exact ID].
      * intros k I. destruct (K k I) as [H|H]; [auto|right; apply in_or_app; auto].
      * intros n I. destruct (T n I) as [(b & B & R)|R]; [left; exists b; split; [apply in_or_app; auto|exact R]|auto].
    + assert (IA : identifier a) by (apply ID; rewrite <- app_assoc; apply in_or_app; right; left; reflexivity).
      assert (LT : ~ In (long_name a) (snd st)).
      { intro I. destruct (T _ I) as [(b & B & _ & E)|(c & C & E)]; [|exact (long_not_short a c IA C E)]. unfold long_name in E. apply app_inv_head in E.
        apply dashes_inj in E; [|exact (proj2 IA)|apply ID; rewrite <- app_assoc; apply in_or_app; auto]. subst b. contradiction. }
      assert (KA : ~ In a (map fst (fst st))). { intro I. destruct (K a I) as [H|H]; [congruence|contradiction]. }
      assert (STEP : exists l, long_names a l /\ NoDup l /\ (forall n, In n l -> ~ In n (snd st)) /\
         (forall n, In n l -> n = long_name a \/ exists c, c <> "-"%char /\ n = ["-"%char; c]) /\
         match free_letter (snd st) a with Some s => assign st a [long_name a; s] | None => assign st a [long_name a] end = assign st a l).
      { destruct (free_letter (snd st) a) as [s|] eqn:FL.
        - destruct (free_letter_spec _ _ _ FL) as (c & I & A & -> & NT). destruct (alpha_facts c A) as (_ & C & _). exists [long_name a; ["-"%char; c]].
          split; [right; eauto|]. split; [constructor; [intros [E|[]]; symmetry in E; exact (long_not_short a c IA C E)|constructor; [intros []|constructor]]|].
          split; [intros n [<-|[<-|[]]]; assumption|]. split; [intros n [<-|[<-|[]]]; [auto|right; eauto]|reflexivity].
        - exists [long_name a]. split; [left; reflexivity|]. split; [constructor; [intros []|constructor]|]. split; [intros n [<-|[]]; assumption|]. split; [intros n [<-|[]]; auto|reflexivity]. }
      destruct STEP as (l & L1 & L2 & L3 & L4 & ->).
      destruct (assign_fine all st a l F KA L2 L3) as [F' E'].
      { intros n I. destruct (L4 n I) as [->|(c & C & ->)]; [left; exists a; split; [apply in_or_app; right; left; reflexivity|reflexivity]|right; eauto]. }
      assert (F'' : fine all (assign st a l)).
      { destruct F' as [F1 F2 F3 F4]. assert (AA : In a all) by (apply SUB; left; reflexivity). constructor; auto.
        - intros n I. destruct (F3 n I) as [(b & B & E)|R]; [left; exists b; split; [apply in_app_or in B; destruct B as [B|[<-|[]]]; assumption|exact E]|right; exact R].
        - intros k I. specialize (F4 k I). apply in_app_or in F4. destruct F4 as [B|[<-|[]]]; assumption. }
      destruct (IH (done ++ [a]) all (assign st a l) F'') as (R1 & R2 & added & R3 & R4 & R5); [intros; apply SUB; right; assumption| | |exact N|exact ID|].
      * intros k I. rewrite E', map_app, in_app_iff in I. destruct I as [I|[<-|[]]]; [destruct (K k I) as [H|H]; [auto|right; apply in_or_app; auto]|right; apply in_or_app; right; left; reflexivity].
      * intros n I. cbn [snd assign] in I. apply in_app_or in I. destruct I as [I|I].
        -- destruct (T n I) as [(b & B & R)|R]; [left; exists b; split; [apply in_or_app; auto|exact R]|auto].
        -- destruct (L4 n I) as [->|R]; [left; exists a; split; [apply in_or_app; right; left; reflexivity|auto]|right; exact R].
      * split; [exact R1|]. split; [exact R2|]. exists ((a, l) :: added). split; [rewrite R3, E', <- app_assoc; reflexivity|]. split; [cbn; rewrite R4; reflexivity|]. intros b l' [E|I]; [injection E as <- <-; exact L1|exact (R5 b l' I)].
Qed.
Definition raw_names (args : list str) : list (str * list str) := fst (fold_left long_step args (fold_left short_step args ([], []))).
Lemma raw_spec : forall args, NoDup args -> (forall a, In a args -> identifier a) ->
  NoDup (names_of (raw_names args)) /\
  exists added, raw_names args = map (fun a => (a, ["-"%char :: a])) (filter single args) ++ added /\
    map fst added = filter (fun a => negb (single a)) args /\ forall a l, In (a, l) added -> long_names a l.
Proof.
  intros args N ID.
  destruct (shorts_fine args [] ([], [])) as (F & T & E); [|intros n []|exact N|exact ID|].
  { constructor; [reflexivity|constructor|intros n []|intros k []]. }
  cbn [app fst] in F, T, E. destruct (longs_fine args [] args (fold_left short_step args ([], [])) F) as (R1 & R2 & added & R3 & R4 & R5); [auto| | |exact N|exact ID|].
  - intros k I. rewrite E, map_map in I. cbn in I. rewrite map_id in I. apply filter_In in I. left. exact (proj2 I).
  - intros n I. destruct (T n I) as (c & D & ->). right. exists c. split; [|reflexivity]. intros ->. destruct (ID _ D) as [_ W]. discriminate.
  - unfold raw_names. split; [rewrite R2; exact R1|]. exists added. rewrite R3, E. auto.
Qed.
Lemma comma_free : forall a l n, identifier a -> (l = ["-"%char :: a] \/ long_names a l) -> In n l -> ~ In ","%char n.
Proof.
  intros a l n [_ W] L I. assert (NA : ~ In ","%char a). { intro J. rewrite forallb_forall in W. specialize (W _ J). discriminate. }
  assert (NL : ~ In ","%char (long_name a)). { unfold long_name. intro J. cbn [lit list_ascii_of_string app] in J. destruct J as [J|[J|J]]; try discriminate. unfold dashes in J. apply in_map_iff in J. destruct J as (c & E & J). destruct (Ascii.eqb c "_") eqn:X; [discriminate|subst; contradiction]. }
  destruct L as [->|[->|(c & C & A & ->)]].
  - destruct I as [<-|[]]. intros [J|J]; [discriminate|contradiction].
  - destruct I as [<-|[]]. exact NL.
  - destruct I as [<-|[<-|[]]]; [exact NL|]. intros [J|[J|[]]]; [discriminate|]. subst c. contradiction.
Qed.
Lemma entry_cases : forall args a l, NoDup args -> (forall x, In x args -> identifier x) -> In (a, l) (raw_names args) -> In a args /\ identifier a /\ (single a = true /\ l = ["-"%char :: a] \/ single a = false /\ long_names a l).
Proof.
  intros args a l N ID I. destruct (raw_spec args N ID) as (_ & added & E & K & L). rewrite E in I. apply in_app_or in I. destruct I as [I|I].
  - apply in_map_iff in I. destruct I as (x & X & I). injection X as <- <-. apply filter_In in I. destruct I as [I S]. auto.
  - assert (J : In a (map fst added)) by (apply in_map_iff; exists (a, l); auto). rewrite K in J. apply filter_In in J. destruct J as [J S]. apply negb_true_iff in S. split; [exact J|]. split; [exact (ID a J)|]. right. split; [exact S|exact (L a l I)].
Qed.
Lemma option_names_split : forall args kv, NoDup args -> (forall x, In x args -> identifier x) -> In kv (raw_names args) -> split_on "," (join (lit ",") (snd kv)) = snd kv.
Proof.
  intros args [a l] N ID I. destruct (entry_cases args a l N ID I) as (_ & IA & C). cbn [snd]. change (lit ",") with [","%char]. apply split_join.
  - destruct C as [[_ ->]|[_ [->|(c & _ & _ & ->)]]]; discriminate.
  - intros w W. apply (comma_free a l w IA); [|exact W]. destruct C as [[_ C]|[_ C]]; auto.
Qed.
Lemma raw_get : forall args a, NoDup args -> (forall x, In x args -> identifier x) -> In a args -> exists l, dict_get a (raw_names args) = Some l /\ In (a, l) (raw_names args).
Proof.
  intros args a N ID I. destruct (dict_get a (raw_names args)) as [l|] eqn:E; [exists l; split; [reflexivity|exact (dict_get_in _ _ _ _ E)]|]. exfalso. apply dict_get_none in E. apply E.
  destruct (raw_spec args N ID) as (_ & added & R & K & _). rewrite R, map_app. apply in_or_app. destruct (single a) eqn:S.
  - left. rewrite map_map. apply in_map_iff. exists a. split; [reflexivity|]. apply filter_In. auto.
  - right. assert (J : In a (filter (fun a => negb (single a)) args)) by (apply filter_In; rewrite S; auto). rewrite <- K in J. exact J.
Qed.
Lemma dict_get_map : forall A B (f : A -> B) k d, dict_get k (map (fun kv => (fst kv, f (snd kv))) d) = option_map f (dict_get k d).
Proof. intros A B f k. induction d as [|[k' v] d IH]; [reflexivity|]. cbn. destruct (str_eqb k k'); [reflexivity|exact IH]. Qed.
Lemma option_get : forall args a, NoDup args -> (forall x, In x args -> identifier x) -> In a args ->
  exists l, dict_get a (option_names args) = Some (join (lit ",") l) /\ split_on "," (join (lit ",") l) = l /\ In (a, l) (raw_names args).
Proof.
  intros args a N ID I. destruct (raw_get args a N ID I) as (l & E & J). exists l. split; [|split; [exact (option_names_split args (a, l) N ID J)|exact J]].
  unfold option_names. fold (raw_names args). rewrite (dict_get_map _ _ (join (lit ","))), E. reflexivity.
Qed.
Lemma option_field : forall args a l, NoDup args -> (forall x, In x args -> identifier x) -> In (a, l) (raw_names args) -> tidy_name a -> field_name l = a.
Proof.
  intros args a l N ID I T. destruct (entry_cases args a l N ID I) as (_ & _ & [[S ->]|[S [->|(c & _ & A & ->)]]]).
  - destruct (single_char a S) as [c ->]. apply field_single. destruct T as ((d & r & E & A) & _). injection E as <- <-. exact A.
  - apply field_long; [exact T| |left; reflexivity]. intro L. unfold single in S. rewrite L in S. discriminate.
  - apply field_long; [exact T| |right; eauto]. intro L. unfold single in S. rewrite L in S. discriminate.
Qed.

(** ** Calls *)
Definition tidy_sig (g : signature) : Prop := NoDup (g_args g ++ g_kwonly g) /\ (forall p, In p (g_args g ++ g_kwonly g) -> tidy_name p) /\
  length (g_defaults g) <= length (g_args g) /\ g_varargs g = None.
Lemma defaults_length : forall g, length (g_defaults g) <= length (g_args g) -> length (positional_defaults g) = length (g_args g).
Proof. intros g L. unfold positional_defaults. rewrite app_length, repeat_length, map_length. lia. Qed.
Lemma map_fst_combine : forall A B (a : list A) (b : list B), length a = length b -> map fst (combine a b) = a.
Proof. intros A B. induction a as [|x a IH]; intros [|y b] L; try discriminate; [reflexivity|]. cbn. f_equal. apply IH. injection L as L. exact L. Qed.
Lemma map_const_repeat : forall k, map (fun _ : nat => @None val) (seq 0 k) = repeat None k.
Proof. intro k. generalize 0. induction k as [|k IH]; intro n; [reflexivity|]. cbn. f_equal. apply IH. Qed.
Lemma native_defaults : forall g, length (g_defaults g) <= length (g_args g) -> map (default_at g) (seq 0 (length (g_args g))) = positional_defaults g.
Proof.
  intros g L. unfold positional_defaults. set (k := length (g_args g) - length (g_defaults g)). replace (length (g_args g)) with (k + length (g_defaults g)) by (unfold k; lia). rewrite seq_app, map_app. f_equal.
  - rewrite <- (map_const_repeat k). apply map_ext_in. intros i I. apply in_seq in I. unfold default_at. replace (i + length (g_defaults g) <? length (g_args g)) with true; [reflexivity|]. symmetry. apply Nat.ltb_lt. unfold k in I. lia.
  - cbn [plus]. assert (X : forall l n, (forall j, j < length l -> default_at g (n + j) = nth_error l j) -> map (default_at g) (seq n (length l)) = map Some l).
    { induction l as [|v l IH]; intros n H; [reflexivity|]. cbn [length seq map]. f_equal; [rewrite <- (Nat.add_0_r n); apply (H 0); cbn; lia|]. apply IH. intros j J. rewrite Nat.add_succ_comm. apply (H (S j)). cbn. lia. }
    apply X. intros j J. unfold default_at. replace (k + j + length (g_defaults g) <? length (g_args g)) with false by (symmetry; apply Nat.ltb_ge; unfold k; lia). f_equal. unfold k. lia.
Qed.
Lemma params_eq : forall g, length (g_defaults g) <= length (g_args g) -> params g = combine (g_args g) (positional_defaults g) ++ map (fun k => (k, kwdefault g k)) (g_kwonly g).
Proof. intros g L. unfold params. rewrite native_defaults by exact L. reflexivity. Qed.
Lemma params_names : forall g, length (g_defaults g) <= length (g_args g) -> map fst (params g) = g_args g ++ g_kwonly g.
Proof. intros g L. rewrite (params_eq g L), map_app, map_fst_combine by (symmetry; apply defaults_length, L). f_equal. rewrite map_map. cbn. apply map_id. Qed.
Lemma positional_fields : forall g, tidy_sig g -> map a_field (positional_defs g) = g_args g.
Proof.
  intros g (_ & T & L & _). unfold positional_defs. rewrite map_map. rewrite <- (map_fst_combine _ _ (g_args g) (positional_defaults g)) at 2 by (symmetry; apply defaults_length, L).
  apply map_ext_in. intros [a d] I. unfold a_field. cbn [a_names fst]. apply field_positional, T, in_or_app. left. exact (in_combine_l _ _ _ _ I).
Qed.
Lemma kwonly_names : forall g d k, a_names (kwonly_def g d k) = split_on "," (match dict_get k (option_names (g_kwonly g)) with Some s => s | None => [] end).
Proof. intros g d k. unfold kwonly_def. destruct (type_of g k) as [[]|], (dict_get k d) as [[| [] | | | |]|]; reflexivity. Qed.
Lemma kwonly_field : forall g d k, tidy_sig g -> In k (g_kwonly g) -> a_field (kwonly_def g d k) = k.
Proof.
  intros g d k (N & T & _ & _) I. unfold a_field. rewrite kwonly_names.
  assert (N2 : NoDup (g_kwonly g)). { clear -N. induction (g_args g) as [|a l IH]; [exact N|]. inversion N; subst. auto. }
  assert (ID : forall x, In x (g_kwonly g) -> identifier x) by (intros x X; apply tidy_identifier, T, in_or_app; auto).
  destruct (option_get (g_kwonly g) k N2 ID I) as (l & E & S & R). rewrite E, S. apply (option_field (g_kwonly g) k l N2 ID R). apply T, in_or_app. auto.
Qed.
Lemma definition_fields : forall g defs, tidy_sig g -> definition g = Ok defs -> map a_field defs = g_args g ++ g_kwonly g.
Proof.
  intros g defs T H. unfold definition in H. destruct (kwonly_defs g) as [k|] eqn:K; [|discriminate]. cbn in H. injection H as <-. rewrite !map_app, (positional_fields g T). f_equal.
  pose proof T as (_ & _ & _ & V). unfold varargs_defs. rewrite V. cbn [map app]. unfold kwonly_defs in K. destruct (g_kwonly g) as [|x l] eqn:G; [injection K as <-; reflexivity|].
  destruct (g_kwdefaults g) as [d|]; [|discriminate]. injection K as <-. transitivity (map (fun k => a_field (kwonly_def g d k)) (x :: l)); [cbn [map]; f_equal; apply map_map|]. rewrite <- (map_id (x :: l)) at 2. apply map_ext_in. intros a I. apply kwonly_field; [exact T|rewrite G; exact I].
Qed.
Lemma str_mem_in' : forall x l, str_mem x l = true <-> In x l.
Proof.
  intros x l. unfold str_mem. rewrite existsb_exists. split; [intros (y & I & E); apply str_eqb_eq in E; subst; exact I|intro I; exists x; split; [exact I|apply str_eqb_refl]].
Qed.
Lemma dict_get_filter : forall (d : list (str * val)) l p, In p l -> dict_get p (filter (fun kv => str_mem (fst kv) l) d) = dict_get p d.
Proof.
  intros d l p I. induction d as [|[k v] d IH]; [reflexivity|]. cbn [filter fst]. destruct (str_mem k l) eqn:M; cbn [dict_get].
  - destruct (str_eqb p k); [reflexivity|exact IH].
  - destruct (str_eqb p k) eqn:E; [|exact IH]. apply str_eqb_eq in E. subst k. apply str_mem_in' in I. congruence.
Qed.
Lemma bind_spec : forall ps kw, (forall p d, In (p, d) ps -> dict_get p kw <> None \/ d <> None) -> NoDup (map fst ps) ->
  exists bound, bind_params ps kw = Ok bound /\ map fst bound = map fst ps /\ forall p d, In (p, d) ps -> dict_get p bound = match dict_get p kw with Some v => Some v | None => d end.
Proof.
  induction ps as [|[p d] ps IH]; intros kw H N; [exists []; repeat split; intros p d []|]. inversion N as [|x y N1 N2]; subst.
  destruct (IH kw) as (b & E & K & G); [intros q e I; apply (H q e); right; exact I|exact N2|]. cbn [bind_params].
  assert (X : exists v, match dict_get p kw with Some v => Some v | None => d end = Some v).
  { destruct (dict_get p kw) as [v|] eqn:Q; [eauto|]. destruct (H p d (or_introl eq_refl)) as [C|C]; [congruence|]. destruct d; [eauto|congruence]. }
  destruct X as [v X]. rewrite X, E. cbn. exists ((p, v) :: b). split; [reflexivity|]. split; [cbn; rewrite K; reflexivity|].
  intros q e [I|I].
  - injection I as <- <-. cbn. rewrite str_eqb_refl. symmetry. exact X.
  - cbn. destruct (str_eqb q p) eqn:Q; [|exact (G q e I)]. apply str_eqb_eq in Q. subst q. exfalso. apply N1. apply in_map_iff. exists (p, e). auto.
Qed.
Lemma bind_sound : forall ps kw bound, bind_params ps kw = Ok bound -> NoDup (map fst ps) ->
  map fst bound = map fst ps /\ forall p d, In (p, d) ps -> dict_get p bound = match dict_get p kw with Some v => Some v | None => d end.
Proof.
  intros ps kw bound H N. destruct (bind_spec ps kw) as (b & E & K & G); [|exact N|rewrite E in H; injection H as <-; auto].
  clear N. revert bound H. induction ps as [|[q e] ps IH]; intros bound H p d I; [destruct I|]. cbn in H. destruct I as [I|I].
  - injection I as -> ->. destruct (dict_get p kw); [left; discriminate|]. destruct d; [right; discriminate|discriminate].
  - destruct (match dict_get q kw with Some v => Some v | None => e end); [|discriminate]. destruct (bind_params ps kw) as [b|]; [|discriminate]. exact (IH b eq_refl p d I).
Qed.

(** ** Texts *)
Lemma span_skip : forall f a s, forallb f a = true -> snd (span f (a ++ s)) = snd (span f s).
Proof. intros f. induction a as [|c a IH]; intros s H; [reflexivity|]. cbn in H. apply andb_true_iff in H. cbn. rewrite (proj1 H). rewrite <- (IH s (proj2 H)). destruct (span f (a ++ s)). reflexivity. Qed.
Lemma forallb_rev : forall A (f : A -> bool) l, forallb f (rev l) = forallb f l.
Proof. intros A f. induction l as [|x l IH]; [reflexivity|]. cbn. rewrite forallb_app, IH. cbn. rewrite andb_true_r. apply andb_comm. Qed.
Lemma strip_pad : forall a s b, forallb is_space a = true -> forallb is_space b = true -> s <> [] -> strip s = s -> strip (a ++ s ++ b) = s.
Proof.
  intros a s b A B NE T. unfold strip in *. rewrite span_skip by exact A.
  assert (X : snd (span is_space (s ++ b)) = s ++ b).
  { destruct s as [|c s]; [contradiction|]. cbn. destruct (is_space c) eqn:C; [|reflexivity]. exfalso. cbn in T. rewrite C in T.
    assert (L : forall f l, length (snd (span f l)) <= length l). { intros f. induction l as [|x l IH]; [cbn; lia|]. cbn. destruct (f x); [destruct (span f l); cbn in *; lia|cbn; lia]. }
    destruct (span is_space s) as [u v] eqn:S. cbn in T. pose proof (f_equal (@length ascii) T) as E. rewrite rev_length in E. pose proof (L is_space (rev v)) as L1. rewrite rev_length in L1. pose proof (L is_space s) as L2. rewrite S in L2. cbn in *. lia. }
  rewrite X, rev_app_distr, span_skip by (rewrite forallb_rev; exact B).
  assert (Y : snd (span is_space s) = s).
  { destruct s as [|c s]; [contradiction|]. cbn in X |- *. destruct (is_space c); [|reflexivity]. exfalso.
    assert (L : forall f l, length (snd (span f l)) <= length l). { intros f. induction l as [|x l IH]; [cbn; lia|]. cbn. destruct (f x); [destruct (span f l); cbn in *; lia|cbn; lia]. }
    destruct (span is_space (s ++ b)) as [u v] eqn:S. cbn in X. pose proof (L is_space (s ++ b)) as L2. rewrite S in L2. cbn in L2. rewrite X in L2. cbn in L2. lia. }
  rewrite Y in T. exact T.
Qed.
Lemma margin_space : forall c, is_margin c = true -> is_space c = true.
Proof. intros c H. unfold is_margin in H. apply orb_true_iff in H. destruct H as [H|H]; apply Ascii.eqb_eq in H; subst; reflexivity. Qed.
Lemma indent_app : forall m l, forallb is_margin m = true -> indent (m ++ l) = m ++ indent l.
Proof. intros m l. induction m as [|c m IH]; intro H; [reflexivity|]. cbn in H. apply andb_true_iff in H. unfold indent in *. cbn. rewrite (proj1 H). specialize (IH (proj2 H)). destruct (span is_margin (m ++ l)). cbn in *. rewrite IH. reflexivity. Qed.
Lemma common_prefix : forall m a b, common (m ++ a) (m ++ b) = m ++ common a b.
Proof. induction m as [|c m IH]; intros a b; [reflexivity|]. cbn. rewrite Ascii.eqb_refl, IH. reflexivity. Qed.
Lemma common_nil : forall a, common a [] = [].
Proof. destruct a; reflexivity. Qed.
Lemma common_fold : forall m l a, (forall x, In x l -> exists r, x = m ++ r) -> exists a', fold_left common l (m ++ a) = m ++ a' /\ (a = [] -> a' = []).
Proof.
  intros m l. induction l as [|x l IH]; intros a H; [exists a; auto|]. cbn. destruct (H x (or_introl eq_refl)) as [r ->]. rewrite common_prefix.
  destruct (IH (common a r)) as (a' & E & Z); [intros; apply H; right; assumption|]. exists a'. split; [exact E|]. intros ->. apply Z. reflexivity.
Qed.
Lemma common_fold_nil : forall m l a, (forall x, In x l -> exists r, x = m ++ r) -> In m l -> fold_left common l (m ++ a) = m.
Proof.
  intros m l. induction l as [|x l IH]; intros a H I; [destruct I|]. cbn. destruct (H x (or_introl eq_refl)) as [r E]. destruct I as [->|I].
  - rewrite <- (app_nil_r m) at 2. rewrite common_prefix, common_nil. destruct (common_fold m l []) as (a' & E' & Z); [intros; apply H; right; assumption|]. rewrite E', Z, app_nil_r; reflexivity.
  - subst x. rewrite common_prefix. apply IH; [intros; apply H; right; assumption|exact I].
Qed.
Lemma margin_spec : forall m lines, forallb is_margin m = true -> (forall l, In l lines -> blank l = true \/ exists r, l = m ++ r) ->
  (exists c r, is_margin c = false /\ In (m ++ c :: r) lines) -> margin lines = m.
Proof.
  intros m lines M H (c & r & C & I). unfold margin. remember (map indent (filter (fun l => negb (blank l)) lines)) as is eqn:E.
  assert (P : forall x, In x is -> exists q, x = m ++ q).
  { intros x X. subst is. apply in_map_iff in X. destruct X as (l & <- & X). apply filter_In in X. destruct X as [X B]. apply negb_true_iff in B. destruct (H l X) as [C'|(q & ->)]; [congruence|]. rewrite indent_app by exact M. eauto. }
  assert (Q : In m is).
  { subst is. apply in_map_iff. exists (m ++ c :: r). split; [rewrite indent_app by exact M; unfold indent; cbn; rewrite C, app_nil_r; reflexivity|]. apply filter_In. split; [exact I|]. unfold blank. rewrite forallb_app. cbn. rewrite C, andb_false_r. reflexivity. }
  destruct is as [|i is]; [destruct Q|]. destruct (P i (or_introl eq_refl)) as [q ->]. destruct Q as [Q|Q].
  - rewrite <- (app_nil_r m) in Q at 2. apply app_inv_head in Q. subst q. rewrite app_nil_r. destruct (common_fold m is []) as (a' & E' & Z); [intros; apply P; right; assumption|]. rewrite app_nil_r in E'. rewrite E', Z, app_nil_r; reflexivity.
  - apply common_fold_nil; [intros; apply P; right; assumption|exact Q].
Qed.
Lemma blank_app : forall a b, blank (a ++ b) = blank a && blank b.
Proof. intros. apply forallb_app. Qed.
Lemma dedent_indented : forall m lines, forallb is_margin m = true -> (forall l, In l lines -> blank l = true -> l = []) ->
  (exists c r, is_margin c = false /\ In (c :: r) lines) -> dedent_lines ([] :: map (app m) lines ++ [m]) = [] :: lines ++ [[]].
Proof.
  intros m lines M B (c & r & C & I).
  assert (MG : margin ([] :: map (app m) lines ++ [m]) = m).
  { apply margin_spec; [exact M| |].
    - intros l [<-|L]; [left; reflexivity|]. apply in_app_or in L. destruct L as [L|[<-|[]]]; [apply in_map_iff in L; destruct L as (x & <- & _); right; eauto|left; exact M].
    - exists c, r. split; [exact C|]. right. apply in_or_app. left. apply in_map. exact I. }
  unfold dedent_lines. rewrite MG. cbn [map blank forallb]. f_equal. rewrite map_app. f_equal.
  - rewrite map_map. rewrite <- (map_id lines) at 2. apply map_ext_in. intros l L. rewrite blank_app. change (blank m = true) in M. rewrite M. cbn [andb]. destruct (blank l) eqn:BL; [symmetry; exact (B l L BL)|]. rewrite skipn_app, skipn_all, Nat.sub_diag. reflexivity.
  - cbn [map]. unfold blank. rewrite M. reflexivity.
Qed.
Lemma join_lf_cons : forall l r, r <> [] -> join [lf] (l :: r) = l ++ lf :: join [lf] r.
Proof. intros l [|x r] H; [contradiction|reflexivity]. Qed.
Lemma join_end : forall lines : list str, lines <> [] -> join [lf] (lines ++ [[]]) = join [lf] lines ++ [lf].
Proof.
  induction lines as [|l lines IH]; intro NE; [contradiction|]. destruct lines as [|x lines]; [reflexivity|].
  transitivity (l ++ lf :: (join [lf] (x :: lines) ++ [lf])).
  - transitivity (l ++ lf :: join [lf] ((x :: lines) ++ [[]])); [reflexivity|]. do 2 f_equal. apply IH. discriminate.
  - transitivity ((l ++ lf :: join [lf] (x :: lines)) ++ [lf]); [rewrite <- app_assoc; reflexivity|reflexivity].
Qed.
Lemma join_pad : forall lines, lines <> [] -> join [lf] ([] :: lines ++ [[]]) = [lf] ++ join [lf] lines ++ [lf].
Proof. intros lines NE. rewrite join_lf_cons by (destruct lines; discriminate). rewrite join_end by exact NE. reflexivity. Qed.
Lemma splitlines_join : forall lines : list str, lines <> [] -> (forall l, In l lines -> ~ In lf l) -> last lines [] <> [] -> splitlines (join [lf] lines) = lines.
Proof.
  intros lines NE F L. unfold splitlines. pose proof (split_join lf lines NE F) as S. destruct (join [lf] lines) as [|c s] eqn:J.
  - exfalso. destruct lines as [|l [|x lines]]; [contradiction|cbn in J; subst l; apply L; reflexivity|]. rewrite join_lf_cons in J by discriminate. destruct l; discriminate.
  - rewrite S. change (match last lines ([] : str) with [] => removelast lines | _ => lines end = lines). destruct (last lines ([] : str)); [contradiction|reflexivity].
Qed.

(** ** Sections of a text *)
Definition plain (l : str) : Prop := starts_with (lit ":param ") l = false /\ starts_with (lit ":return:") l = false.
Definition under (l : list str) : str := flat_map (fun x => lf :: x) l.
Lemma doc_plain : forall lines res key sec rest, (forall l, In l lines -> plain l) -> doc_loop res key sec (lines ++ rest) = doc_loop res key (sec ++ under lines) rest.
Proof.
  induction lines as [|l lines IH]; intros res key sec rest H; [cbn; rewrite app_nil_r; reflexivity|]. cbn [app doc_loop]. destruct (H l (or_introl eq_refl)) as [-> ->]. rewrite IH by (intros; apply H; right; assumption).
  unfold under. cbn [flat_map]. rewrite <- app_assoc. reflexivity.
Qed.
Record section := Section { s_key : str; s_text : str; s_more : list str }.
Definition sec_lines (s : section) : list str := (lit ":param " ++ s_key s ++ lit ":" ++ s_text s) :: s_more s.
Definition sec_text (s : section) : str := strip (s_text s ++ under (s_more s)).
Lemma partition_app : forall k t, ~ In ":"%char k -> partition_colon (k ++ ":"%char :: t) = (k, t).
Proof.
  induction k as [|c k IH]; intros t H; [reflexivity|]. cbn. destruct (Ascii.eqb c ":") eqn:E; [apply Ascii.eqb_eq in E; subst; exfalso; apply H; left; reflexivity|]. rewrite IH; [reflexivity|]. intro I. apply H. right. exact I.
Qed.
Lemma doc_param : forall res key sec k t rest, ~ In ":"%char k -> doc_loop res key sec ((lit ":param " ++ k ++ lit ":" ++ t) :: rest) = doc_loop (push res key sec) k t rest.
Proof.
  intros res key sec k t rest K. assert (S : starts_with (lit ":param ") (lit ":param " ++ k ++ lit ":" ++ t) = true) by apply starts_with_app.
  remember (lit ":param " ++ k ++ lit ":" ++ t) as l eqn:E. cbn [doc_loop]. rewrite S. assert (X : skipn 7 l = k ++ ":"%char :: t) by (subst l; reflexivity). rewrite X, partition_app by exact K. reflexivity.
Qed.
Lemma doc_sections : forall secs res key sec, (forall s, In s secs -> ~ In ":"%char (s_key s) /\ strip (s_key s) = s_key s /\ forall l, In l (s_more s) -> plain l) ->
  doc_loop res key sec (flat_map sec_lines secs) = fold_left (fun d s => dict_set (s_key s) (sec_text s) d) secs (push res key sec).
Proof.
  induction secs as [|s secs IH]; intros res key sec H; [reflexivity|]. destruct (H s (or_introl eq_refl)) as (K & T & P).
  change (flat_map sec_lines (s :: secs)) with ((lit ":param " ++ s_key s ++ lit ":" ++ s_text s) :: s_more s ++ flat_map sec_lines secs). rewrite doc_param by exact K.
  rewrite doc_plain by exact P. rewrite IH by (intros; apply H; right; assumption). cbn [fold_left]. unfold push at 1. rewrite T. reflexivity.
Qed.
Lemma fold_sections : forall secs d, NoDup (map s_key secs) -> (forall s, In s secs -> dict_get (s_key s) (fold_left (fun d s => dict_set (s_key s) (sec_text s) d) secs d) = Some (sec_text s)) /\
  (forall k, ~ In k (map s_key secs) -> dict_get k (fold_left (fun d s => dict_set (s_key s) (sec_text s) d) secs d) = dict_get k d).
Proof.
  induction secs as [|s secs IH]; intros d N; [split; [intros s []|reflexivity]|]. inversion N as [|x y N1 N2]; subst. cbn [fold_left]. destruct (IH (dict_set (s_key s) (sec_text s) d) N2) as [A B]. split.
  - intros t [<-|I]; [rewrite B by exact N1; apply dict_get_set_same|exact (A t I)].
  - intros k I. rewrite B by (intro J; apply I; right; exact J). apply dict_get_set_other. intros ->. apply I. left. reflexivity.
Qed.

(** lines of the beginning of a text *)
Lemma split_prefix : forall c p q, exists i l h t, split_on c p = i ++ [l] /\ split_on c q = h :: t /\ split_on c (p ++ q) = i ++ (l ++ h) :: t.
Proof.
  intros c. induction p as [|x p IH]; intro q.
  - destruct (split_on c q) as [|h t] eqn:E; [destruct (split_on_nonempty c q E)|]. exists [], [], h, t. cbn. rewrite E. auto.
  - destruct (IH q) as (i & l & h & t & A & B & C). cbn [split_on app]. destruct (Ascii.eqb x c) eqn:E.
    + exists ([] :: i), l, h, t. rewrite A, C. auto.
    + rewrite A, C. destruct i as [|w i].
      * exists [], (x :: l), h, t. auto.
      * exists ((x :: w) :: i), l, h, t. auto.
Qed.
