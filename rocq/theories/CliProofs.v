(** Proofs about the command line parser: what it understands. *)
From Coq Require Import String Ascii List Bool NArith Arith Lia.
From Verif Require Import Base BaseFacts ParserModel ParserFacts ProjectModel CliModel CliSpec.
Import ListNotations.
Open Scope string_scope.
Open Scope nat_scope.
Open Scope list_scope.
Open Scope bool_scope.

(** ** Keys *)
Lemma partition_spec : forall w k raw, partition_eq w = (k, raw) -> ~ In "="%char k /\ ((raw = [] /\ w = k) \/ w = k ++ "="%char :: raw).
Proof.
  induction w as [|c w IH]; intros k raw H; cbn [partition_eq] in H.
  - injection H as <- <-. split; [intros []|]. left. auto.
  - destruct (Ascii.eqb c "=") eqn:E.
    + injection H as <- <-. apply Ascii.eqb_eq in E. subst c. split; [intros []|]. right. reflexivity.
    + destruct (partition_eq w) as [k' v'] eqn:P. injection H as <- <-. destruct (IH _ _ eq_refl) as [N D]. split.
      * intros [->|I]; [rewrite Ascii.eqb_refl in E; discriminate|contradiction].
      * destruct D as [[-> ->]| ->]; [left|right]; auto.
Qed.
Lemma partition_complete : forall k w raw, ~ In "="%char k -> ((raw = [] /\ w = k) \/ w = k ++ "="%char :: raw) -> partition_eq w = (k, raw).
Proof.
  induction k as [|c k IH]; intros w raw N D.
  - destruct D as [[-> ->]| ->]; [reflexivity|]. cbn [partition_eq app]. rewrite Ascii.eqb_refl. reflexivity.
  - assert (E : Ascii.eqb c "=" = false). { apply Ascii.eqb_neq. intro X. apply N. left. exact X. }
    assert (N' : ~ In "="%char k). { intro X. apply N. right. exact X. }
    destruct D as [[-> ->]| ->]; cbn [partition_eq app]; rewrite E.
    + rewrite (IH k [] N'); auto.
    + rewrite (IH _ raw N'); auto.
Qed.
Definition after_key (raw : str) (rest : list str) : list str := match raw with [] => rest | _ => strip raw :: rest end.
Lemma next_key : forall w rest key b1, next_option_key (w :: rest) = Ok (key, b1) -> exists raw, spells w key raw /\ b1 = after_key raw rest.
Proof.
  intros w rest key b1 H. unfold next_option_key in H. destruct w as [|c w]; [discriminate|].
  destruct (partition_eq (c :: w)) as [k raw] eqn:P. injection H as <- <-. apply partition_spec in P. destruct P as [N D].
  exists raw. split; [|reflexivity]. exists k. auto.
Qed.
Lemma next_key_complete : forall w rest key raw, w <> [] -> spells w key raw -> next_option_key (w :: rest) = Ok (key, after_key raw rest).
Proof.
  intros w rest key raw N (k & K & S & D). unfold next_option_key. destruct w as [|c w]; [contradiction|].
  rewrite (partition_complete k _ raw K D), S. reflexivity.
Qed.

(** ** Readers *)
Lemma read_word : forall r b v b', is_flag r = false -> read r b = Ok (v, b') -> exists w, b = w :: b' /\ value_of r w v.
Proof.
  intros [|l|conv|c] b v b' F H; [discriminate F| | |]; cbn [read] in H; (destruct b as [|w b]; [discriminate|]).
  - destruct (str_mem w l) eqn:M; [|discriminate]. injection H as <- <-. exists w. split; [reflexivity|]. split; [|reflexivity].
    apply existsb_exists in M. destruct M as (x & I & X). apply str_eqb_eq in X. subst. exact I.
  - destruct (conv w) as [x|] eqn:C; [|discriminate]. injection H as <- <-. exists w. auto.
  - destruct (str_eqb w c) eqn:E; [|discriminate]. injection H as <- <-. apply str_eqb_eq in E. exists w. repeat split; auto.
Qed.
Lemma read_word_complete : forall r w v b, value_of r w v -> read r (w :: b) = Ok (v, b).
Proof.
  intros [|l|conv|c] w v b H; cbn [value_of read] in *; [contradiction| | |].
  - destruct H as [I ->]. assert (str_mem w l = true) as ->; [|reflexivity]. apply existsb_exists. exists w. split; [exact I|apply str_eqb_refl].
  - rewrite H. reflexivity.
  - destruct H as [-> ->]. rewrite str_eqb_refl. reflexivity.
Qed.
Lemma key_value_sound : forall r w rest key raw v b2, spells w key raw -> (r = RFlag -> raw = []) -> read r (after_key raw rest) = Ok (v, b2) ->
  exists ws, w :: rest = ws ++ b2 /\ key_value r key ws v /\ exists t more, ws = t :: more /\ t = w.
Proof.
  intros r w rest key raw v b2 S F H. destruct (is_flag r) eqn:I.
  - destruct r; try discriminate I. rewrite (F eq_refl) in *. cbn [read after_key] in H. injection H as <- <-.
    exists [w]. split; [reflexivity|]. split; [apply kv_flag; auto|]. exists w, []. auto.
  - destruct (read_word _ _ _ _ I H) as (x & E & V). destruct raw as [|c raw]; cbn [after_key] in E.
    + subst rest. exists [w; x]. split; [reflexivity|]. split; [apply kv_apart; auto|]. exists w, [x]. auto.
    + injection E as <- <-. exists [w]. split; [reflexivity|]. split; [apply (kv_joined r key w (c :: raw)); auto; discriminate|]. exists w, []. auto.
Qed.
Lemma key_value_complete : forall r key ws v rest mark, mark <> [] -> begins mark ws -> key_value r key ws v ->
  exists b1, next_option_key (ws ++ rest) = Ok (key, b1) /\ read r b1 = Ok (v, rest).
Proof.
  intros r key ws v rest mark M B K.
  assert (NE : forall t, starts_with mark t = true -> t <> []). { intros t X ->. destruct mark; [contradiction|discriminate]. }
  destruct K as [t R S|t w v S V|t raw v S N V]; cbn [begins] in B.
  - exists rest. split; [exact (next_key_complete t rest key [] (NE _ B) S)|]. subst r. reflexivity.
  - exists (w :: rest). split; [exact (next_key_complete t (w :: rest) key [] (NE _ B) S)|]. apply read_word_complete. exact V.
  - exists (strip raw :: rest). split; [|apply read_word_complete; exact V].
    pose proof (next_key_complete t rest key raw (NE _ B) S) as X. destruct raw; [contradiction|exact X].
Qed.

(** ** Dictionaries of definitions *)
Lemma dict_fold_get : forall A (l : list (str * A)) d k,
  dict_get k (fold_left (fun d e => dict_set (fst e) (snd e) d) l d) =
  match dict_get k (rev l) with Some x => Some x | None => dict_get k d end.
Proof.
  intros A l. induction l as [|[q x] l IH]; intros d k; [reflexivity|]. cbn [fold_left fst snd rev]. rewrite IH.
  assert (G : forall (a b : list (str * A)), dict_get k (a ++ b) = match dict_get k a with Some y => Some y | None => dict_get k b end).
  { induction a as [|[q' x'] a IHa]; intro b; [reflexivity|]. cbn [app dict_get]. destruct (str_eqb k q'); [reflexivity|apply IHa]. }
  rewrite G. destruct (dict_get k (rev l)); [reflexivity|]. cbn [dict_get]. destruct (str_eqb k q) eqn:E.
  - apply str_eqb_eq in E. subst. apply dict_get_set_same.
  - apply dict_get_set_other. intro X. subst. rewrite str_eqb_refl in E. discriminate.
Qed.
Definition by_name {A} (names : A -> list str) (l : list A) : list (str * A) :=
  fold_left (fun d e => dict_set (fst e) (snd e) d) (flat_map (fun x => map (fun n => (n, x)) (names x)) l) [].
Lemma by_name_snoc : forall A (names : A -> list str) l x k,
  dict_get k (by_name names (l ++ [x])) = if str_mem k (names x) then Some x else dict_get k (by_name names l).
Proof.
  intros A names l x k. unfold by_name. rewrite flat_map_app, fold_left_app. cbn [flat_map]. rewrite app_nil_r.
  generalize (fold_left (fun d e => dict_set (fst e) (snd e) d) (flat_map (fun x => map (fun n => (n, x)) (names x)) l) []) as d.
  induction (names x) as [|n ns IH]; intro d; [reflexivity|]. cbn [map fold_left fst snd]. rewrite IH. cbn [str_mem existsb].
  fold (str_mem k ns). destruct (str_mem k ns) eqn:M; [rewrite orb_true_r; reflexivity|]. rewrite orb_false_r.
  destruct (str_eqb k n) eqn:E.
  - apply str_eqb_eq in E. subst. apply dict_get_set_same.
  - apply dict_get_set_other. intro X. subst. rewrite str_eqb_refl in E. discriminate.
Qed.
Lemma mem_in : forall k l, str_mem k l = true <-> In k l.
Proof.
  intros k l. unfold str_mem. rewrite existsb_exists. split.
  - intros (x & I & X). apply str_eqb_eq in X. subst. exact I.
  - intro I. exists k. split; [exact I|apply str_eqb_refl].
Qed.
Lemma by_name_declares : forall A (names : A -> list str) l k x, dict_get k (by_name names l) = Some x <-> declares names l k x.
Proof.
  intros A names l k x. induction l as [|y l IH] using rev_ind.
  - split; [discriminate|]. intros (a & b & E & _). destruct a; discriminate.
  - rewrite by_name_snoc. destruct (str_mem k (names y)) eqn:M.
    + split.
      * intro H. injection H as <-. exists l, []. split; [reflexivity|]. split; [apply mem_in; exact M|]. intros z [].
      * intros (a & b & E & I & N). destruct b as [|z b] using rev_ind.
        -- apply app_inj_tail in E. destruct E as [_ ->]. reflexivity.
        -- change (x :: b ++ [z]) with ((x :: b) ++ [z]) in E. rewrite app_assoc in E. apply app_inj_tail in E. destruct E as [_ <-].
           destruct (N y); [apply in_app_iff; right; left; reflexivity|apply mem_in; exact M].
    + rewrite IH. split.
      * intros (a & b & -> & I & N). exists a, (b ++ [y]). split; [rewrite <- app_assoc; reflexivity|]. split; [exact I|].
        intros z J. apply in_app_iff in J. destruct J as [J|[<-|[]]]; [auto|]. intro X. apply mem_in in X. congruence.
      * intros (a & b & E & I & N). destruct b as [|z b] using rev_ind.
        -- apply app_inj_tail in E. destruct E as [_ ->]. apply mem_in in I. congruence.
        -- clear IHb. change (x :: b ++ [z]) with ((x :: b) ++ [z]) in E. rewrite app_assoc in E. apply app_inj_tail in E. destruct E as [-> _].
           exists a, b. split; [reflexivity|]. split; [exact I|]. intros y' J. apply N. apply in_app_iff. auto.
Qed.
Lemma options_by_name : forall t, options t = by_name a_names (filter is_option (args_of t)).
Proof.
  intro t. unfold options, by_name. f_equal. induction (args_of t) as [|a l IH]; [reflexivity|]. cbn [flat_map filter].
  destruct (is_option a); cbn [flat_map]; rewrite IH; reflexivity.
Qed.
Lemma get_option_spec : forall t key o, get_option t key = Some o <-> option_named t key o.
Proof.
  intros t key o. unfold get_option, option_named. rewrite options_by_name.
  destruct (dict_get key (by_name a_names (filter is_option (args_of t)))) as [x|] eqn:G.
  - split.
    + intro H. injection H as ->. left. apply by_name_declares. exact G.
    + intros [D|(-> & _ & N)].
      * apply by_name_declares in D. congruence.
      * apply by_name_declares in G. destruct G as (a & b & E & I & _).
        assert (J : In x (filter is_option (args_of t))). { rewrite E. apply in_app_iff. right. left. reflexivity. }
        apply filter_In in J. destruct J as [J1 J2]. destruct (N x J1 J2 I).
  - split.
    + intro H. right. unfold global_options in H. cbn [map a_names help_flag dict_get] in H.
      assert (o = help_flag /\ In key [lit "-h"; lit "--help"]) as [-> I].
      { destruct (str_eqb key (lit "-h")) eqn:E1; [apply str_eqb_eq in E1; injection H as <-; split; [reflexivity|left; auto]|].
        destruct (str_eqb key (lit "--help")) eqn:E2; [apply str_eqb_eq in E2; injection H as <-; split; [reflexivity|right; left; auto]|discriminate]. }
      split; [reflexivity|]. split; [exact I|]. intros p J1 J2 K.
      assert (X : exists x, declares a_names (filter is_option (args_of t)) key x).
      { assert (J : In p (filter is_option (args_of t))) by (apply filter_In; auto). clear -J K.
        induction (filter is_option (args_of t)) as [|y l IH] using rev_ind; [destruct J|].
        destruct (in_dec (list_eq_dec ascii_dec) key (a_names y)) as [I|I].
        - exists y, l, []. split; [reflexivity|]. split; [exact I|intros ? []].
        - apply in_app_iff in J. destruct J as [J|[->|[]]]; [|contradiction]. destruct (IH J) as (x & a & b & -> & I1 & N).
          exists x, a, (b ++ [y]). split; [rewrite <- app_assoc; reflexivity|]. split; [exact I1|]. intros z Z. apply in_app_iff in Z.
          destruct Z as [Z|[<-|[]]]; auto. }
      destruct X as [x X]. apply by_name_declares in X. congruence.
    + intros [D|(-> & I & _)].
      * apply by_name_declares in D. congruence.
      * destruct I as [<-|[<-|[]]]; reflexivity.
Qed.

(** ** Fields *)
Lemma plus_nonempty : forall w, starts_with (lit "+") w = true -> w <> [].
Proof. intros w H ->. discriminate H. Qed.
Lemma fields_sound : forall fuel fs b d d' b', (forall w, In w b -> forall key raw f, spells w key raw -> declares s_names fs key f -> s_reader f = RFlag -> raw = []) ->
  fields_loop fuel fs b d = Ok (d', b') -> exists ws, b = ws ++ b' /\ field_values fs ws b' d d'.
Proof.
  induction fuel as [|fuel IH]; intros fs b d d' b' C H; destruct b as [|w b]; cbn [fields_loop] in H.
  - injection H as <- <-. exists []. split; [reflexivity|]. apply fv_end. exact Logic.I.
  - destruct (starts_with (lit "+") w) eqn:S; [discriminate|]. injection H as <- <-. exists []. split; [reflexivity|]. apply fv_end. exact S.
  - injection H as <- <-. exists []. split; [reflexivity|]. apply fv_end. exact Logic.I.
  - destruct (starts_with (lit "+") w) eqn:S; [|injection H as <- <-; exists []; split; [reflexivity|apply fv_end; exact S]].
    destruct (next_option_key (w :: b)) as [[key b1]|] eqn:K; [|discriminate]. cbn [bind fst snd] in H.
    destruct (dict_get key (field_map fs)) as [f|] eqn:G; [|discriminate].
    change (field_map fs) with (by_name s_names fs) in G. apply by_name_declares in G.
    apply next_key in K. destruct K as (raw & SP & ->).
    destruct (read (s_reader f) (after_key raw b)) as [[v b2]|] eqn:R; [|discriminate]. cbn [bind fst snd] in H.
    destruct (key_value_sound _ _ _ _ _ _ _ SP (fun X => C w (or_introl eq_refl) key raw f SP G X) R) as (ws & E & KV & t & more & -> & ->).
    apply IH in H.
    + destruct H as (ws2 & E2 & F). exists ((w :: more) ++ ws2). split; [rewrite <- app_assoc, <- E2; exact E|]. subst b2.
      apply (fv_field fs key f (w :: more) v); auto.
    + intros x I. apply C. rewrite E. apply in_app_iff. right. exact I.
Qed.
Lemma size_cons : forall w b, buffer_size (w :: b) = S (length w) + buffer_size b.
Proof. reflexivity. Qed.
Lemma strip_length : forall s, length (strip s) <= length s.
Proof.
  intro s. unfold strip. rewrite rev_length.
  assert (G : forall p (t : str), length (snd (span p t)) <= length t).
  { induction t as [|c t IH]; [cbn; lia|]. cbn [span]. destruct (p c); [|cbn; lia]. destruct (span p t) as [a b]. cbn in *. lia. }
  etransitivity; [apply G|]. rewrite rev_length. apply G.
Qed.
Lemma spells_length : forall w key raw, spells w key raw -> raw <> [] -> length raw < length w.
Proof. intros w key raw (k & _ & _ & [[-> _]| ->]) N; [contradiction|]. rewrite app_length. cbn. lia. Qed.
Lemma after_key_size : forall w key raw rest, spells w key raw -> buffer_size (after_key raw rest) < buffer_size (w :: rest).
Proof.
  intros w key raw rest S. destruct raw as [|c raw]; [cbn [after_key]; rewrite size_cons; lia|].
  cbn [after_key]. rewrite !size_cons. pose proof (strip_length (c :: raw)). pose proof (spells_length _ _ _ S ltac:(discriminate)). lia.
Qed.
Lemma read_size : forall r b v b', read r b = Ok (v, b') -> buffer_size b' <= buffer_size b.
Proof.
  intros r b v b' H. destruct (is_flag r) eqn:F.
  - destruct r; try discriminate F. injection H as _ <-. lia.
  - destruct (read_word _ _ _ _ F H) as (w & -> & _). rewrite size_cons. lia.
Qed.
Lemma fields_size : forall fuel fs b d d' b', fields_loop fuel fs b d = Ok (d', b') -> buffer_size b' <= buffer_size b.
Proof.
  induction fuel as [|fuel IH]; intros fs b d d' b' H; destruct b as [|w b]; cbn [fields_loop] in H;
    try (injection H as _ <-; lia).
  - destruct (starts_with (lit "+") w); [discriminate|]. injection H as _ <-. lia.
  - destruct (starts_with (lit "+") w); [|injection H as _ <-; lia].
    destruct (next_option_key (w :: b)) as [[key b1]|] eqn:K; [|discriminate]. cbn [bind fst snd] in H.
    destruct (dict_get key (field_map fs)) as [f|]; [|discriminate].
    apply next_key in K. destruct K as (raw & SP & ->).
    destruct (read (s_reader f) (after_key raw b)) as [[v b2]|] eqn:R; [|discriminate]. cbn [bind fst snd] in H.
    apply IH in H. apply read_size in R. pose proof (after_key_size _ _ _ b SP). lia.
Qed.
(** the fuel of the fields is enough *)
Lemma fields_fuel_enough : forall n m fs b d, buffer_size b <= n -> buffer_size b <= m -> fields_loop n fs b d = fields_loop m fs b d.
Proof.
  induction n as [|n IH]; intros m fs b d Ln Lm; (destruct b as [|w b]; [destruct m; reflexivity|]).
  - rewrite size_cons in Ln. lia.
  - destruct m as [|m]; [rewrite size_cons in Lm; lia|]. cbn [fields_loop]. destruct (starts_with (lit "+") w); [|reflexivity].
    destruct (next_option_key (w :: b)) as [[key b1]|] eqn:K; [|reflexivity]. cbn [bind fst snd].
    destruct (dict_get key (field_map fs)) as [f|]; [|reflexivity].
    apply next_key in K. destruct K as (raw & SP & ->). pose proof (after_key_size _ _ _ b SP).
    destruct (read (s_reader f) (after_key raw b)) as [[v b2]|] eqn:R; [|reflexivity]. cbn [bind fst snd]. apply read_size in R.
    apply IH; lia.
Qed.
Lemma key_value_words : forall r key ws v, key_value r key ws v -> ws <> [].
Proof. intros r key ws v []; discriminate. Qed.
Lemma fields_complete : forall fs ws rest d d', field_values fs ws rest d d' -> forall fuel, buffer_size (ws ++ rest) <= fuel ->
  fields_loop fuel fs (ws ++ rest) d = Ok (d', rest).
Proof.
  intros fs ws rest d d' F. induction F as [rest d N|key f ws v more rest d d' B D K F IH]; intros fuel L.
  - cbn [app]. destruct rest as [|w rest]; [destruct fuel; reflexivity|]. cbn [no_field] in N.
    destruct fuel; cbn [fields_loop]; rewrite N; reflexivity.
  - destruct ws as [|w ws]; [destruct B|]. rewrite <- app_assoc in *. cbn [app] in L |- *. cbn [begins] in B.
    destruct fuel as [|fuel]; [rewrite size_cons in L; lia|]. cbn [fields_loop]. rewrite B.
    destruct (key_value_complete _ _ (w :: ws) _ (more ++ rest) (lit "+") ltac:(discriminate) B K) as (b1 & E1 & E2). cbn [app] in E1. rewrite E1. cbn [bind fst snd].
    apply by_name_declares in D. change (by_name s_names fs) with (field_map fs) in D. rewrite D.
    rewrite E2. cbn [bind fst snd]. apply IH.
    apply next_key in E1. destruct E1 as (raw & SP & ->). pose proof (after_key_size _ _ _ (ws ++ more ++ rest) SP). apply read_size in E2. lia.
Qed.
Lemma subfields_sound : forall fields v b v' b', (forall fs, fields = Some fs -> forall w, In w b -> forall key raw f, spells w key raw -> declares s_names fs key f -> s_reader f = RFlag -> raw = []) ->
  read_subfields fields v b = Ok (v', b') -> exists ws, b = ws ++ b' /\ with_fields fields v ws b' v'.
Proof.
  intros [fs|] v b v' b' C H; cbn [read_subfields] in H.
  - destruct (fields_loop (fields_fuel b) fs b [(lit "value", v)]) as [[d b1]|] eqn:L; [|discriminate]. cbn [bind fst snd] in H.
    destruct (fill_fields fs d) as [d'|] eqn:F; [|discriminate]. injection H as <- <-.
    apply fields_sound in L; [|apply C; reflexivity]. destruct L as (ws & E & V). exists ws. split; [exact E|]. exists d, d'. auto.
  - injection H as <- <-. exists []. split; [reflexivity|]. split; reflexivity.
Qed.
Lemma subfields_complete : forall fields v ws rest v', with_fields fields v ws rest v' -> read_subfields fields v (ws ++ rest) = Ok (v', rest).
Proof.
  intros [fs|] v ws rest v' H; cbn [with_fields read_subfields] in *.
  - destruct H as (d & d' & F & G & ->). rewrite (fields_complete _ _ _ _ _ F); [|apply Nat.le_refl]. cbn [bind fst snd]. rewrite G. reflexivity.
  - destruct H as [-> ->]. reflexivity.
Qed.
Lemma subfields_size : forall fields v b v' b', read_subfields fields v b = Ok (v', b') -> buffer_size b' <= buffer_size b.
Proof.
  intros [fs|] v b v' b' H; cbn [read_subfields] in H; [|injection H as _ <-; lia].
  destruct (fields_loop (fields_fuel b) fs b [(lit "value", v)]) as [[d b1]|] eqn:L; [|discriminate]. cbn [bind fst snd] in H.
  destruct (fill_fields fs d); [|discriminate]. injection H as _ <-. exact (fields_size _ _ _ _ _ _ L).
Qed.

(** ** Positionals *)
Definition unvalued (fields : option (list subdef)) (b : list str) : Prop :=
  forall fs, fields = Some fs -> forall w, In w b -> forall key raw f, spells w key raw -> declares s_names fs key f -> s_reader f = RFlag -> raw = [].
Lemma unvalued_app : forall fields a b, unvalued fields (a ++ b) -> unvalued fields b.
Proof. intros fields a b H fs E w I. apply (H fs E). apply in_app_iff. right. exact I. Qed.
Lemma values_sound : forall fuel a want b vs b', is_flag (a_reader a) = false -> unvalued (a_fields a) b -> values_loop fuel a want b = Ok (vs, b') ->
  exists ws, b = ws ++ b' /\ values a ws b' vs /\ match want with None => b' = [] | Some k => length vs = k \/ (length vs < k /\ b' = []) end.
Proof.
  induction fuel as [|fuel IH]; intros a want b vs b' F C H; cbn [values_loop] in H.
  - destruct b as [|w b].
    + injection H as <- <-. exists []. split; [reflexivity|]. split; [apply vs_none|]. destruct want as [[|k]|]; cbn; auto. right. split; [lia|reflexivity].
    + destruct want as [[|k]|]; try discriminate. injection H as <- <-. exists []. split; [reflexivity|]. split; [apply vs_none|]. left. reflexivity.
  - destruct b as [|w b].
    { injection H as <- <-. exists []. split; [reflexivity|]. split; [apply vs_none|]. destruct want as [[|k]|]; cbn; auto. right. split; [lia|reflexivity]. }
    assert (Z : want = Some 0 \/ want <> Some 0). { destruct want as [[|k]|]; auto; right; discriminate. }
    destruct Z as [->|Z]; [injection H as <- <-; exists []; split; [reflexivity|]; split; [apply vs_none|]; left; reflexivity|].
    assert (H' : (do vb <- read (a_reader a) (w :: b); do xb <- read_subfields (a_fields a) (fst vb) (snd vb);
          do rb <- values_loop fuel a (option_map pred want) (snd xb); Ok (fst xb :: fst rb, snd rb)) = Ok (vs, b')).
    { destruct want as [[|k]|]; [contradiction|exact H|exact H]. }
    clear H. destruct (read (a_reader a) (w :: b)) as [[v b1]|] eqn:R; [|discriminate]. cbn [bind fst snd] in H'.
    destruct (read_word _ _ _ _ F R) as (x & E & V). injection E as <- <-.
    destruct (read_subfields (a_fields a) v b) as [[v' b2]|] eqn:X; [|discriminate]. cbn [bind fst snd] in H'.
    apply subfields_sound in X; [|exact (unvalued_app _ [w] _ C)]. destruct X as (fws & -> & W).
    destruct (values_loop fuel a (option_map pred want) b2) as [[vs1 b3]|] eqn:L; [|discriminate]. injection H' as <- <-.
    apply IH in L; [|exact F|exact (unvalued_app _ (w :: fws) _ C)]. destruct L as (ws & -> & VS & T). cbn [fst snd].
    exists (w :: fws ++ ws). split; [cbn [app]; rewrite <- app_assoc; reflexivity|]. split; [apply (vs_more a w v fws v'); assumption|].
    destruct want as [[|k]|]; [contradiction| |exact T]. cbn [option_map pred] in T. cbn [length]. destruct T as [->|[T ->]]; [left; reflexivity|right; split; [lia|reflexivity]].
Qed.
Lemma values_complete : forall a ws rest vs, values a ws rest vs -> forall fuel want, length vs <= fuel ->
  match want with None => rest = [] | Some k => length vs = k end -> values_loop fuel a want (ws ++ rest) = Ok (vs, rest).
Proof.
  intros a ws rest vs V. induction V as [rest|w v fws v' ws rest vs R W V IH]; intros fuel want L T.
  - cbn [app]. destruct want as [k|].
    + cbn in T. subst k. destruct fuel, rest; reflexivity.
    + subst rest. destruct fuel; reflexivity.
  - destruct fuel as [|fuel]; [cbn in L; lia|]. cbn [length] in L. cbn [app]. rewrite <- app_assoc.
    assert (G : values_loop (S fuel) a want (w :: fws ++ ws ++ rest) = (do vb <- read (a_reader a) (w :: fws ++ ws ++ rest); do xb <- read_subfields (a_fields a) (fst vb) (snd vb);
          do rb <- values_loop fuel a (option_map pred want) (snd xb); Ok (fst xb :: fst rb, snd rb))).
    { destruct want as [[|k]|]; [cbn in T; discriminate|reflexivity|reflexivity]. }
    rewrite G, (read_word_complete _ _ _ _ R). cbn [bind fst snd]. rewrite (subfields_complete _ _ _ _ _ W). cbn [bind fst snd].
    rewrite IH; [reflexivity|lia|]. destruct want as [k|]; [|exact T]. cbn [option_map]. cbn [length] in T. lia.
Qed.
Lemma values_words : forall a ws rest vs, values a ws rest vs -> length vs <= length ws.
Proof. intros a ws rest vs V. induction V as [|w v fws v' ws rest vs R W V IH]; [apply Nat.le_refl|]. cbn [length]. rewrite app_length. lia. Qed.
Lemma values_size : forall fuel a want b vs b', is_flag (a_reader a) = false -> values_loop fuel a want b = Ok (vs, b') ->
  buffer_size b' <= buffer_size b /\ (vs <> [] -> buffer_size b' < buffer_size b).
Proof.
  induction fuel as [|fuel IH]; intros a want b vs b' F H; cbn [values_loop] in H.
  - destruct b as [|w b]; [injection H as <- <-; split; [lia|congruence]|]. destruct want as [[|k]|]; try discriminate. injection H as <- <-. split; [lia|congruence].
  - destruct b as [|w b]; [injection H as <- <-; split; [lia|congruence]|].
    assert (Z : want = Some 0 \/ want <> Some 0). { destruct want as [[|k]|]; auto; right; discriminate. }
    destruct Z as [->|Z]; [injection H as <- <-; split; [lia|congruence]|].
    assert (H' : (do vb <- read (a_reader a) (w :: b); do xb <- read_subfields (a_fields a) (fst vb) (snd vb);
          do rb <- values_loop fuel a (option_map pred want) (snd xb); Ok (fst xb :: fst rb, snd rb)) = Ok (vs, b')).
    { destruct want as [[|k]|]; [contradiction|exact H|exact H]. }
    clear H. destruct (read (a_reader a) (w :: b)) as [[v b1]|] eqn:R; [|discriminate]. cbn [bind fst snd] in H'.
    destruct (read_word _ _ _ _ F R) as (x & E & V). injection E as <- <-.
    destruct (read_subfields (a_fields a) v b) as [[v' b2]|] eqn:X; [|discriminate]. cbn [bind fst snd] in H'. apply subfields_size in X.
    destruct (values_loop fuel a (option_map pred want) b2) as [[vs1 b3]|] eqn:L; [|discriminate]. injection H' as <- <-.
    apply IH in L; [|exact F]. cbn [snd]. rewrite size_cons. split; [|intros _]; lia.
Qed.

(** ** Options *)
Lemma span_last : forall p s (c : ascii), p c = false -> exists y, snd (span p (s ++ [c])) = y ++ [c].
Proof.
  intros p s c H. induction s as [|x s IH]; cbn [app span].
  - rewrite H. exists []. reflexivity.
  - destruct (p x).
    + destruct (span p (s ++ [c])) as [a b]. exact IH.
    + exists (x :: s). reflexivity.
Qed.
Lemma strip_head : forall c k, is_space c = false -> exists k', strip (c :: k) = c :: k'.
Proof.
  intros c k H. unfold strip. cbn [span]. rewrite H. cbn [snd rev].
  destruct (span_last is_space (rev k) c H) as [y ->]. rewrite rev_app_distr. exists (rev y). reflexivity.
Qed.
Lemma dash_head : forall w, starts_with (lit "-") w = true -> exists r, w = "-"%char :: r.
Proof.
  intros [|c r] H; [discriminate H|]. exists r. f_equal. unfold lit in H. cbn [starts_with list_ascii_of_string] in H.
  apply andb_true_iff in H. destruct H as [H _]. apply Ascii.eqb_eq in H. auto.
Qed.
Lemma spelled_dash : forall w key raw, spells w key raw -> starts_with (lit "-") w = true -> exists r, key = "-"%char :: r.
Proof.
  intros w key raw (k & N & S & D) H. destruct (dash_head w H) as [r ->].
  assert (exists q, k = "-"%char :: q) as [q ->].
  { destruct D as [[_ D]|D]; [exists r; auto|]. destruct k as [|c q]; [discriminate D|]. injection D as -> _. exists q. reflexivity. }
  destruct (strip_head "-"%char q eq_refl) as [k' E]. exists k'. congruence.
Qed.
Definition flag_ok (t : ast) : Prop := forall key o, option_named t key o -> a_reader o = RFlag ->
  a_fields o = None /\ forall v args, store o v args = Ok (dict_set (a_field o) v args).
Lemma set_args_args : forall s a b, set_args (set_args s a) b = set_args s b.
Proof. reflexivity. Qed.
Lemma letters_sound : forall l s b need s' b', flag_ok (t_node s) -> letters_loop l None s b = Ok (need, (s', b')) ->
  b' = b /\ ((need = None /\ exists args', flags_set (t_node s) l (t_args s) args' /\ s' = set_args s args') \/
   exists o l1 c args', need = Some o /\ l = l1 ++ [c] /\ flags_set (t_node s) l1 (t_args s) args' /\ s' = set_args s args' /\
     option_named (t_node s) ["-"%char; c] o /\ is_flag (a_reader o) = false).
Proof.
  induction l as [|c l IH]; intros s b need s' b' F H; cbn [letters_loop] in H.
  - injection H as <- <- <-. split; [reflexivity|]. left. split; [reflexivity|]. exists (t_args s). split; [apply fl_none|]. destruct s; reflexivity.
  - destruct (get_option (t_node s) ["-"%char; c]) as [o|] eqn:G; [|discriminate]. apply get_option_spec in G.
    destruct (is_flag (a_reader o)) eqn:I.
    + assert (R : a_reader o = RFlag) by (destruct (a_reader o); try discriminate I; reflexivity).
      destruct (F _ _ G R) as [FN _]. rewrite FN in H. cbn [read_subfields bind fst snd] in H.
      apply IH in H; [|exact F]. destruct H as [-> H]. split; [reflexivity|]. cbn [t_node set_args t_args] in H.
      destruct H as [(-> & args' & FS & ->)|(o' & l1 & c' & args' & -> & -> & FS & -> & N & J)].
      * left. split; [reflexivity|]. exists args'. split; [apply (fl_more _ c l o); assumption|reflexivity].
      * right. exists o', (c :: l1), c', args'. split; [reflexivity|]. split; [reflexivity|]. split; [apply (fl_more _ c l1 o); assumption|]. auto.
    + destruct l as [|c2 l]; [|discriminate]. cbn [letters_loop] in H. injection H as <- <- <-. split; [reflexivity|]. right.
      exists o, [], c, (t_args s). split; [reflexivity|]. split; [reflexivity|]. split; [apply fl_none|]. split; [destruct s; reflexivity|]. auto.
Qed.
Lemma letters_flags : forall l s b args' more, flag_ok (t_node s) -> flags_set (t_node s) l (t_args s) args' ->
  letters_loop (l ++ more) None s b = letters_loop more None (set_args s args') b.
Proof.
  induction l as [|c l IH]; intros s b args' more F H; inversion H as [|? ? o ? ? G R FS]; subst.
  - destruct s; reflexivity.
  - cbn [app letters_loop]. pose proof (proj2 (get_option_spec _ _ _) G) as E. rewrite E, R. cbn [is_flag].
    destruct (F _ _ G R) as [-> _]. cbn [read_subfields bind fst snd].
    rewrite (IH (set_args s (dict_set (a_field o) (VB true) (t_args s))) b args' more F FS). reflexivity.
Qed.
Lemma flags_snoc : forall t l c args args', flags_set t (l ++ [c]) args args' ->
  exists o args1, flags_set t l args args1 /\ option_named t ["-"%char; c] o /\ a_reader o = RFlag /\ args' = dict_set (a_field o) (VB true) args1.
Proof.
  intros t l. induction l as [|x l IH]; intros c args args' H; cbn [app] in H; inversion H as [|? ? o ? ? G R FS]; subst.
  - inversion FS. subst. exists o, args. split; [apply fl_none|]. auto.
  - destruct (IH _ _ _ FS) as (o' & args1 & A & B & C & D). exists o', args1. split; [apply (fl_more _ x l o); assumption|]. auto.
Qed.

(** the words given to a state are free of what the parser gets wrong *)
Definition fit (t : ast) (b : list str) : Prop :=
  flag_ok t /\ (forall a, In a (args_of t) -> is_positional a = true -> is_flag (a_reader a) = false) /\
  (forall key o, option_named t key o -> unvalued (a_fields o) b) /\ (forall a, In a (args_of t) -> unvalued (a_fields a) b) /\
  (forall w, In w b -> forall key raw, spells w key raw -> (starts_with (lit "-") w = true -> key <> lit "-") /\
    (raw <> [] -> (forall o, option_named t key o -> a_reader o <> RFlag) /\
       forall l c, key = "-"%char :: l ++ [c] -> forall o, option_named t ["-"%char; c] o -> a_reader o <> RFlag)).
Lemma option_sound : forall s b s' b', fit (t_node s) b -> begins (lit "-") b -> read_option_or_flag s b = Ok (s', b') ->
  exists ws, b = ws ++ b' /\ used s ws b' s'.
Proof.
  intros s b s' b' (FO & _ & FU & _ & FC) B H. destruct b as [|w b]; [destruct B|]. cbn [begins] in B.
  unfold read_option_or_flag in H. destruct (next_option_key (w :: b)) as [[key b1]|] eqn:K; [|discriminate]. cbn [bind] in H.
  apply next_key in K. destruct K as (raw & SP & ->). destruct (FC w (or_introl eq_refl) key raw SP) as [C1 C2]. specialize (C1 B).
  assert (VAL : forall o s0 , (a_reader o = RFlag -> raw = []) -> unvalued (a_fields o) (w :: b) -> read_option_value o s0 (after_key raw b) = Ok (s', b') ->
     exists ws v fws v' args, w :: b = (ws ++ fws) ++ b' /\ begins (lit "-") ws /\ key_value (a_reader o) key ws v /\ with_fields (a_fields o) v fws b' v' /\ store o v' (t_args s0) = Ok args /\ s' = set_args s0 args).
  { intros o s0 RF U V. unfold read_option_value in V. destruct (read (a_reader o) (after_key raw b)) as [[v b2]|] eqn:R; [|discriminate]. cbn [bind fst snd] in V.
    destruct (key_value_sound _ _ _ _ _ _ _ SP RF R) as (ws & E & KV & t & more & EW & ->).
    destruct (read_subfields (a_fields o) v b2) as [[v' b3]|] eqn:X; [|discriminate]. cbn [bind fst snd] in V.
    apply subfields_sound in X; [|rewrite E in U; exact (unvalued_app _ _ _ U)]. destruct X as (fws & -> & WF).
    destruct (store o v' (t_args s0)) as [args|] eqn:ST; [|discriminate]. injection V as <- <-.
    exists ws, v, fws, v', args. split; [rewrite <- app_assoc; exact E|]. split; [subst ws; exact B|]. auto. }
  destruct (starts_with (lit "--") key) eqn:LG.
  - destruct (get_option (t_node s) key) as [o|] eqn:G; [|discriminate]. apply get_option_spec in G.
    destruct (VAL o s) as (ws & v & fws & v' & args & E & BG & KV & WF & ST & ->); [|exact (FU _ _ G)|exact H|].
    { intro R. destruct raw; [reflexivity|]. destruct (C2 ltac:(discriminate)) as [C3 _]. destruct (C3 o G R). }
    exists (ws ++ fws). split; [exact E|]. apply (used_long s key o ws v fws v'); assumption.
  - destruct (spelled_dash _ _ _ SP B) as [r ->].
    assert (S1 : starts_with (lit "-") ("-"%char :: r) = true) by reflexivity. rewrite S1 in H. cbn [tl] in H.
    destruct (letters_loop r None s (after_key raw b)) as [[need [s1 b1]]|] eqn:L; [|discriminate]. cbn [bind fst snd] in H.
    apply letters_sound in L; [|exact FO]. destruct L as [-> L].
    assert (NL : forall l c, r = l ++ [c] -> starts_with (lit "-") (l ++ [c]) = false).
    { intros l c <-. exact LG. }
    destruct L as [(-> & args' & FS & ->)|(o & l1 & c & args' & -> & -> & FS & -> & ON & NF)].
    + destruct r as [|x r] using rev_ind; [destruct (C1 eq_refl)|]. clear IHr.
      destruct (flags_snoc _ _ _ _ _ FS) as (o & args1 & FS1 & ON & RF & ->). injection H as <- <-.
      assert (raw = []). { destruct raw; [reflexivity|]. destruct (C2 ltac:(discriminate)) as [_ C3]. destruct (C3 r x eq_refl o ON RF). } subst raw.
      destruct (FO _ _ ON RF) as [FN ST]. exists [w]. split; [reflexivity|]. 
      change [w] with ([w] ++ []). apply (used_short s r x o args1 [w] (VB true) [] (VB true)); auto.
      * apply kv_flag; assumption.
      * rewrite FN. split; reflexivity.
    + destruct (VAL o (set_args s args')) as (ws & v & fws & v' & args & E & BG & KV & WF & ST & ->); [|exact (FU _ _ ON)|exact H|].
      { intro R. rewrite R in NF. discriminate. }
      exists (ws ++ fws). split; [exact E|]. rewrite set_args_args. apply (used_short s l1 c o args' ws v fws v'); auto.
Qed.
Lemma option_value_complete : forall o s key ws v fws v' args rest, begins (lit "-") ws -> key_value (a_reader o) key ws v ->
  with_fields (a_fields o) v fws rest v' -> store o v' (t_args s) = Ok args ->
  exists b1, next_option_key ((ws ++ fws) ++ rest) = Ok (key, b1) /\ read_option_value o s b1 = Ok (set_args s args, rest).
Proof.
  intros o s key ws v fws v' args rest B K W S. rewrite <- app_assoc.
  destruct (key_value_complete _ _ _ _ (fws ++ rest) (lit "-") ltac:(discriminate) B K) as (b1 & E1 & E2).
  exists b1. split; [exact E1|]. unfold read_option_value. rewrite E2. cbn [bind fst snd]. rewrite (subfields_complete _ _ _ _ _ W). cbn [bind fst snd]. rewrite S. reflexivity.
Qed.
Lemma round_complete : forall s ws rest s' w more, flag_ok (t_node s) -> used s ws rest s' -> ws ++ rest = w :: more -> round w s (ws ++ rest) = Ok (s', rest).
Proof.
  intros s ws rest s' w more FO U E. unfold round.
  destruct U as [name child args rest D1 D2 G F|key o ws v fws v' args rest LG B ON KV WF ST|l c o args ws v fws v' args' rest B NL FS ON KV WF ST|a n w0 more0 ws rest vs G K E0 D1 D2 NC V T].
  - injection E as <- <-. rewrite D1, D2, G, F. reflexivity.
  - assert (starts_with (lit "-") w = true) as ->. { destruct ws; [destruct B|]. injection E as <- _. exact B. }
    destruct (option_value_complete o s key ws v fws v' args rest B KV WF ST) as (b1 & E1 & E2).
    unfold read_option_or_flag. rewrite E1. cbn [bind]. rewrite LG, (proj2 (get_option_spec _ _ _) ON). exact E2.
  - assert (starts_with (lit "-") w = true) as ->. { destruct ws; [destruct B|]. injection E as <- _. exact B. }
    destruct (option_value_complete o (set_args s args) _ ws v fws v' args' rest B KV WF ST) as (b1 & E1 & E2).
    unfold read_option_or_flag. rewrite E1. cbn [bind].
    assert (starts_with (lit "--") ("-"%char :: l ++ [c]) = false) as -> by exact NL.
    assert (starts_with (lit "-") ("-"%char :: l ++ [c]) = true) as -> by reflexivity. cbn [tl].
    rewrite (letters_flags l s b1 args [c] FO FS). cbn [letters_loop set_args t_node]. rewrite (proj2 (get_option_spec _ _ _) ON).
    destruct (is_flag (a_reader o)) eqn:I.
    + assert (R : a_reader o = RFlag) by (destruct (a_reader o); try discriminate I; reflexivity).
      destruct (FO _ _ ON R) as [FN ST']. unfold read_option_value in E2. rewrite R, FN in *. cbn [read read_subfields bind fst snd] in E2 |- *.
      rewrite ST' in E2. cbn [bind] in E2. exact E2.
    + cbn [bind fst snd]. exact E2.
  - rewrite E0 in E. injection E as <- <-. rewrite D1, D2, NC, G, K. unfold read_positional.
    pose proof (values_words _ _ _ _ V) as LW.
    rewrite (values_complete _ _ _ _ V); [|rewrite app_length; destruct n; lia|exact T]. cbn [bind fst snd].
    destruct n as [k|]; [|reflexivity]. subst k. rewrite Nat.eqb_refl. cbn [negb].
    destruct vs as [|v1 [|v2 vs]]; reflexivity.
Qed.
Lemma round_sound : forall s w b s' b', fit (t_node s) (w :: b) -> round w s (w :: b) = Ok (s', b') -> exists ws, w :: b = ws ++ b' /\ used s ws b' s'.
Proof.
  intros s w b s' b' F H. unfold round in H. destruct (starts_with (lit "-") w) eqn:D1.
  { apply option_sound; [exact F|exact D1|exact H]. }
  destruct (starts_with (lit "+") w) eqn:D2; [discriminate|].
  destruct (dict_get w (children_of (t_node s))) as [child|] eqn:C.
  - destruct (finalize s) as [args|] eqn:FN; [|discriminate]. injection H as <- <-. exists [w]. split; [reflexivity|]. apply used_command; assumption.
  - destruct (nth_error (positionals (t_node s)) (t_index s)) as [a|] eqn:G; [|discriminate].
    assert (IA : In a (args_of (t_node s)) /\ is_positional a = true).
    { apply nth_error_In in G. unfold positionals in G. apply filter_In in G. exact G. }
    destruct F as (_ & FP & _ & FU & _). specialize (FP a (proj1 IA) (proj2 IA)). specialize (FU a (proj1 IA)).
    destruct (a_kind a) as [|n] eqn:K; [discriminate|]. unfold read_positional in H.
    match type of H with context[values_loop ?n ?a ?w ?b] => destruct (values_loop n a w b) as [[vs b1]|] eqn:L end; [|discriminate].
    cbn [bind fst snd] in H. apply values_sound in L; [|exact FP|exact FU]. destruct L as (ws & E & V & T).
    match type of H with (do v <- ?x; _) = _ => destruct x as [v|] eqn:X end; [|discriminate]. injection H as <- <-.
    exists ws. split; [exact E|].
    assert (EV : v = match n, vs with Some 1, [v] => v | _, _ => VL vs end /\ match n with None => b1 = [] | Some k => length vs = k end).
    { destruct n as [k|].
      - destruct (length vs =? k) eqn:EL; [|discriminate X]. apply Nat.eqb_eq in EL. subst k. cbn [negb] in X. split; [|reflexivity].
        destruct vs as [|v1 [|v2 vs]]; cbn in X; injection X as <-; reflexivity.
      - injection X as <-. split; [reflexivity|exact T]. }
    destruct EV as [-> EV]. eapply used_positional; eauto.
Qed.

(** ** Whole command lines *)
Lemma used_within : forall root s ws rest s', within root (t_node s) -> used s ws rest s' -> within root (t_node s').
Proof.
  intros root s ws rest s' W U. destruct U; cbn [t_node set_args]; auto.
  eapply within_child; [exact W|]. apply dict_get_in in H1. exact H1.
Qed.
Lemma option_named_in : forall t key o, option_named t key o -> (o = help_flag \/ (In o (args_of t) /\ is_option o = true)) /\ In key (a_names o).
Proof.
  intros t key o [(a & b & E & I & _)|(-> & I & _)]; [|auto]. split; [|exact I]. right.
  assert (J : In o (filter is_option (args_of t))). { rewrite E. apply in_app_iff. right. left. reflexivity. }
  apply filter_In in J. exact J.
Qed.
Lemma simple_flags : forall root t, simple root -> within root t -> flag_ok t.
Proof.
  intros root t S W key o ON R. apply option_named_in in ON. destruct ON as [[->|[I O]] _]; [split; reflexivity|].
  specialize (S t W o I). unfold simple_arg in S. unfold is_option in O. unfold store. destruct (a_kind o) as [rep m|]; [|discriminate].
  destruct (S R) as [-> ->]. split; reflexivity.
Qed.
Lemma declares_in : forall A (names : A -> list str) l key x, declares names l key x -> In x l /\ In key (names x).
Proof. intros A names l key x (a & b & -> & I & _). split; [apply in_app_iff; right; left; reflexivity|exact I]. Qed.
Lemma clean_fit : forall root t b, simple root -> within root t -> clean root b -> fit t b.
Proof.
  intros root t b S W C.
  assert (UV : forall a, In a (args_of t) -> unvalued (a_fields a) b).
  { intros a I fs E w J key raw f SP D R. destruct (C w J) as [_ C1]. destruct (C1 key raw SP) as [_ C2]. destruct raw as [|c raw]; [reflexivity|].
    destruct (C2 ltac:(discriminate)) as (_ & NF & _). exfalso. apply NF. apply declares_in in D. exists t, a, fs, f.
    split; [exact W|]. split; [exact I|]. split; [exact E|]. split; [apply D|]. split; [exact R|apply D]. }
  split; [exact (simple_flags root t S W)|]. split; [|split; [|split; [exact UV|]]].
  - intros a I P. specialize (S t W a I). unfold simple_arg in S. unfold is_positional, is_option in P. destruct (a_kind a); [discriminate P|].
    destruct (a_reader a); [contradiction| | |]; reflexivity.
  - intros key o ON. apply option_named_in in ON. destruct ON as [[->|[I _]] _]; [intros fs E; discriminate E|apply UV; exact I].
  - intros w J key raw SP. destruct (C w J) as [_ C1]. destruct (C1 key raw SP) as [C2 C3]. split; [exact C2|]. intro N.
    destruct (C3 N) as (N1 & _ & N3).
    assert (FO : forall k o, option_named t k o -> a_reader o = RFlag -> flag_option root k).
    { intros k o ON R. apply option_named_in in ON. destruct ON as [D I]. exists o. split; [|auto]. destruct D as [->|[D _]]; [left; reflexivity|right; exists t; auto]. }
    split.
    + intros o ON R. exact (N1 (FO _ _ ON R)).
    + intros l c -> o ON R. exact (N3 l c eq_refl (FO _ _ ON R)).
Qed.
Lemma parse_sound : forall root fuel s b r, simple root -> within root (t_node s) -> clean root b -> parse_loop fuel s b = Some (Ok r) -> explains s b r.
Proof.
  intros root fuel. induction fuel as [|fuel IH]; intros s b r S W C H.
  - destruct b as [|[|c w] b]; cbn [parse_loop] in H.
    + destruct (def_of (t_node s)) as [d|] eqn:D; [|discriminate]. destruct (finalize s) as [args|] eqn:F; [|discriminate]. injection H as <-. apply ex_done; [congruence|exact F].
    + destruct (C [] (or_introl eq_refl)) as [X _]. destruct (X eq_refl).
    + discriminate.
  - destruct b as [|[|c w] b]; cbn [parse_loop] in H.
    + destruct (def_of (t_node s)) as [d|] eqn:D; [|discriminate]. destruct (finalize s) as [args|] eqn:F; [|discriminate]. injection H as <-. apply ex_done; [congruence|exact F].
    + destruct (C [] (or_introl eq_refl)) as [X _]. destruct (X eq_refl).
    + match type of H with context[round ?x ?y ?z] => destruct (round x y z) as [[s' b']|] eqn:R end; [|discriminate H].
      destruct (round_sound _ _ _ _ _ (clean_fit root _ _ S W C) R) as (ws & E & U). rewrite E.
      apply (ex_use s ws b' s'); [intro X; rewrite X in E; discriminate E|exact U|].
      apply IH; [exact S|exact (used_within _ _ _ _ _ W U)| |exact H].
      intros x I. apply C. rewrite E. apply in_app_iff. right. exact I.
Qed.
Lemma parse_complete : forall root s b r, simple root -> within root (t_node s) -> clean root b -> explains s b r ->
  exists n, forall fuel, n <= fuel -> parse_loop fuel s b = Some (Ok r).
Proof.
  intros root s b r S W C X. induction X as [s args D F|s ws rest s' r N U X IH].
  - exists 0. intros fuel _. assert (G : parse_loop fuel s [] = Some (match def_of (t_node s) with None => Err IOErr | Some _ => do args <- finalize s; Ok ((t_path s, args) :: t_parents s) end)) by (destruct fuel; reflexivity).
    rewrite G. destruct (def_of (t_node s)); [|contradiction]. rewrite F. reflexivity.
  - destruct IH as [n IH]; [exact (used_within _ _ _ _ _ W U)|intros x I; apply C; apply in_app_iff; right; exact I|].
    destruct (ws ++ rest) as [|w more] eqn:E; [contradiction|].
    assert (w <> []) by (apply (C w); left; reflexivity). destruct w as [|c w]; [contradiction|].
    exists (Datatypes.S n). intros fuel L. destruct fuel as [|fuel]; [lia|]. cbn [parse_loop].
    rewrite <- E at 1. rewrite (round_complete s ws rest s' (c :: w) more (simple_flags root _ S W) U E). apply IH. lia.
Qed.
