(** Proofs about the help of commands. *)
From Coq Require Import String Ascii List Bool NArith Arith Lia Permutation Sorted.
From Verif Require Import Base BaseFacts ParserModel ProjectModel CliModel HelpModel.
Import ListNotations.
Open Scope string_scope.
Open Scope nat_scope.
Open Scope list_scope.
Open Scope bool_scope.

(** ** sorting by length *)
Lemma insert_len_perm : forall x l, Permutation (insert_len x l) (x :: l).
Proof. intros x l. induction l as [|y l IH]; cbn [insert_len]; [reflexivity|]. destruct (length x <? length y); [reflexivity|]. rewrite IH. apply perm_swap. Qed.
Lemma fold_insert_perm : forall l acc, Permutation (fold_left (fun acc x => insert_len x acc) l acc) (l ++ acc).
Proof. intros l. induction l as [|x l IH]; intros acc; cbn; [reflexivity|]. rewrite IH, insert_len_perm. symmetry. apply Permutation_middle. Qed.
Lemma sort_len_perm : forall l, Permutation (sort_len l) l.
Proof. intros l. unfold sort_len. rewrite fold_insert_perm, app_nil_r. reflexivity. Qed.
Definition shorter (x y : str) : Prop := length x <= length y.
Lemma insert_len_hd : forall x y l, shorter y x -> HdRel shorter y l -> HdRel shorter y (insert_len x l).
Proof. intros x y l X H. destruct l as [|z l]; cbn [insert_len]; [constructor; exact X|]. destruct (length x <? length z); constructor; [exact X|inversion H; assumption]. Qed.
Lemma insert_len_sorted : forall x l, Sorted shorter l -> Sorted shorter (insert_len x l).
Proof.
  intros x l H. induction l as [|y l IH]; cbn [insert_len]; [constructor; constructor|]. inversion H as [|? ? S1 S2]; subst. destruct (length x <? length y) eqn:E.
  - apply Nat.ltb_lt in E. constructor; [exact H|]. constructor. unfold shorter. lia.
  - apply Nat.ltb_ge in E. constructor; [apply IH; exact S1|]. apply insert_len_hd; [exact E|exact S2].
Qed.
Lemma sort_len_sorted : forall l, Sorted shorter (sort_len l).
Proof. intros l. unfold sort_len. assert (G : forall l acc, Sorted shorter acc -> Sorted shorter (fold_left (fun acc x => insert_len x acc) l acc)) by (intro k; induction k as [|x k IH]; intros acc H; cbn; [exact H|apply IH, insert_len_sorted; exact H]). apply G. constructor. Qed.
Lemma short_in : forall names n, short_name names = Some n -> In n names /\ is_long n = false.
Proof. intros names n H. apply List.find_some in H. destruct H as [H L]. split; [apply (Permutation_in n (sort_len_perm names)); exact H|apply negb_true_iff; exact L]. Qed.
Lemma long_in : forall names n, long_name names = Some n -> In n names /\ is_long n = true.
Proof. intros names n H. apply List.find_some in H. destruct H as [H L]. split; [apply (Permutation_in n (sort_len_perm names)); exact H|exact L]. Qed.
Lemma short_there : forall names n, In n names -> is_long n = false -> exists m, short_name names = Some m.
Proof.
  intros names n H L. destruct (short_name names) as [m|] eqn:E; [eauto|]. exfalso. pose proof (List.find_none _ _ E n (Permutation_in n (Permutation_sym (sort_len_perm names)) H)) as X. cbv beta in X. rewrite L in X. discriminate X.
Qed.
Lemma some_there : forall names n, In n names -> short_name names = None -> exists m, long_name names = Some m.
Proof.
  intros names n H S. destruct (long_name names) as [m|] eqn:E; [eauto|]. exfalso. destruct (is_long n) eqn:L.
  - pose proof (List.find_none _ _ E n (Permutation_in n (Permutation_sym (sort_len_perm names)) H)) as X. cbv beta in X. rewrite L in X. discriminate X.
  - destruct (short_there names n H L) as (m & M). congruence.
Qed.

(** ** the options of a command *)
Definition at_index (l : list argdef) (e : str * nat) : list (str * argdef) := match nth_error l (snd e) with Some a => [(fst e, a)] | None => [] end.
Lemma dict_get_set : forall V k (v : V) d k', dict_get k' (dict_set k v d) = if str_eqb k' k then Some v else dict_get k' d.
Proof.
  intros V k v d k'. induction d as [|[k2 v2] d IH]; cbn; [destruct (str_eqb k' k); reflexivity|]. destruct (str_eqb k k2) eqn:E.
  - apply str_eqb_eq in E. subst k2. cbn. destruct (str_eqb k' k); reflexivity.
  - cbn. rewrite IH. destruct (str_eqb k' k2) eqn:E2; [|reflexivity]. apply str_eqb_eq in E2. subst k'. destruct (str_eqb k2 k) eqn:E3; [|reflexivity]. apply str_eqb_eq in E3. subst. rewrite str_eqb_refl in E. discriminate.
Qed.
Section Dict.
Variable l : list argdef.
(** the dictionary of objects and the dictionary of their positions *)
Definition same (d : list (str * argdef)) (e : list (str * nat)) : Prop :=
  forall n, match dict_get n e with Some i => exists o, nth_error l i = Some o /\ dict_get n d = Some o | None => dict_get n d = None end.
Lemma same_set : forall d e n i o, same d e -> nth_error l i = Some o -> same (dict_set n o d) (dict_set n i e).
Proof. intros d e n i o H N m. rewrite !dict_get_set. destruct (str_eqb m n); [exists o; auto|apply H]. Qed.
Lemma same_names : forall names d e i o, same d e -> nth_error l i = Some o ->
  same (fold_left (fun d e => dict_set (fst e) (snd e) d) (map (fun n => (n, o)) names) d) (fold_left (fun d e => dict_set (fst e) (snd e) d) (map (fun n => (n, i)) names) e).
Proof. intros names. induction names as [|n names IH]; intros d e i o H N; cbn; [exact H|]. apply IH; [apply same_set; assumption|exact N]. Qed.
Lemma same_fold : forall r k d e, (forall i o, nth_error r i = Some o -> nth_error l (k + i) = Some o) -> same d e ->
  same (fold_left (fun d e => dict_set (fst e) (snd e) d) (flat_map (fun o => if is_option o then map (fun n => (n, o)) (a_names o) else []) r) d)
       (fold_left (fun d e => dict_set (fst e) (snd e) d) (flat_map (fun io => if is_option (snd io) then map (fun n => (n, fst io)) (a_names (snd io)) else []) (combine (seq k (length r)) r)) e).
Proof.
  intros r. induction r as [|o r IH]; intros k d e N H; cbn [length seq combine flat_map]; [exact H|]. rewrite !fold_left_app. cbn [fst snd]. apply IH.
  - intros i p X. specialize (N (Datatypes.S i) p X). rewrite <- plus_n_Sm in N. exact N.
  - destruct (is_option o); [|exact H]. apply same_names; [exact H|]. specialize (N 0 o eq_refl). rewrite Nat.add_0_r in N. exact N.
Qed.
End Dict.
Lemma options_same : forall t, same (args_of t) (options t) (option_ids t).
Proof. intros t. apply same_fold; [intros i o H; exact H|]. intro n. reflexivity. Qed.
Lemma dict_get_in : forall V n (v : V) d, dict_get n d = Some v -> In v (map snd d).
Proof. intros V n v d. induction d as [|[m w] d IH]; cbn; [discriminate|]. destruct (str_eqb n m); [intro H; injection H as <-; auto|auto]. Qed.
(** keys occur once *)
Lemma dict_set_keys : forall V n (v : V) d, map fst (dict_set n v d) = if dict_has n d then map fst d else map fst d ++ [n].
Proof.
  intros V n v d. induction d as [|[m w] d IH]; cbn; [reflexivity|]. unfold dict_has in *. cbn. destruct (str_eqb n m) eqn:E; cbn; [apply str_eqb_eq in E; subst; reflexivity|]. rewrite IH. destruct (dict_get n d); reflexivity.
Qed.
Lemma dict_has_in : forall V n (d : list (str * V)), dict_has n d = true <-> In n (map fst d).
Proof.
  intros V n d. unfold dict_has. induction d as [|[m w] d IH]; cbn; [split; [discriminate|intros []]|]. destruct (str_eqb n m) eqn:E.
  - apply str_eqb_eq in E. subst. split; auto.
  - rewrite IH. split; [auto|intros [X|X]; [subst; rewrite str_eqb_refl in E; discriminate|exact X]].
Qed.
Lemma dict_set_nodup : forall V n (v : V) d, NoDup (map fst d) -> NoDup (map fst (dict_set n v d)).
Proof.
  intros V n v d H. rewrite dict_set_keys. destruct (dict_has n d) eqn:E; [exact H|]. apply (Permutation_NoDup (Permutation_cons_append (map fst d) n)). constructor; [|exact H]. intro X. apply dict_has_in in X. congruence.
Qed.
Lemma fold_nodup : forall V (l : list (str * V)) d, NoDup (map fst d) -> NoDup (map fst (fold_left (fun d e => dict_set (fst e) (snd e) d) l d)).
Proof. intros V l. induction l as [|e l IH]; intros d H; cbn; [exact H|]. apply IH, dict_set_nodup; exact H. Qed.
Lemma in_dict_get : forall V n (v : V) d, NoDup (map fst d) -> In (n, v) d -> dict_get n d = Some v.
Proof.
  intros V n v d. induction d as [|[m w] d IH]; cbn; [intros _ []|]. intros H [E|I].
  - injection E as -> ->. rewrite str_eqb_refl. reflexivity.
  - inversion H as [|? ? X Y]; subst. destruct (str_eqb n m) eqn:E; [|auto]. apply str_eqb_eq in E. subst. exfalso. apply X. apply (in_map fst) in I. exact I.
Qed.
Lemma option_ids_get : forall t i, In i (map snd (option_ids t)) -> exists n, dict_get n (option_ids t) = Some i.
Proof. intros t i H. apply in_map_iff in H. destruct H as ([n j] & <- & I). exists n. apply in_dict_get; [apply fold_nodup; constructor|exact I]. Qed.
Lemma uniq_in : forall l tracked i, In i (uniq tracked l) <-> In i l /\ ~ In i tracked.
Proof.
  intros l. induction l as [|j l IH]; intros tracked i; cbn; [tauto|]. destruct (existsb (Nat.eqb j) tracked) eqn:E.
  - rewrite IH. apply existsb_exists in E. destruct E as (k & K & X). apply Nat.eqb_eq in X. subst k. split; [tauto|]. intros [[->|A] B]; [contradiction|tauto].
  - cbn. rewrite IH. cbn. assert (N : ~ In j tracked) by (intro X; rewrite <- not_true_iff_false in E; apply E; apply existsb_exists; exists j; split; [exact X|apply Nat.eqb_refl]).
    destruct (Nat.eq_dec i j) as [->|D]; [tauto|]. split; [intros [X|X]; [congruence|tauto]|intros [[X|X] Y]; [congruence|right; split; [exact X|intros [Z|Z]; [congruence|contradiction]]]].
Qed.
Lemma uniq_nodup : forall l tracked, NoDup (uniq tracked l).
Proof.
  intros l. induction l as [|j l IH]; intros tracked; cbn; [constructor|]. destruct (existsb (Nat.eqb j) tracked); [apply IH|]. constructor; [|apply IH]. intro X. apply uniq_in in X. apply X. left. reflexivity.
Qed.
(** the positions of the options that are shown *)
Definition shown (t : ast) : list nat := uniq [] (map snd (option_ids t)).
Lemma shown_spec : forall t i, In i (shown t) <-> exists n o, nth_error (args_of t) i = Some o /\ dict_get n (options t) = Some o /\ dict_get n (option_ids t) = Some i.
Proof.
  intros t i. unfold shown. rewrite uniq_in. split.
  - intros [H _]. apply option_ids_get in H. destruct H as (n & H). pose proof (options_same t n) as X. rewrite H in X. destruct X as (o & X & Y). exists n, o. auto.
  - intros (n & o & _ & _ & H). split; [apply dict_get_in in H; exact H|intros []].
Qed.
Lemma option_shown : forall t n o, dict_get n (options t) = Some o -> In o (unique_options t).
Proof.
  intros t n o H. pose proof (options_same t n) as X. destruct (dict_get n (option_ids t)) as [i|] eqn:E; [|congruence]. destruct X as (o' & X & Y). rewrite H in Y. injection Y as <-.
  unfold unique_options. apply in_flat_map. exists i. split; [apply (shown_spec t i); exists n, o; auto|rewrite X; left; reflexivity].
Qed.
Lemma unique_shown : forall t, unique_options t = flat_map (fun i => match nth_error (args_of t) i with Some a => [a] | None => [] end) (shown t).
Proof. reflexivity. Qed.
Lemma unique_spec : forall t o, In o (unique_options t) <-> exists n, dict_get n (options t) = Some o.
Proof.
  intros t o. split; [|intros (n & H); exact (option_shown t n o H)]. rewrite unique_shown. intro H. apply in_flat_map in H. destruct H as (i & I & X). apply shown_spec in I. destruct I as (n & o' & N & G & _). rewrite N in X. destruct X as [<-|[]]. exists n. exact G.
Qed.
Lemma option_in_args : forall t n o, dict_get n (options t) = Some o -> In o (args_of t) /\ is_option o = true /\ In n (a_names o).
Proof.
  intros t n o. unfold options. generalize (args_of t). intro l.
  assert (G : forall l' d, (forall m p, dict_get m d = Some p -> In p l /\ is_option p = true /\ In m (a_names p)) -> incl l' l ->
    forall m p, dict_get m (fold_left (fun d e => dict_set (fst e) (snd e) d) (flat_map (fun o => if is_option o then map (fun n => (n, o)) (a_names o) else []) l') d) = Some p -> In p l /\ is_option p = true /\ In m (a_names p)).
  { intros l'. induction l' as [|a l' IH]; intros d H IN m p; cbn [flat_map]; [apply H|]. rewrite fold_left_app. apply IH; [|intros z Z; apply IN; right; exact Z]. clear IH m p. destruct (is_option a) eqn:OA; [|exact H].
    assert (F : forall names d, (forall k, In k names -> In k (a_names a)) -> (forall m p, dict_get m d = Some p -> In p l /\ is_option p = true /\ In m (a_names p)) -> forall m p, dict_get m (fold_left (fun d e => dict_set (fst e) (snd e) d) (map (fun n => (n, a)) names) d) = Some p -> In p l /\ is_option p = true /\ In m (a_names p)).
    { intros names. induction names as [|k names IH]; intros e K E m p; cbn; [apply E|]. apply IH; [intros z Z; apply K; right; exact Z|]. intros m' p'. rewrite dict_get_set. destruct (str_eqb m' k) eqn:Q; [|apply E]. intro X. injection X as <-. apply str_eqb_eq in Q. subst. split; [apply IN; left; reflexivity|]. split; [exact OA|apply K; left; reflexivity]. }
    apply F; [auto|exact H]. }
  apply G; [discriminate|apply incl_refl].
Qed.
Lemma unique_args : forall t o, In o (unique_options t) -> In o (args_of t) /\ is_option o = true.
Proof. intros t o H. apply unique_spec in H. destruct H as (n & H). apply option_in_args in H. tauto. Qed.

(** ** when a usage is produced *)
Definition named (names : list str) : Prop := names <> [] /\ ~ In [] names.
Definition has_short (names : list str) : Prop := exists n, In n names /\ starts_with (lit "--") n = false.
Definition fit (i : item) : Prop :=
  named (i_names i) /\ (is_flag (i_reader i) = false -> has_short (i_names i)) /\ match i_fields i with Some r => exists ts, r = Ok ts | None => True end.
Lemma shortest_ok : forall i, named (i_names i) -> exists n, shortest i = Ok n.
Proof.
  intros i [NE NN]. unfold shortest. destruct (short_name (i_names i)) as [[|c s]|] eqn:E; [|eauto|].
  - apply short_in in E. destruct E as [E _]. contradiction.
  - destruct (i_names i) as [|n r] eqn:N; [contradiction|]. rewrite <- N in *. destruct (some_there (i_names i) n) as (m & M); [rewrite N; left; reflexivity|exact E|]. rewrite M. eauto.
Qed.
Lemma flag_tokens_ok : forall l, (forall i, In i l -> named (i_names i)) -> exists lt, flag_tokens l = Ok lt.
Proof.
  intros l. induction l as [|i l IH]; intro H; cbn [flag_tokens]; [eauto|]. destruct (shortest_ok i (H i (or_introl eq_refl))) as (n & ->). destruct IH as (lt & ->); [intros j J; apply H; right; exact J|]. cbn [bind]. eauto.
Qed.
Lemma option_token_ok : forall T i, fit i -> exists s, option_token T i = Ok s.
Proof.
  intros T i (N & S & F). unfold option_token.
  assert (B : exists b, match value_hint T (i_reader i), short_name (i_names i) with
             | [], Some s => Ok s
             | [], None => Ok (lit "None")
             | h, Some s => Ok (s ++ (if starts_with (lit "-") s then lit " " else lit "=") ++ h)
             | _, None => Err AttributeError
             end = Ok b).
  { destruct (short_name (i_names i)) as [s|] eqn:E; [destruct (value_hint T (i_reader i)); eauto|]. destruct (is_flag (i_reader i)) eqn:FL.
    - destruct (i_reader i); try discriminate. cbn. eauto.
    - destruct (S eq_refl) as (n & I & L). destruct (short_there _ _ I L) as (m & M). congruence. }
  destruct B as (b & ->). cbn [bind]. destruct (i_fields i) as [r|]; [destruct F as (ts & ->)|]; cbn [bind]; eauto.
Qed.
Lemma map_res_ok : forall A B (f : A -> res B) l, (forall a, In a l -> exists b, f a = Ok b) -> exists bs, map_res f l = Ok bs.
Proof.
  intros A B f l. induction l as [|a l IH]; intro H; cbn [map_res]; [eauto|]. destruct (H a (or_introl eq_refl)) as (b & ->). destruct IH as (bs & ->); [intros c C; apply H; right; exact C|]. cbn [bind]. eauto.
Qed.
Lemma option_tokens_ok : forall T l, (forall i, In i l -> fit i) -> exists ts, option_tokens T l = Ok ts.
Proof.
  intros T l H. unfold option_tokens. destruct (flag_tokens_ok (filter combinable l)) as (lt & ->); [intros i I; apply filter_In in I; apply H; apply I|]. cbn [bind].
  destruct (map_res_ok _ _ (option_token T) (filter (fun i => negb (combinable i)) l)) as (ts & ->); [intros i I; apply filter_In in I; apply option_token_ok, H; apply I|]. cbn [bind]. eauto.
Qed.
Definition fit_field (f : subdef) : Prop := named (s_names f) /\ (is_flag (s_reader f) = false -> has_short (s_names f)).
Definition fit_fields (a : argdef) : Prop := forall fs f, a_fields a = Some fs -> In f fs -> fit_field f.
Definition fit_option (a : argdef) : Prop := named (a_names a) /\ (is_flag (a_reader a) = false -> has_short (a_names a)).
Lemma field_tokens_ok : forall T a, fit_fields a -> match field_tokens T a with Some r => exists ts, r = Ok ts | None => True end.
Proof.
  intros T a H. unfold field_tokens. destruct (a_fields a) as [[|f fs]|] eqn:E; [exact Logic.I| |exact Logic.I]. apply option_tokens_ok. intros i I. apply in_map_iff in I. destruct I as (g & <- & G). destruct (H _ g E G) as [A B]. split; [exact A|]. split; [exact B|exact Logic.I].
Qed.
Lemma option_item_fit : forall T a, fit_option a -> fit_fields a -> fit (option_item T a).
Proof. intros T a [A B] F. split; [exact A|]. split; [exact B|]. exact (field_tokens_ok T a F). Qed.
Lemma groups_in : forall l d g r a, (forall g r a, In (g, r) d -> In a r -> In a l \/ exists g' r', In (g', r') d /\ In a r') ->
  In (g, r) (mutex_groups l d) -> In a r -> In a l \/ exists g' r', In (g', r') d /\ In a r'.
Proof.
  intros l. induction l as [|o l IH]; intros d g r a _ H I; cbn [mutex_groups] in H; [right; eauto|]. destruct (mutex_of o) as [m|].
  - destruct (IH _ g r a (fun g r a X Y => or_intror (ex_intro _ g (ex_intro _ r (conj X Y)))) H I) as [X|(g' & r' & X & Y)]; [left; right; exact X|].
    assert (Q : In (g', r') (dict_set m (match dict_get m d with Some x => x | None => [] end ++ [o]) d) -> (g' = m /\ r' = match dict_get m d with Some x => x | None => [] end ++ [o]) \/ In (g', r') d).
    { generalize (match dict_get m d with Some x => x | None => [] end ++ [o]). intro v. clear. induction d as [|[k w] d IH]; cbn; [intros [E|[]]; injection E as <- <-; auto|]. destruct (str_eqb m k) eqn:E; cbn; intros [X|X]; auto; [apply str_eqb_eq in E; injection X as <- <-; subst; auto|apply IH in X; tauto]. }
    destruct (Q X) as [[-> ->]|Z]; [|right; eauto]. apply in_app_or in Y. destruct Y as [Y|[<-|[]]]; [|left; left; reflexivity]. destruct (dict_get m d) as [x|] eqn:G; [|destruct Y]. right. exists m, x. split; [|exact Y].
    clear - G. induction d as [|[k w] d IH]; [discriminate|]. cbn in G. destruct (str_eqb m k) eqn:E; [apply str_eqb_eq in E; subst; injection G as ->; left; reflexivity|right; auto].
  - destruct (IH d g r a (fun g r a X Y => or_intror (ex_intro _ g (ex_intro _ r (conj X Y)))) H I) as [X|X]; [left; right; exact X|right; exact X].
Qed.
Lemma usage_ok : forall T path t, (forall a, In a (args_of t) -> is_option a = true -> fit_option a) -> (forall a, In a (args_of t) -> fit_fields a) -> exists s, usage T path t = Ok s.
Proof.
  intros T path t HO HF. unfold usage, usage_tokens.
  assert (F : forall l, incl l (unique_options t) -> exists ts, option_tokens T (map (option_item T) l) = Ok ts).
  { intros l L. apply option_tokens_ok. intros i I. apply in_map_iff in I. destruct I as (a & <- & A). apply L, unique_args in A. destruct A as [A1 A2]. apply option_item_fit; auto. }
  destruct (F (filter (fun a => negb (is_some (mutex_of a))) (unique_options t))) as (plain & ->); [intros a A; apply filter_In in A; apply A|]. cbn [bind].
  destruct (map_res_ok _ _ (fun g => group_token T (snd g)) (mutex_groups (unique_options t) [])) as (groups & ->).
  { intros [g r] I. cbn [snd]. unfold group_token. destruct (F r) as (ts & ->); [|cbn [bind]; eauto]. intros a A. destruct (groups_in (unique_options t) [] g r a) as [X|(g' & r' & [] & _)]; auto. intros ? ? ? []. }
  cbn [bind]. destruct (map_res_ok _ _ (positional_tokens T) (positionals t)) as (pos & ->); [|cbn [bind]; eauto].
  intros a A. apply filter_In in A. destruct A as [A _]. unfold positional_tokens. pose proof (field_tokens_ok T a (HF a A)) as X. destruct (field_tokens T a) as [r|]; [destruct X as (ts & ->)|]; cbn [bind]; destruct (a_default a); cbn [bind]; eauto.
Qed.

(** ** camel case *)
Lemma camel_concat : forall s, concat (split_camel_case s) = s /\ ~ In [] (split_camel_case s).
Proof.
  intros s. induction s as [|c s [IH1 IH2]]; [split; [reflexivity|intros []]|]. destruct s as [|d r]; [split; [reflexivity|intros [E|[]]; discriminate]|]. cbn [split_camel_case] in *.
  match goal with |- context [match ?m with [] => [[c]] | _ => _ end] => set (m' := m) in * end. destruct (boundary c d r).
  - cbn [concat]. rewrite IH1. split; [reflexivity|]. intros [E|E]; [discriminate|contradiction].
  - destruct m' as [|w ws]; [discriminate IH1|]. cbn [concat] in *. rewrite <- app_comm_cons. cbn. rewrite IH1. split; [reflexivity|]. intros [E|E]; [discriminate|]. apply IH2. right. exact E.
Qed.
Lemma camel_cut : forall s a c d r, s = a ++ c :: d :: r -> boundary c d r = true <-> exists w1 w2, split_camel_case s = w1 ++ w2 /\ concat w1 = a ++ [c].
Proof.
  intros s. induction s as [|x s IH]; intros a c d r E; [destruct a; discriminate|]. destruct s as [|y s']; [destruct a as [|? [|? ?]]; discriminate|].
  pose proof (camel_concat (y :: s')) as [CC CN]. change (split_camel_case (x :: y :: s')) with (if boundary x y s' then [x] :: split_camel_case (y :: s') else match split_camel_case (y :: s') with w :: ws => (x :: w) :: ws | [] => [[x]] end).
  destruct a as [|z a].
  - cbn in E. injection E as <- <- <-. cbn [app]. destruct (boundary x y s') eqn:B.
    + split; [intros _|reflexivity]. exists [[x]], (split_camel_case (y :: s')). split; reflexivity.
    + split; [discriminate|]. intros (w1 & w2 & W & C). destruct (split_camel_case (y :: s')) as [|w ws]; [discriminate|]. destruct w1 as [|u w1]; [discriminate|]. cbn in W. injection W as <- W. cbn in C. injection C as C. destruct w as [|q w]; [exfalso; apply CN; left; reflexivity|discriminate].
  - injection E as <- E. specialize (IH a c d r E). rewrite IH. destruct (boundary x y s') eqn:B.
    + split.
      * intros (w1 & w2 & W & C). exists ([x] :: w1), w2. rewrite W. split; [reflexivity|]. cbn. rewrite C. reflexivity.
      * intros (w1 & w2 & W & C). destruct w1 as [|u w1]; [destruct a; discriminate|]. cbn in W. injection W as <- W. exists w1, w2. split; [exact W|]. cbn in C. injection C as C. exact C.
    + destruct (split_camel_case (y :: s')) as [|w ws]; [discriminate CC|]. split.
      * intros (w1 & w2 & W & C). destruct w1 as [|u w1]; [destruct a; discriminate|]. cbn in W. injection W as <- W. exists ((x :: w) :: w1), w2. cbn. rewrite W. split; [reflexivity|]. cbn in C. rewrite C. reflexivity.
      * intros (w1 & w2 & W & C). destruct w1 as [|u w1]; [destruct a; discriminate|]. cbn in W. injection W as <- W. exists (w :: w1), w2. cbn. rewrite W. split; [reflexivity|]. cbn in C. injection C as C. exact C.
Qed.

(** ** every option is mentioned *)
Definition inside (n s : str) : Prop := exists a b, s = a ++ n ++ b.
Lemma inside_refl : forall n, inside n n.
Proof. intros n. exists [], []. rewrite app_nil_r. reflexivity. Qed.
Lemma inside_l : forall n a s, inside n s -> inside n (a ++ s).
Proof. intros n a s (x & y & ->). exists (a ++ x), y. rewrite <- app_assoc. reflexivity. Qed.
Lemma inside_r : forall n b s, inside n s -> inside n (s ++ b).
Proof. intros n b s (x & y & ->). exists x, (y ++ b). rewrite <- !app_assoc. reflexivity. Qed.
Lemma inside_join : forall sep l n w, In w l -> inside n w -> inside n (join sep l).
Proof.
  intros sep l n w. induction l as [|x l IH]; [intros []|]. intros [->|H] I; cbn [join]; destruct l as [|y l]; auto; [apply inside_r; exact I|destruct H|apply inside_l, inside_l, IH; assumption].
Qed.
Lemma drop_inside : forall f x r a, f x = false -> exists a', snd (span f (a ++ x :: r)) = a' ++ x :: r.
Proof.
  intros f x r a FX. induction a as [|y a (a' & IH)]; cbn [app].
  - exists []. cbn. rewrite FX. reflexivity.
  - cbn [span]. destruct (f y) eqn:E; [destruct (span f (a ++ x :: r)) as [u v]; cbn in *; eauto|]. exists (y :: a). reflexivity.
Qed.
Lemma strip_inside : forall n s, inside n s -> match n with [] => False | c :: _ => is_bracket c = false end -> match rev n with [] => False | c :: _ => is_bracket c = false end -> inside n (strip_brackets s).
Proof.
  intros n s (a & b & ->) F L. unfold strip_brackets. destruct n as [|c n]; [contradiction|]. cbn [app]. destruct (drop_inside is_bracket c (n ++ b) a F) as (a' & ->).
  change (a' ++ c :: n ++ b) with (a' ++ (c :: n) ++ b). rewrite !rev_app_distr. destruct (rev (c :: n)) as [|d m] eqn:E; [contradiction|]. rewrite <- app_assoc. cbn [app]. destruct (drop_inside is_bracket d (m ++ rev a') (rev b) L) as (b' & ->).
  rewrite !rev_app_distr. change (d :: m ++ rev a') with ((d :: m) ++ rev a'). rewrite <- E, rev_app_distr, !rev_involutive. exists a', (rev b'). rewrite <- app_assoc. reflexivity.
Qed.
Lemma flag_tokens_mention : forall l lt, flag_tokens l = Ok lt -> (forall i, In i l -> exists n, shortest i = Ok n /\ match n with [_; c] => In c (fst lt) | _ => In (lit "[" ++ n ++ lit "]") (snd lt) end) /\
  (forall c, In c (fst lt) -> exists i m, In i l /\ In [m; c] (i_names i)).
Proof.
  intros l. induction l as [|i l IH]; intros lt H; cbn [flag_tokens] in H; [injection H as <-; split; [intros ? []|intros ? []]|]. destruct (shortest i) as [n|] eqn:SH; [|discriminate]. destruct (flag_tokens l) as [lt'|]; [|discriminate]. cbn [bind] in H. injection H as <-. destruct (IH lt' eq_refl) as [A B].
  assert (IN : In n (i_names i)) by (unfold shortest in SH; destruct (short_name (i_names i)) as [[|c s]|] eqn:E; [|injection SH as <-; apply short_in in E; apply E|]; destruct (long_name (i_names i)) as [m|] eqn:E2; try discriminate; injection SH as <-; apply long_in in E2; apply E2).
  split.
  - intros j [<-|J]; [exists n; split; [exact SH|]; destruct n as [|a [|b [|c n]]]; left; reflexivity|]. destruct (A j J) as (m & M1 & M2). exists m. split; [exact M1|]. destruct m as [|a [|b [|c m]]]; destruct n as [|a' [|b' [|c' n]]]; cbn [fst snd]; try exact M2; right; exact M2.
  - intros c C. assert (D : (exists m, n = [m; c]) \/ In c (fst lt')) by (destruct n as [|a' [|b' [|c' n]]]; cbn in C; auto; destruct C as [<-|C]; eauto).
    destruct D as [(m & ->)|D]; [exists i, m; split; [left; reflexivity|exact IN]|]. destruct (B c D) as (j & m & J & M). exists j, m. split; [right; exact J|exact M].
Qed.
Lemma map_res_in : forall A B (f : A -> res B) l bs a, map_res f l = Ok bs -> In a l -> exists b, f a = Ok b /\ In b bs.
Proof.
  intros A B f l. induction l as [|x l IH]; intros bs a H; [intros []|]. cbn [map_res] in H. destruct (f x) as [b|] eqn:E; [|discriminate]. destruct (map_res f l) as [r|]; [|discriminate]. cbn [bind] in H. injection H as <-. intros [<-|I]; [exists b; split; [exact E|left; reflexivity]|]. destruct (IH r a eq_refl I) as (c & C1 & C2). exists c. split; [exact C1|right; exact C2].
Qed.
(** how an option may be spelled: one of its names, or the letter of a name behind a dash and other letters *)
Definition spelled (others : list (list str)) (names : list str) (core : str) : Prop :=
  In core names \/ exists letters m c, core = lit "-" ++ letters ++ [c] /\ In [m; c] names /\ forall x, In x letters -> exists k ns, In ns others /\ In [k; x] ns.
Lemma option_tokens_mention : forall T l ts i, option_tokens T l = Ok ts -> In i l -> (combinable i = false -> has_short (i_names i)) ->
  exists tok core, In tok ts /\ inside core tok /\ spelled (map i_names l) (i_names i) core.
Proof.
  intros T l ts i H I SUB. unfold option_tokens in H. destruct (flag_tokens (filter combinable l)) as [lt|] eqn:F; [|discriminate]. cbn [bind] in H. destruct (map_res (option_token T) (filter (fun i => negb (combinable i)) l)) as [os|] eqn:O; [|discriminate]. cbn [bind] in H. injection H as <-.
  destruct (combinable i) eqn:C.
  - destruct (flag_tokens_mention _ _ F) as [A B]. destruct (A i) as (n & N & X); [apply filter_In; auto|].
    assert (IN : In n (i_names i)) by (unfold shortest in N; destruct (short_name (i_names i)) as [[|c s]|] eqn:E; [|injection N as <-; apply short_in in E; apply E|]; destruct (long_name (i_names i)) as [m|] eqn:E2; try discriminate; injection N as <-; apply long_in in E2; apply E2).
    assert (Q : (exists m c, n = [m; c] /\ In c (fst lt)) \/ In (lit "[" ++ n ++ lit "]") (snd lt)) by (destruct n as [|m [|c [|d n]]]; auto; left; exists m, c; auto).
    destruct Q as [(m & c & -> & L)|Q].
    + apply in_split in L. destruct L as (l1 & l2 & L). exists (lit "[-" ++ fst lt ++ lit "]"), (lit "-" ++ l1 ++ [c]). split; [apply in_or_app; right; apply in_or_app; left; rewrite L; destruct l1; left; reflexivity|]. split.
      * rewrite L. exists (lit "["), (l2 ++ lit "]"). cbn. rewrite <- !app_assoc. reflexivity.
      * right. exists l1, m, c. split; [reflexivity|]. split; [exact IN|]. intros x X'. destruct (B x) as (j & k & J & K); [rewrite L; apply in_or_app; left; exact X'|]. apply filter_In in J. exists k, (i_names j). split; [apply in_map; apply J|exact K].
    + exists (lit "[" ++ n ++ lit "]"), n. split; [apply in_or_app; left; exact Q|]. split; [apply inside_l, inside_r, inside_refl|left; exact IN].
  - destruct (map_res_in _ _ _ _ _ i O) as (tok & T1 & T2); [apply filter_In; rewrite C; auto|]. exists tok. unfold option_token in T1.
    destruct (short_name (i_names i)) as [s|] eqn:E.
    + exists s. split; [apply in_or_app; right; apply in_or_app; right; exact T2|]. split; [|left; apply short_in in E; apply E].
      assert (BB : exists b, match value_hint T (i_reader i) with [] => Ok s | h => Ok (s ++ (if starts_with (lit "-") s then lit " " else lit "=") ++ h) end = Ok b /\ inside s b) by (destruct (value_hint T (i_reader i)); eexists; (split; [reflexivity|]); [apply inside_refl|apply inside_r, inside_refl]).
      destruct BB as (b & BB & IB). replace (match value_hint T (i_reader i) with [] => Ok s | c :: l0 => Ok (s ++ (if starts_with (lit "-") s then lit " " else lit "=") ++ c :: l0) end) with (@Ok str b) in T1. cbn [bind] in T1.
      destruct (match i_fields i with Some ts => do ts <- ts; Ok (b ++ lit " " ++ join (lit " ") ts) | None => Ok b end) as [full|] eqn:FU; [|discriminate]. cbn [bind] in T1. injection T1 as <-.
      assert (IF : inside s full) by (destruct (i_fields i) as [[tt|]|]; cbn in FU; try discriminate; injection FU as <-; [apply inside_r|]; exact IB).
      destruct (i_required i), (i_multi i); cbn [negb]; repeat first [exact IF | apply inside_r | apply (inside_l s (lit "[")) | apply (inside_l s (lit "("))]; try exact IF.
    + exfalso. destruct (SUB eq_refl) as (n & N & L). destruct (short_there _ _ N L) as (m & M). congruence.
Qed.
Lemma groups_keep : forall l d g r a, dict_get g d = Some r -> In a r -> exists r', dict_get g (mutex_groups l d) = Some r' /\ In a r'.
Proof.
  intros l. induction l as [|o l IH]; intros d g r a G I; cbn [mutex_groups]; [eauto|]. destruct (mutex_of o) as [m|]; [|eapply IH; eassumption]. destruct (str_eqb g m) eqn:E.
  - apply str_eqb_eq in E. subst m. apply (IH _ g (r ++ [o])); [rewrite dict_get_set, str_eqb_refl, G; reflexivity|apply in_or_app; left; exact I].
  - apply (IH _ g r); [rewrite dict_get_set, E; exact G|exact I].
Qed.
Lemma groups_has : forall l d g a, In a l -> mutex_of a = Some g -> exists r, dict_get g (mutex_groups l d) = Some r /\ In a r.
Proof.
  intros l. induction l as [|o l IH]; intros d g a; [intros []|]. intros [->|I] M; cbn [mutex_groups].
  - rewrite M. eapply groups_keep; [rewrite dict_get_set, str_eqb_refl; reflexivity|apply in_or_app; right; left; reflexivity].
  - destruct (mutex_of o); apply IH; assumption.
Qed.
Lemma dict_get_pair : forall V n (v : V) d, dict_get n d = Some v -> In (n, v) d.
Proof. intros V n v d. induction d as [|[m w] d IH]; cbn; [discriminate|]. destruct (str_eqb n m) eqn:E; [apply str_eqb_eq in E; intro H; injection H as <-; subst; left; reflexivity|right; auto]. Qed.
Definition plain (s : str) : Prop := forall c, In c s -> c <> "["%char /\ c <> "]"%char.
Lemma plain_bracket : forall s c, plain s -> In c s -> is_bracket c = false.
Proof. intros s c P I. destruct (P c I) as [A B]. unfold is_bracket. apply orb_false_iff. split; apply Ascii.eqb_neq; assumption. Qed.
Lemma spelled_edges : forall others names core, (forall n, In n names -> n <> [] /\ plain n) -> spelled others names core ->
  match core with [] => False | c :: _ => is_bracket c = false end /\ match rev core with [] => False | c :: _ => is_bracket c = false end.
Proof.
  intros others names core P [I|(letters & m & c & -> & I & _)].
  - destruct (P core I) as [NE PL]. split; [destruct core as [|x r]; [contradiction|apply (plain_bracket _ _ PL); left; reflexivity]|]. destruct (rev core) as [|x r] eqn:E; [apply NE; rewrite <- (rev_involutive core), E; reflexivity|]. apply (plain_bracket _ _ PL). apply in_rev. rewrite E. left. reflexivity.
  - split; [reflexivity|]. rewrite !rev_app_distr. cbn. destruct (P _ I) as [_ PL]. apply (plain_bracket _ _ PL). right. left. reflexivity.
Qed.
Definition lean (a : argdef) : bool := is_flag (a_reader a) && negb (is_some (a_fields a)).
Lemma Ok_inj : forall A (a b : A), Ok a = Ok b -> a = b.
Proof. intros A a b H. injection H as H. exact H. Qed.
Ltac ok_in H := apply Ok_inj in H; match type of H with _ = ?b => subst b end.
Lemma usage_mention : forall T path t s n o, usage T path t = Ok s -> dict_get n (options t) = Some o -> (forall m, In m (a_names o) -> m <> [] /\ plain m) -> (lean o = false -> has_short (a_names o)) ->
  exists core, inside core s /\ spelled (map a_names (args_of t)) (a_names o) core.
Proof.
  intros T path t s n o U G P SH. unfold usage in U. destruct (usage_tokens T t) as [ts|] eqn:UT; [|discriminate]. cbn [bind] in U. ok_in U. unfold usage_tokens in UT.
  destruct (option_tokens T (map (option_item T) (filter (fun a => negb (is_some (mutex_of a))) (unique_options t)))) as [pl|] eqn:PL; [|discriminate]. cbn [bind] in UT.
  destruct (map_res (fun g => group_token T (snd g)) (mutex_groups (unique_options t) [])) as [gs|] eqn:GS; [|discriminate]. cbn [bind] in UT.
  destruct (map_res (positional_tokens T) (positionals t)) as [ps|]; [|discriminate]. cbn [bind] in UT. ok_in UT. pose proof (option_shown t n o G) as OS.
  assert (OTH : forall l names core, incl l (unique_options t) -> spelled (map i_names (map (option_item T) l)) names core -> spelled (map a_names (args_of t)) names core).
  { intros l names core L [X|(letters & m & c & X & Y & Z)]; [left; exact X|right]. exists letters, m, c. split; [exact X|]. split; [exact Y|]. intros x XX. destruct (Z x XX) as (k & ns & K1 & K2). exists k, ns. split; [|exact K2]. rewrite map_map in K1. apply in_map_iff in K1. destruct K1 as (a & <- & A). change (i_names (option_item T a)) with (a_names a). apply in_map. apply L, unique_args in A. apply A. }
  destruct (mutex_of o) as [g|] eqn:M.
  - destruct (groups_has (unique_options t) [] g o OS M) as (r & R1 & R2). apply dict_get_pair in R1. destruct (map_res_in _ _ _ _ _ (g, r) GS R1) as (tok & T1 & T2). cbn [snd] in T1. unfold group_token in T1. destruct (option_tokens T (map (option_item T) r)) as [rs|] eqn:RS; [|discriminate]. cbn [bind] in T1. ok_in T1.
    destruct (option_tokens_mention T _ _ (option_item T o) RS (in_map _ _ _ R2) SH) as (tok & core & K1 & K2 & K3). exists core. destruct (spelled_edges _ _ core P K3) as [E1 E2]. split.
    + apply inside_l, inside_l, inside_l. eapply inside_join; [apply in_or_app; right; apply in_or_app; left; exact T2|]. apply inside_l, inside_r. eapply inside_join; [apply in_map; exact K1|]. apply strip_inside; assumption.
    + apply (OTH r); [|exact K3]. intros a A. destruct (groups_in (unique_options t) [] g r a) as [X|(g' & r' & [] & _)]; auto. intros ? ? ? [].
  - destruct (option_tokens_mention T _ _ (option_item T o) PL) as (tok & core & K1 & K2 & K3); [apply in_map; apply filter_In; split; [exact OS|rewrite M; reflexivity]|exact SH|]. exists core. split.
    + apply inside_l, inside_l, inside_l. eapply inside_join; [apply in_or_app; left; exact K1|exact K2].
    + refine (OTH _ _ _ _ K3). intros a A. apply filter_In in A. apply A.
Qed.

(** ** brackets *)
Fixpoint scan (n : nat) (s : str) : option nat :=
  match s with
  | [] => Some n
  | c :: r => if Ascii.eqb c "[" then scan (Datatypes.S n) r
              else if Ascii.eqb c "]" then match n with 0 => None | Datatypes.S m => scan m r end
              else scan n r
  end.
Definition balanced (s : str) : Prop := scan 0 s = Some 0.
(** a text that leaves every depth as it is *)
Definition level (s : str) : Prop := forall n r, scan n (s ++ r) = scan n r.
Lemma plain_level : forall s, plain s -> level s.
Proof.
  intros s. induction s as [|c s IH]; intros P n r; [reflexivity|]. cbn [app scan]. destruct (P c (or_introl eq_refl)) as [A B]. apply Ascii.eqb_neq in A, B. rewrite A, B. apply IH. intros x X. apply P. right. exact X.
Qed.
Lemma level_app : forall a b, level a -> level b -> level (a ++ b).
Proof. intros a b A B n r. rewrite <- app_assoc, A. apply B. Qed.
Lemma level_bracket : forall s, level s -> level (lit "[" ++ s ++ lit "]").
Proof. intros s H n r. cbn. rewrite <- app_assoc, H. reflexivity. Qed.
Lemma level_concat : forall l, (forall s, In s l -> level s) -> level (concat l).
Proof. intros l. induction l as [|s l IH]; intro H; [intros n r; reflexivity|]. cbn. apply level_app; [apply H; left; reflexivity|apply IH; intros x X; apply H; right; exact X]. Qed.
Lemma scan_join : forall sep l n r, plain sep -> scan n (join sep l ++ r) = scan n (concat l ++ r).
Proof.
  intros sep l n r P. revert n. induction l as [|x l IH]; intro n; [reflexivity|]. destruct l as [|y l]; [cbn [join concat]; rewrite app_nil_r; reflexivity|]. change (join sep (x :: y :: l)) with (x ++ sep ++ join sep (y :: l)). change (concat (x :: y :: l)) with (x ++ concat (y :: l)). rewrite <- !app_assoc.
  assert (G : forall x n u v, (forall n, scan n u = scan n v) -> scan n (x ++ u) = scan n (x ++ v)).
  { intro z. induction z as [|c z IHz]; intros k u v E; [apply E|]. cbn [app scan]. destruct (Ascii.eqb c "["); [apply IHz; exact E|]. destruct (Ascii.eqb c "]"); [destruct k; [reflexivity|apply IHz; exact E]|apply IHz; exact E]. }
  apply G. intro k. rewrite (plain_level sep P). apply IH.
Qed.
Lemma level_join : forall sep l, plain sep -> level (concat l) -> level (join sep l).
Proof. intros sep l P H n r. rewrite scan_join; auto. Qed.
Lemma plain_lit : forall s, forallb (fun c => negb (is_bracket c)) (lit s) = true -> plain (lit s).
Proof. intros s H c I. rewrite forallb_forall in H. specialize (H c I). unfold is_bracket in H. destruct (Ascii.eqb_spec c "["), (Ascii.eqb_spec c "]"); cbn in H; try discriminate; split; assumption. Qed.
Ltac lv := match goal with
  | |- level (lit "[" ++ ?s ++ lit "]") => apply level_bracket
  | |- level (_ ++ _) => apply level_app
  | |- level (lit _) => apply plain_level, plain_lit; reflexivity
  end.
Definition plain_item (T : texts) (i : item) : Prop :=
  (forall n, In n (i_names i) -> plain n) /\ plain (value_hint T (i_reader i)) /\ match i_fields i with Some (Ok ts) => level (concat ts) | _ => True end.
Lemma flag_tokens_level : forall l lt, flag_tokens l = Ok lt -> (forall i n, In i l -> In n (i_names i) -> plain n) -> level (fst lt) /\ level (concat (snd lt)).
Proof.
  intros l. induction l as [|i l IH]; intros lt H P; cbn [flag_tokens] in H; [ok_in H; split; intros n r; reflexivity|]. destruct (shortest i) as [n|] eqn:SH; [|discriminate]. destruct (flag_tokens l) as [lt'|]; [|discriminate]. cbn [bind] in H. ok_in H.
  destruct (IH lt' eq_refl) as [A B]; [intros j m J; apply P; right; exact J|].
  assert (IN : In n (i_names i)) by (unfold shortest in SH; destruct (short_name (i_names i)) as [[|c s]|] eqn:E; [|injection SH as <-; apply short_in in E; apply E|]; destruct (long_name (i_names i)) as [m|] eqn:E2; try discriminate; injection SH as <-; apply long_in in E2; apply E2).
  assert (PN : plain n) by (apply (P i n); [left; reflexivity|exact IN]).
  assert (G : level (lit "[" ++ n ++ lit "]")) by (apply level_bracket, plain_level; exact PN).
  destruct n as [|a [|b [|c n]]]; cbn [fst snd]; (split; [try exact A|try exact B]); try (apply level_app; assumption).
  change (b :: fst lt') with ([b] ++ fst lt'). apply level_app; [|exact A]. apply plain_level. intros x [<-|[]]. apply PN. right. left. reflexivity.
Qed.
Lemma option_token_level : forall T i s, option_token T i = Ok s -> plain_item T i -> level s.
Proof.
  intros T i s H (PN & PH & PF). unfold option_token in H.
  destruct (match value_hint T (i_reader i), short_name (i_names i) with [], Some s => Ok s | [], None => Ok (lit "None") | h, Some s => Ok (s ++ (if starts_with (lit "-") s then lit " " else lit "=") ++ h) | _, None => Err AttributeError end) as [b|] eqn:E; [|discriminate]. cbn [bind] in H.
  assert (LB : level b).
  { destruct (short_name (i_names i)) as [w|] eqn:SN.
    - assert (LW : level w) by (apply plain_level, PN; apply short_in in SN; apply SN). pose proof (plain_level _ PH) as LH. destruct (value_hint T (i_reader i)); ok_in E; [exact LW|]. apply level_app; [exact LW|]. apply level_app; [destruct (starts_with (lit "-") w); lv|exact LH].
    - destruct (value_hint T (i_reader i)); [ok_in E; lv|discriminate]. }
  destruct (match i_fields i with Some ts => do ts <- ts; Ok (b ++ lit " " ++ join (lit " ") ts) | None => Ok b end) as [f|] eqn:F; [|discriminate]. cbn [bind] in H. ok_in H.
  assert (LF : level f).
  { destruct (i_fields i) as [[ts|]|]; cbn [bind] in F; try discriminate; ok_in F; [|exact LB]. apply level_app; [exact LB|]. apply level_app; [lv|]. apply level_join; [apply plain_lit; reflexivity|exact PF]. }
  assert (LW : level (if negb (i_required i) then lit "[" ++ f ++ lit "]" else if i_multi i then lit "(" ++ f ++ lit ")" else f)).
  { destruct (i_required i); cbn [negb]; [|apply level_bracket; exact LF]. destruct (i_multi i); [|exact LF]. apply level_app; [lv|]. apply level_app; [exact LF|lv]. }
  destruct (i_multi i); [|exact LW]. apply level_app; [exact LW|lv].
Qed.
Lemma map_res_all : forall A B (f : A -> res B) l bs b, map_res f l = Ok bs -> In b bs -> exists a, In a l /\ f a = Ok b.
Proof.
  intros A B f l. induction l as [|x l IH]; intros bs b H I; cbn [map_res] in H; [injection H as <-; destruct I|]. destruct (f x) as [y|] eqn:E; [|discriminate]. destruct (map_res f l) as [r|]; [|discriminate]. cbn [bind] in H. injection H as <-. destruct I as [<-|I]; [exists x; split; [left; reflexivity|exact E]|]. destruct (IH r b eq_refl I) as (a & A1 & A2). exists a. split; [right; exact A1|exact A2].
Qed.
Lemma option_tokens_level : forall T l ts, option_tokens T l = Ok ts -> (forall i, In i l -> plain_item T i) -> level (concat ts).
Proof.
  intros T l ts H P. unfold option_tokens in H. destruct (flag_tokens (filter combinable l)) as [lt|] eqn:F; [|discriminate]. cbn [bind] in H. destruct (map_res (option_token T) (filter (fun i => negb (combinable i)) l)) as [os|] eqn:O; [|discriminate]. cbn [bind] in H. ok_in H.
  destruct (flag_tokens_level _ _ F) as [A B]; [intros i n I; apply filter_In in I; destruct (P i) as (X & _); [apply I|apply X]|]. rewrite !concat_app. apply level_app; [exact B|]. apply level_app.
  - destruct (fst lt) as [|c r] eqn:E; [intros n x; reflexivity|]. rewrite <- E in *. cbn [concat]. rewrite app_nil_r. change (lit "[-" ++ fst lt ++ lit "]") with (lit "[" ++ (lit "-" ++ fst lt) ++ lit "]"). apply level_bracket, level_app; [lv|exact A].
  - apply level_concat. intros s S. destruct (map_res_all _ _ _ _ _ _ O S) as (i & I & E). apply filter_In in I. apply (option_token_level T i s E). apply P. apply I.
Qed.
Definition plain_arg (T : texts) (a : argdef) : Prop :=
  (forall n, In n (a_names a) -> plain n) /\ plain (value_hint T (a_reader a)) /\
  (forall fs f, a_fields a = Some fs -> In f fs -> (forall n, In n (s_names f) -> plain n) /\ plain (value_hint T (s_reader f))).
Lemma field_tokens_level : forall T a ts, plain_arg T a -> field_tokens T a = Some (Ok ts) -> level (concat ts).
Proof.
  intros T a ts (_ & _ & P) H. unfold field_tokens in H. destruct (a_fields a) as [[|f fs]|] eqn:E; try discriminate. injection H as H. apply (option_tokens_level T _ _ H). intros i I. change (In i (map field_item (f :: fs))) in I. apply in_map_iff in I. destruct I as (g & <- & G). destruct (P _ g eq_refl G) as [X Y]. split; [exact X|]. split; [exact Y|exact Logic.I].
Qed.
Lemma option_item_plain : forall T a, plain_arg T a -> plain_item T (option_item T a).
Proof. intros T a P. pose proof P as (A & B & C). split; [exact A|]. split; [exact B|]. cbn [option_item i_fields]. destruct (field_tokens T a) as [[ts|]|] eqn:F; try exact Logic.I. apply (field_tokens_level T a ts); [exact P|exact F]. Qed.
Lemma concat_close : forall close l x, concat (close_last close (x :: l)) = concat (x :: l) ++ close.
Proof.
  intros close l x. unfold close_last. destruct (rev (x :: l)) as [|y r] eqn:E; [destruct (rev_involutive (x :: l)); rewrite E in *; symmetry; apply (f_equal (@length str)) in E; rewrite rev_length in E; discriminate|].
  rewrite <- (rev_involutive (x :: l)), E. cbn [rev]. rewrite !concat_app. cbn. rewrite !app_nil_r, app_assoc. reflexivity.
Qed.
Lemma digits_plain : forall f n, plain (digits f n).
Proof.
  intros f. induction f as [|f IH]; intros n c I; [destruct I|]. cbn [digits] in I. apply in_app_or in I. destruct I as [I|[<-|[]]]; [destruct (n <? 10); [destruct I|apply (IH _ _ I)]|].
  assert (H : n mod 10 < 10) by (apply Nat.mod_upper_bound; discriminate). remember (n mod 10) as k. clear -H. do 10 (destruct k as [|k]; [split; discriminate|]). lia.
Qed.
Lemma positional_level : forall T a ts, positional_tokens T a = Ok ts -> plain_arg T a -> level (concat ts).
Proof.
  intros T a ts H P. pose proof P as (PN & PH & PF). unfold positional_tokens in H.
  assert (NM : level (match a_reader a with RConst c => c | _ => hd [] (a_names a) end)).
  { assert (HD : plain (hd [] (a_names a))) by (destruct (a_names a) as [|n r]; [intros c []|apply PN; left; reflexivity]). apply plain_level. destruct (a_reader a); try exact HD. exact PH. }
  set (name := match a_reader a with RConst c => c | _ => hd [] (a_names a) end) in *.
  assert (TL : level (concat (match a_kind a with KPositional None => [lit "..."] | KPositional (Some n) => if n =? 1 then [] else [lit "x" ++ digits (Datatypes.S n) n] | KOption _ _ => [] end))).
  { destruct (a_kind a) as [|[n|]]; [intros n r; reflexivity| |intros n r; reflexivity]. destruct (n =? 1); [intros m r; reflexivity|]. cbn [concat]. rewrite app_nil_r. apply level_app; [lv|]. apply plain_level, digits_plain. }
  destruct (field_tokens T a) as [[fts|]|] eqn:F.
  - pose proof (field_tokens_level T a fts P F) as LF. destruct (a_default a); cbn [bind] in H; ok_in H; rewrite concat_app; apply level_app; try exact TL; rewrite concat_close; cbn [concat].
    + intros n r. rewrite <- !app_assoc. cbn. rewrite NM, LF. reflexivity.
    + rewrite <- !app_assoc. apply level_app; [lv|]. apply level_app; [exact NM|]. apply level_app; [exact LF|lv].
  - destruct (a_default a); discriminate.
  - destruct (a_default a); cbn [bind] in H; ok_in H; rewrite concat_app; apply level_app; try exact TL; cbn [concat]; rewrite app_nil_r; [apply level_bracket|]; exact NM.
Qed.
Lemma no_groups : forall l, (forall a, In a l -> mutex_of a = None) -> mutex_groups l [] = [].
Proof. intros l. induction l as [|a l IH]; intro H; [reflexivity|]. cbn. rewrite (H a (or_introl eq_refl)). apply IH. intros b B. apply H. right. exact B. Qed.
Lemma usage_balanced : forall T path t s, usage T path t = Ok s -> (forall a, In a (args_of t) -> mutex_of a = None) -> (forall a, In a (args_of t) -> plain_arg T a) -> (forall w, In w path -> plain w) -> balanced s.
Proof.
  intros T path t s U M P PP. unfold usage in U. destruct (usage_tokens T t) as [ts|] eqn:UT; [|discriminate]. cbn [bind] in U. ok_in U.
  assert (L : level (concat ts)).
  { unfold usage_tokens in UT. rewrite no_groups in UT by (intros a A; apply unique_args in A; apply M; apply A).
    destruct (option_tokens T (map (option_item T) (filter (fun a => negb (is_some (mutex_of a))) (unique_options t)))) as [pl|] eqn:PL; [|discriminate]. cbn [bind map_res] in UT.
    destruct (map_res (positional_tokens T) (positionals t)) as [ps|] eqn:PS; [|discriminate]. cbn [bind] in UT. ok_in UT. rewrite !concat_app. apply level_app.
    - apply (option_tokens_level T _ _ PL). intros i I. apply in_map_iff in I. destruct I as (a & <- & A). apply filter_In in A. destruct A as [A _]. apply unique_args in A. apply option_item_plain, P. apply A.
    - apply level_app; [apply level_concat; intros s []|]. apply level_app.
      + assert (G : forall pss, (forall p, In p pss -> level (concat p)) -> level (concat (concat pss))) by (intros pss; induction pss as [|p pss IH]; intro H; [intros n r; reflexivity|]; cbn; rewrite concat_app; apply level_app; [apply H; left; reflexivity|apply IH; intros q Q; apply H; right; exact Q]).
        apply G. intros p I. destruct (map_res_all _ _ _ _ _ _ PS I) as (a & A & E). apply (positional_level T a p E). apply P. apply filter_In in A. apply A.
      + destruct (children_of t); [intros n r; reflexivity|]. destruct (def_of t); intros n r; reflexivity. }
  assert (LV : level (lit "Usage: " ++ join (lit " ") path ++ lit " " ++ join (lit " ") ts)).
  { apply level_app; [lv|]. apply level_app; [apply level_join; [apply plain_lit; reflexivity|apply level_concat; intros w W; apply plain_level, PP; exact W]|]. apply level_app; [lv|]. apply level_join; [apply plain_lit; reflexivity|exact L]. }
  unfold balanced. specialize (LV 0 []). rewrite app_nil_r in LV. exact LV.
Qed.

(** ** commands whose options have names of their own *)
Lemma fold_fresh : forall V (l : list (str * V)) d, NoDup (map fst d ++ map fst l) -> fold_left (fun d e => dict_set (fst e) (snd e) d) l d = d ++ l.
Proof.
  intros V l. induction l as [|[n v] l IH]; intros d H; [symmetry; apply app_nil_r|]. cbn [fold_left fst snd map] in *.
  assert (F : dict_set n v d = d ++ [(n, v)]).
  { assert (X : ~ In n (map fst d)) by (intro X; apply NoDup_remove_2 in H; apply H; apply in_or_app; left; exact X). clear -X. induction d as [|[m w] d IH]; [reflexivity|]. cbn in *. destruct (str_eqb n m) eqn:E; [apply str_eqb_eq in E; subst; exfalso; apply X; left; reflexivity|]. rewrite IH; [reflexivity|tauto]. }
  rewrite F, IH; [rewrite <- app_assoc; reflexivity|]. rewrite map_app. cbn. rewrite <- app_assoc. exact H.
Qed.
Lemma uniq_run : forall A (f : A -> nat) (l : list A) i tracked r, (forall x, In x l -> f x = i) -> l <> [] -> ~ In i tracked -> uniq tracked (map f l ++ r) = i :: uniq (i :: tracked) r.
Proof.
  intros A f l i tracked r H NE NI. destruct l as [|x l]; [contradiction|]. cbn [map app uniq]. rewrite (H x (or_introl eq_refl)). replace (existsb (Nat.eqb i) tracked) with false.
  - f_equal. assert (G : forall k, (forall x, In x k -> f x = i) -> uniq (i :: tracked) (map f k ++ r) = uniq (i :: tracked) r).
    { intros k. induction k as [|y k IH]; intro K; [reflexivity|]. cbn [map app uniq existsb]. rewrite (K y (or_introl eq_refl)), Nat.eqb_refl. cbn. apply IH. intros z Z. apply K. right. exact Z. }
    apply G. intros z Z. apply H. right. exact Z.
  - symmetry. apply not_true_iff_false. intro X. apply existsb_exists in X. destruct X as (j & J & E). apply Nat.eqb_eq in E. subst. contradiction.
Qed.
Lemma uniq_seq : forall r k tracked, (forall i, In i tracked -> i < k) -> (forall o, In o r -> is_option o = true /\ a_names o <> []) ->
  uniq tracked (map snd (flat_map (fun io => if is_option (snd io) then map (fun n => (n, fst io)) (a_names (snd io)) else []) (combine (seq k (length r)) r))) = seq k (length r).
Proof.
  intros r. induction r as [|o r IH]; intros k tracked T H; [reflexivity|]. cbn [length seq combine flat_map fst snd]. destruct (H o (or_introl eq_refl)) as [O N]. rewrite O, map_app, map_map. cbn [snd]. rewrite (uniq_run str (fun _ => k) (a_names o) k); [|reflexivity|exact N|intro X; specialize (T _ X); lia].
  f_equal. apply IH; [intros i [<-|I]; [lia|specialize (T _ I); lia]|intros p P; apply H; right; exact P].
Qed.
Lemma nth_seq : forall (pre l : list argdef), flat_map (fun i => match nth_error (pre ++ l) i with Some a => [a] | None => [] end) (seq (length pre) (length l)) = l.
Proof.
  intros pre l. revert pre. induction l as [|a l IH]; intro pre; [reflexivity|]. cbn [length seq flat_map]. rewrite nth_error_app2 by lia. rewrite Nat.sub_diag. cbn [nth_error app]. f_equal. specialize (IH (pre ++ [a])). rewrite app_length, Nat.add_1_r, <- app_assoc in IH. exact IH.
Qed.
Lemma unique_all : forall opts kids, (forall o, In o opts -> is_option o = true /\ a_names o <> []) -> NoDup (flat_map a_names opts) -> unique_options (Node (Some opts) kids) = opts.
Proof.
  intros opts kids H ND. unfold unique_options, option_ids. change (args_of (Node (Some opts) kids)) with opts. rewrite fold_fresh.
  - cbn [app]. rewrite uniq_seq; [apply (nth_seq [] opts)|intros i []|exact H].
  - cbn [map app]. assert (G : forall r k, (forall o, In o r -> is_option o = true) -> map fst (flat_map (fun io => if is_option (snd io) then map (fun n => (n, fst io)) (a_names (snd io)) else []) (combine (seq k (length r)) r)) = flat_map a_names r).
    { intros r. induction r as [|o r IH]; intros k K; [reflexivity|]. cbn [length seq combine flat_map fst snd]. rewrite (K o (or_introl eq_refl)), map_app, map_map. cbn [fst]. rewrite map_id. f_equal. apply IH. intros p P. apply K. right. exact P. }
    rewrite G; [exact ND|]. intros o O. apply H. exact O.
Qed.
(** what an option of a group shows *)
Definition alternative (T : texts) (g : str) (o : argdef) (n : str) : Prop :=
  a_kind o = KOption false (Some g) /\ is_flag (a_reader o) = false /\ a_default o <> None /\ a_fields o = None /\
  short_name (a_names o) = Some n /\ starts_with (lit "-") n = true /\ plain n /\ value_hint T (a_reader o) <> [] /\ plain (value_hint T (a_reader o)).
Lemma drop_plain : forall s r, match s with [] => False | c :: _ => is_bracket c = false end -> snd (span is_bracket (lit "[" ++ s ++ r)) = s ++ r.
Proof. intros s r H. destruct s as [|c s]; [contradiction|]. cbn. rewrite H. reflexivity. Qed.
Lemma strip_wrapped : forall s, s <> [] -> plain s -> strip_brackets (lit "[" ++ s ++ lit "]") = s.
Proof.
  intros s NE P. unfold strip_brackets. rewrite drop_plain by (destruct s as [|c s]; [contradiction|apply (plain_bracket _ _ P); left; reflexivity]). rewrite rev_app_distr. change (rev (lit "]")) with (lit "]").
  destruct (rev s) as [|c r] eqn:E; [exfalso; apply NE; rewrite <- (rev_involutive s), E; reflexivity|]. cbn. rewrite (plain_bracket s c P) by (apply in_rev; rewrite E; left; reflexivity). cbn [snd]. rewrite <- E. apply rev_involutive.
Qed.
Lemma group_all : forall g l d x, (forall o, In o l -> mutex_of o = Some g) -> dict_get g d = Some x -> mutex_groups l d = dict_set g (x ++ l) d.
Proof.
  intros g l. induction l as [|o l IH]; intros d x H G; cbn [mutex_groups].
  - rewrite app_nil_r. clear H. induction d as [|[k w] d IH]; [discriminate|]. cbn in *. destruct (str_eqb g k) eqn:E; [injection G as ->; reflexivity|]. rewrite <- IH; auto.
  - rewrite (H o (or_introl eq_refl)), G. rewrite (IH _ (x ++ [o])); [|intros p P; apply H; right; exact P|rewrite dict_get_set, str_eqb_refl; reflexivity]. rewrite <- app_assoc. cbn [app].
    clear. induction d as [|[k w] d IH]; cbn; [rewrite str_eqb_refl; reflexivity|]. destruct (str_eqb g k) eqn:E; cbn; rewrite E; [reflexivity|]. rewrite IH. reflexivity.
Qed.
Lemma alternatives : forall T path g opts ns, g <> [] -> opts <> [] -> NoDup (flat_map a_names opts) -> Forall2 (alternative T g) opts ns ->
  usage T path (Node (Some opts) []) = Ok (lit "Usage: " ++ join (lit " ") path ++ lit " [" ++ join (lit " | ") (map (fun on => snd on ++ lit " " ++ value_hint T (a_reader (fst on))) (combine opts ns)) ++ lit "]").
Proof.
  intros T path g opts ns GN NE ND F.
  assert (K : forall o, In o opts -> exists n, alternative T g o n) by (clear -F; induction F as [|o n opts ns A F IH]; intros p []; [subst; eauto|auto]).
  assert (IO : forall o, In o opts -> is_option o = true /\ a_names o <> []) by (intros o O; destruct (K o O) as (n & A & _ & _ & _ & B & _); unfold is_option; rewrite A; split; [reflexivity|]; intro X; rewrite X in B; discriminate).
  assert (MU : forall o, In o opts -> mutex_of o = Some g) by (intros o O; destruct (K o O) as (n & A & _); unfold mutex_of; rewrite A; destruct g; [contradiction|reflexivity]).
  unfold usage, usage_tokens. rewrite (unique_all opts [] IO ND).
  assert (E1 : filter (fun a => negb (is_some (mutex_of a))) opts = []) by (clear -MU; induction opts as [|o r IH]; [reflexivity|]; cbn; rewrite (MU o (or_introl eq_refl)); apply IH; intros p P; apply MU; right; exact P).
  rewrite E1.
  assert (E2 : mutex_groups opts [] = [(g, opts)]) by (destruct opts as [|o r]; [contradiction|]; cbn [mutex_groups]; rewrite (MU o (or_introl eq_refl)); cbn [dict_get dict_set app]; rewrite (group_all g r _ [o]); [cbn; rewrite str_eqb_refl; reflexivity|intros p P; apply MU; right; exact P|cbn; rewrite str_eqb_refl; reflexivity]).
  rewrite E2.
  assert (E3 : positionals (Node (Some opts) []) = []) by (unfold positionals; change (args_of (Node (Some opts) [])) with opts; clear -IO; induction opts as [|o r IH]; [reflexivity|]; cbn; unfold is_positional; destruct (IO o (or_introl eq_refl)) as [-> _]; apply IH; intros p P; apply IO; right; exact P).
  rewrite E3.
  assert (E4 : option_tokens T (map (option_item T) opts) = Ok (map (fun on => lit "[" ++ (snd on ++ lit " " ++ value_hint T (a_reader (fst on))) ++ lit "]") (combine opts ns))).
  { unfold option_tokens.
    assert (C1 : filter combinable (map (option_item T) opts) = []) by (clear -K; induction opts as [|o r IH]; [reflexivity|]; destruct (K o (or_introl eq_refl)) as (n & _ & A & _); cbn [map filter]; unfold combinable at 1; cbn [option_item i_reader]; rewrite A; apply IH; intros p P; apply K; right; exact P).
    assert (C2 : filter (fun i => negb (combinable i)) (map (option_item T) opts) = map (option_item T) opts) by (clear -K; induction opts as [|o r IH]; [reflexivity|]; destruct (K o (or_introl eq_refl)) as (n & _ & A & _); cbn [map filter]; unfold combinable at 1; cbn [option_item i_reader]; rewrite A; cbn [andb negb]; f_equal; apply IH; intros p P; apply K; right; exact P).
    rewrite C1, C2. cbn [flag_tokens bind fst snd app].
    assert (C3 : map_res (option_token T) (map (option_item T) opts) = Ok (map (fun on => lit "[" ++ (snd on ++ lit " " ++ value_hint T (a_reader (fst on))) ++ lit "]") (combine opts ns))).
    { clear -F. induction F as [|o n opts ns A F IH]; [reflexivity|]. cbn [map map_res combine fst snd]. destruct A as (A1 & A2 & A3 & A4 & A5 & A6 & A7 & A8 & A9). rewrite IH.
      replace (option_token T (option_item T o)) with (@Ok str (lit "[" ++ (n ++ lit " " ++ value_hint T (a_reader o)) ++ lit "]")); [reflexivity|].
      unfold option_token. cbn [option_item i_reader i_names i_fields i_required i_multi]. rewrite A5. unfold field_tokens. rewrite A4, A1, A6. destruct (value_hint T (a_reader o)) as [|h hs]; [contradiction|]. destruct (a_default o); [reflexivity|contradiction]. }
    rewrite C3. reflexivity. }
  assert (E5 : map strip_brackets (map (fun on => lit "[" ++ (snd on ++ lit " " ++ value_hint T (a_reader (fst on))) ++ lit "]") (combine opts ns)) = map (fun on => snd on ++ lit " " ++ value_hint T (a_reader (fst on))) (combine opts ns)).
  { rewrite map_map. apply map_ext_in. intros [o n] I. cbn [fst snd]. assert (A : alternative T g o n) by (clear -F I; induction F as [|p m opts ns A F IH]; [destruct I|]; destruct I as [E|I]; [injection E as <- <-; exact A|auto]). destruct A as (A1 & A2 & A3 & A4 & A5 & A6 & A7 & A8 & A9).
    apply strip_wrapped; [destruct n; discriminate|]. intros c C. apply in_app_or in C. destruct C as [C|C]; [apply A7; exact C|]. apply in_app_or in C. destruct C as [[<-|[]]|C]; [split; discriminate|apply A9; exact C]. }
  change (option_tokens T (map (option_item T) [])) with (@Ok (list str) []). cbn [bind map_res snd]. unfold group_token. rewrite E4. cbn [bind]. rewrite E5. reflexivity.
Qed.
