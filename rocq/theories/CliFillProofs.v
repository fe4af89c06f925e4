(** Proofs about the command line parser: what finished commands hold. *)
From Coq Require Import String Ascii List Bool NArith Arith Lia.
From Verif Require Import Base BaseFacts ParserModel ParserFacts ProjectModel CliModel CliSpec CliProofs CliArgsProofs.
Import ListNotations.
Open Scope string_scope.
Open Scope nat_scope.
Open Scope list_scope.
Open Scope bool_scope.

Definition has (f : str) (d : list (str * val)) : Prop := dict_get f d <> None.
Lemma has_set : forall f k v d, has f d -> has f (dict_set k v d).
Proof.
  intros f k v d H. unfold has in *. destruct (str_eqb f k) eqn:E.
  - apply str_eqb_eq in E. subst. rewrite dict_get_set_same. discriminate.
  - rewrite dict_get_set_other; [exact H|]. intro X. subst. rewrite str_eqb_refl in E. discriminate.
Qed.
Lemma has_set_same : forall k v d, has k (dict_set k v d).
Proof. intros k v d. unfold has. rewrite dict_get_set_same. discriminate. Qed.
Lemma has_of_set : forall f k v d, has f (dict_set k v d) -> f = k \/ has f d.
Proof.
  intros f k v d H. destruct (str_eqb f k) eqn:E.
  - apply str_eqb_eq in E. left. exact E.
  - right. unfold has in *. rewrite dict_get_set_other in H; [exact H|]. intro X. subst. rewrite str_eqb_refl in E. discriminate.
Qed.
Lemma fill_options_total : forall l m args args', fill_options l m args = Ok args' ->
  (forall f, has f args -> has f args') /\ (forall a, In a l -> is_option a = true -> has (a_field a) args') /\
  (forall f, has f args' -> has f args \/ exists a, In a l /\ a_field a = f).
Proof.
  induction l as [|a l IH]; intros m args args' H; cbn [fill_options] in H.
  - injection H as <-. split; [auto|]. split; [intros a []|auto].
  - assert (KEEP : forall m' args0, fill_options l m' args0 = Ok args' -> (forall f, has f args -> has f args0) -> (is_option a = true -> has (a_field a) args0) ->
      (forall f, has f args0 -> has f args \/ f = a_field a) ->
      (forall f, has f args -> has f args') /\ (forall b, In b (a :: l) -> is_option b = true -> has (a_field b) args') /\
      (forall f, has f args' -> has f args \/ exists b, In b (a :: l) /\ a_field b = f)).
    { intros m' args0 F M A B. apply IH in F. destruct F as (F1 & F2 & F3). split; [auto|]. split.
      - intros b [<-|I] O; [apply F1; apply A; exact O|apply F2; assumption].
      - intros f X. apply F3 in X. destruct X as [X|(b & I & X)]; [|right; exists b; split; [right; exact I|exact X]].
        apply B in X. destruct X as [X| ->]; [left; exact X|right; exists a; split; [left; reflexivity|reflexivity]]. }
    destruct (a_kind a) as [rep mu|n] eqn:K.
    + destruct (dict_has (a_field a) args) eqn:G.
      * assert (GA : has (a_field a) args) by (unfold has; unfold dict_has in G; destruct (dict_get (a_field a) args); [discriminate|discriminate G]).
        destruct mu as [[|c g]|].
        -- apply (KEEP _ _ H); auto.
        -- destruct (str_mem (c :: g) m); [discriminate|]. apply (KEEP _ _ H); auto.
        -- apply (KEEP _ _ H); auto.
      * destruct (a_default a) as [v|]; [|discriminate]. apply (KEEP _ _ H).
        -- intros f X. apply has_set. exact X.
        -- intros _. apply has_set_same.
        -- intros f X. apply has_of_set in X. tauto.
    + apply (KEEP _ _ H); [auto| |auto]. intro X. unfold is_option in X. rewrite K in X. discriminate.
Qed.
Lemma fill_positionals_total : forall l args args', fill_positionals l args = Ok args' ->
  (forall f, has f args -> has f args') /\ (forall a, In a l -> has (a_field a) args') /\
  (forall f, has f args' -> has f args \/ exists a, In a l /\ a_field a = f).
Proof.
  induction l as [|a l IH]; intros args args' H; cbn [fill_positionals] in H.
  - injection H as <-. split; [auto|]. split; [intros a []|auto].
  - destruct (a_default a) as [v|]; [|discriminate]. apply IH in H. destruct H as (H1 & H2 & H3). split; [|split].
    + intros f X. apply H1. apply has_set. exact X.
    + intros b [<-|I]; [apply H1; apply has_set_same|apply H2; exact I].
    + intros f X. apply H3 in X. destruct X as [X|(b & I & X)]; [|right; exists b; split; [right; exact I|exact X]].
      apply has_of_set in X. destruct X as [->|X]; [right; exists a; split; [left; reflexivity|reflexivity]|left; exact X].
Qed.

(** a finished command has every declared argument, and nothing else *)
Definition whole (root : ast) (e : list str * list (str * val)) : Prop :=
  exists t, node_at root (fst e) = Some t /\
    forall f, (exists v, dict_get f (snd e) = Some v) <-> exists a, In a (help_flag :: args_of t) /\ a_field a = f.
Definition declared (t : ast) (f : str) : Prop := exists a, In a (help_flag :: args_of t) /\ a_field a = f.
Record fine (root : ast) (s : state) : Prop := Fine {
  f_node : node_at root (t_path s) = Some (t_node s);
  f_read : forall i a, i < t_index s -> nth_error (positionals (t_node s)) i = Some a -> has (a_field a) (t_args s);
  f_keys : forall f, has f (t_args s) -> declared (t_node s) f;
  f_parents : Forall (whole root) (t_parents s) }.
Lemma finalize_whole : forall root s args, fine root s -> finalize s = Ok args -> whole root (t_path s, args).
Proof.
  intros root s args [F1 F2 F3 _] H. unfold finalize in H.
  destruct (fill_options (help_flag :: args_of (t_node s)) [] (t_args s)) as [a1|] eqn:O; [|discriminate]. cbn [bind] in H.
  apply fill_options_total in O. destruct O as (O1 & O2 & O3). apply fill_positionals_total in H. destruct H as (P1 & P2 & P3).
  exists (t_node s). split; [exact F1|]. cbn [snd]. intro f.
  assert (HV : (exists v, dict_get f args = Some v) <-> has f args). { unfold has. destruct (dict_get f args) as [v|]; split; [discriminate|exists v; reflexivity|intros (v & X); discriminate|contradiction]. }
  rewrite HV. split.
  - intro X. apply P3 in X. destruct X as [X|(a & I & X)].
    + apply O3 in X. destruct X as [X|X]; [apply F3; exact X|exact X].
    + exists a. split; [|exact X]. right. assert (J : In a (positionals (t_node s))).
      { rewrite <- (firstn_skipn (t_index s)). apply in_or_app. right. exact I. }
      unfold positionals in J. apply filter_In in J. apply J.
  - intros (a & I & <-). destruct (is_option a) eqn:A; [apply P1; apply O2; assumption|].
    destruct I as [<-|I]; [discriminate A|].
    assert (J : In a (positionals (t_node s))). { unfold positionals. apply filter_In. split; [exact I|]. unfold is_positional. rewrite A. reflexivity. }
    apply In_nth_error in J. destruct J as (i & J). destruct (Nat.lt_ge_cases i (t_index s)) as [L|L].
    + apply P1. apply O1. exact (F2 _ _ L J).
    + apply P2. apply nth_error_split in J. destruct J as (l1 & l2 & E & L1). rewrite E. rewrite skipn_app.
      apply in_or_app. right. replace (t_index s - length l1) with 0 by lia. left. reflexivity.
Qed.
Lemma start_fine : forall root, fine root (start root).
Proof.
  intro root. constructor; cbn; [reflexivity| | |constructor].
  - intros i a L. inversion L.
  - intros f X. exfalso. apply X. reflexivity.
Qed.
Lemma fine_set : forall root s f v, fine root s -> declared (t_node s) f -> fine root (set_args s (dict_set f v (t_args s))).
Proof.
  intros root s f v [F1 F2 F3 F4] D. constructor; cbn; [exact F1| | |exact F4].
  - intros i a L G. apply has_set. exact (F2 _ _ L G).
  - intros g X. apply has_of_set in X. destruct X as [->|X]; [exact D|apply F3; exact X].
Qed.
Lemma get_option_declared : forall t key o, get_option t key = Some o -> declared t (a_field o).
Proof.
  intros t key o H. apply get_option_spec in H. destruct H as [(a & b & E & _)|(-> & _)].
  - exists o. split; [|reflexivity]. right. assert (J : In o (filter is_option (args_of t))) by (rewrite E; apply in_or_app; right; left; reflexivity).
    apply filter_In in J. apply J.
  - exists help_flag. split; [left; reflexivity|reflexivity].
Qed.
Lemma option_value_fine : forall root o s b s' b', fine root s -> declared (t_node s) (a_field o) -> read_option_value o s b = Ok (s', b') ->
  fine root s' /\ t_node s' = t_node s.
Proof.
  intros root o s b s' b' F D H. unfold read_option_value in H. destruct (read (a_reader o) b) as [[v b1]|]; [|discriminate]. cbn [bind fst snd] in H.
  destruct (read_subfields (a_fields o) v b1) as [[v' b2]|]; [|discriminate]. cbn [bind fst snd] in H.
  destruct (store o v' (t_args s)) as [args|] eqn:S; [|discriminate]. injection H as <- _. split; [|reflexivity].
  assert (E : exists x, args = dict_set (a_field o) x (t_args s)).
  { unfold store in S. destruct (a_kind o) as [[|] m|n]; try (injection S as <-; eexists; reflexivity).
    destruct (dict_get (a_field o) (t_args s)) as [[| | | |l|]|]; try discriminate; injection S as <-; eexists; reflexivity. }
  destruct E as (x & ->). apply fine_set; assumption.
Qed.
Lemma letters_fine : forall root l need s b need' s' b', fine root s -> letters_loop l need s b = Ok (need', (s', b')) ->
  (forall o, need = Some o -> declared (t_node s) (a_field o)) -> fine root s' /\ t_node s' = t_node s /\ forall o, need' = Some o -> declared (t_node s) (a_field o).
Proof.
  intro root. induction l as [|c l IH]; intros need s b need' s' b' F H D; cbn [letters_loop] in H.
  - injection H as <- <- <-. auto.
  - destruct need; [discriminate|]. destruct (get_option (t_node s) ["-"%char; c]) as [o|] eqn:G; [|discriminate]. apply get_option_declared in G.
    destruct (is_flag (a_reader o)).
    + destruct (read_subfields (a_fields o) (VB true) b) as [[v b1]|]; [|discriminate]. cbn [bind fst snd] in H.
      apply IH in H; [exact H| |discriminate]. apply fine_set; assumption.
    + apply IH in H; [exact H|exact F|]. intros o' X. injection X as <-. exact G.
Qed.
Lemma round_fine : forall root w s b s' b', fine root s -> round w s b = Ok (s', b') -> fine root s'.
Proof.
  intros root w s b s' b' F H. unfold round in H. destruct (starts_with (lit "-") w).
  { unfold read_option_or_flag in H. destruct (next_option_key b) as [[key b1]|]; [|discriminate]. cbn [bind] in H.
    destruct (starts_with (lit "--") key).
    - destruct (get_option (t_node s) key) as [o|] eqn:G; [|discriminate]. apply get_option_declared in G. exact (proj1 (option_value_fine _ _ _ _ _ _ F G H)).
    - destruct (starts_with (lit "-") key); [|injection H as <- _; exact F].
      destruct (letters_loop (tl key) None s b1) as [[need [s1 b2]]|] eqn:L; [|discriminate]. cbn [bind fst snd] in H.
      apply (letters_fine root) in L; [|exact F|discriminate]. destruct L as (L1 & L2 & L3). destruct need as [o|]; [|injection H as <- _; exact L1].
      refine (proj1 (option_value_fine _ _ _ _ _ _ L1 _ H)). rewrite L2. apply L3. reflexivity. }
  destruct (starts_with (lit "+") w); [discriminate|].
  destruct (dict_get w (children_of (t_node s))) as [child|] eqn:C.
  - destruct (finalize s) as [args|] eqn:FN; [|discriminate]. injection H as <- _. constructor; cbn.
    + exact (node_at_snoc _ _ _ _ _ (f_node _ _ F) C).
    + intros i a L. inversion L.
    + intros f X. exfalso. apply X. reflexivity.
    + constructor; [exact (finalize_whole _ _ _ F FN)|exact (f_parents _ _ F)].
  - destruct (nth_error (positionals (t_node s)) (t_index s)) as [a|] eqn:G; [|discriminate]. destruct (a_kind a) as [|n]; [discriminate|].
    unfold read_positional in H. match type of H with context[values_loop ?n ?a ?w ?b] => destruct (values_loop n a w b) as [[vs b1]|] end; [|discriminate].
    cbn [bind fst snd] in H. match type of H with (do v <- ?x; _) = _ => destruct x as [v|] end; [|discriminate]. injection H as <- _.
    destruct F as [F1 F2 F3 F4]. constructor; cbn; [exact F1| | |exact F4].
    + intros i b0 L X. destruct (Nat.eq_dec i (t_index s)) as [->|N].
      * rewrite G in X. injection X as <-. apply has_set_same.
      * apply has_set. apply (F2 i); [lia|exact X].
    + intros f X. apply has_of_set in X. destruct X as [->|X]; [|apply F3; exact X]. exists a. split; [|reflexivity]. right.
      apply nth_error_In in G. unfold positionals in G. apply filter_In in G. apply G.
Qed.
Lemma parse_whole : forall root fuel s b r, fine root s -> parse_loop fuel s b = Some (Ok r) -> Forall (whole root) r.
Proof.
  intro root. assert (END : forall s r, fine root s -> match def_of (t_node s) with None => Err IOErr | Some _ => do args <- finalize s; Ok ((t_path s, args) :: t_parents s) end = Ok r -> Forall (whole root) r).
  { intros s r F H. destruct (def_of (t_node s)); [|discriminate]. destruct (finalize s) as [args|] eqn:FN; [|discriminate]. injection H as <-.
    constructor; [exact (finalize_whole _ _ _ F FN)|exact (f_parents _ _ F)]. }
  induction fuel as [|fuel IH]; intros s b r F H; (destruct b as [|[|c w] b]; cbn [parse_loop] in H; [injection H as H; exact (END _ _ F H)|injection H as H; exact (END _ _ F H)|]).
  - discriminate.
  - match type of H with context[round ?x ?y ?z] => destruct (round x y z) as [[s' b']|] eqn:R end; [|discriminate].
    exact (IH _ _ _ (round_fine _ _ _ _ _ _ F R) H).
Qed.
(** ** Finishing a command *)
Lemma filter_nodup_fields : forall p l, NoDup (map a_field l) -> NoDup (map a_field (filter p l)).
Proof.
  intros p l. induction l as [|a l IH]; intro N; [constructor|]. inversion N as [|? ? N1 N2]. subst. cbn [filter]. destruct (p a); [|exact (IH N2)].
  cbn [map]. constructor; [|exact (IH N2)]. intro X. apply N1. apply in_map_iff in X. destruct X as (b & E & I). apply filter_In in I. rewrite <- E. apply in_map. apply I.
Qed.
Lemma skipn_nodup : forall A (n : nat) (l : list A), NoDup l -> NoDup (skipn n l).
Proof. intros A n. induction n as [|n IH]; intros l N; [exact N|]. destruct l as [|x l]; [exact N|]. inversion N. subst. cbn [skipn]. apply IH. assumption. Qed.
(** options that are given, and positionals that were read *)
Definition unset (s : state) (a : argdef) : Prop :=
  (is_option a = true /\ ~ given a (t_args s)) \/ In a (skipn (t_index s) (positionals (t_node s))).
Lemma finalize_exact : forall s, NoDup (map a_field (help_flag :: args_of (t_node s))) ->
  (forall a, In a (skipn (t_index s) (positionals (t_node s))) -> ~ given a (t_args s)) ->
  (forall args, finalize s = Ok args -> forall a, In a (help_flag :: args_of (t_node s)) ->
     dict_get (a_field a) args = match dict_get (a_field a) (t_args s) with Some v => Some v | None => if is_option a then a_default a else dict_get (a_field a) args end) /\
  ((exists args, finalize s = Ok args) <->
     (forall a, In a (help_flag :: args_of (t_node s)) -> unset s a -> a_default a <> None) /\
     NoDup (groups (args_of (t_node s)) (t_args s))).
Proof.
  intros s N U. pose proof (fill_options_exact (help_flag :: args_of (t_node s)) [] (t_args s) N) as [O1 O2].
  assert (NP : NoDup (map a_field (skipn (t_index s) (positionals (t_node s))))).
  { rewrite <- skipn_map. apply skipn_nodup. apply filter_nodup_fields. inversion N. assumption. }
  assert (PD : forall a b, In a (skipn (t_index s) (positionals (t_node s))) -> In b (help_flag :: args_of (t_node s)) -> is_option b = true -> a_field b <> a_field a).
  { intros a b I J OB E. assert (K : In a (positionals (t_node s))) by (rewrite <- (firstn_skipn (t_index s)); apply in_or_app; right; exact I).
    unfold positionals in K. apply filter_In in K. destruct K as [K P]. unfold is_positional in P.
    assert (a = b). { clear - N J K E. assert (In a (help_flag :: args_of (t_node s))) by (right; exact K). revert H J. generalize dependent (help_flag :: args_of (t_node s)).
      intro l. induction l as [|x l IH]; intros N Ia Ib; [destruct Ia|]. inversion N as [|? ? N1 N2]. subst. destruct Ia as [->|Ia], Ib as [->|Ib]; [reflexivity| | |exact (IH N2 Ia Ib)].
      - exfalso. apply N1. rewrite <- E. apply in_map. exact Ib.
      - exfalso. apply N1. rewrite E. apply in_map. exact Ia. }
    subst b. rewrite OB in P. discriminate. }
  change (groups (help_flag :: args_of (t_node s)) (t_args s)) with (groups (args_of (t_node s)) (t_args s)) in *.
  assert (FINE : forall args1, fill_positionals (skipn (t_index s) (positionals (t_node s))) args1 = fill_positionals (skipn (t_index s) (positionals (t_node s))) args1) by reflexivity.
  split.
  - intros args H a I. unfold finalize in H. destruct (fill_options (help_flag :: args_of (t_node s)) [] (t_args s)) as [a1|] eqn:E; [|discriminate].
    cbn [bind] in H. destruct (O1 _ eq_refl) as (A1 & A2 & A3 & A4 & A5). pose proof (fill_positionals_exact _ a1 NP) as [P1 _]. destruct (P1 _ H) as [B1 B2].
    destruct (is_option a) eqn:OA.
    + rewrite B2; [apply A1; assumption|]. intro X. apply in_map_iff in X. destruct X as (p & EP & IP). apply (PD p a IP I OA). auto.
    + destruct (dict_get (a_field a) (t_args s)) as [v|] eqn:G; [|reflexivity].
      rewrite B2.
      * rewrite A2; [exact G|]. intros b J OB X. assert (a = b). { clear - N I J X. revert N I J. generalize (help_flag :: args_of (t_node s)). intro l. induction l as [|x l IH]; intros N Ia Ib; [destruct Ia|]. inversion N as [|? ? N1 N2]. subst. destruct Ia as [->|Ia], Ib as [->|Ib]; [reflexivity| | |exact (IH N2 Ia Ib)].
          - exfalso. apply N1. rewrite <- X. apply in_map. exact Ib.
          - exfalso. apply N1. rewrite X. apply in_map. exact Ia. }
        subst b. congruence.
      * intro X. apply in_map_iff in X. destruct X as (p & EP & IP). apply (U p IP). unfold given. rewrite EP, G. discriminate.
  - split.
    + intros (args & H). unfold finalize in H. destruct (fill_options (help_flag :: args_of (t_node s)) [] (t_args s)) as [a1|] eqn:E; [|discriminate].
      cbn [bind] in H. destruct (O1 _ eq_refl) as (A1 & A2 & A3 & A4 & A5). pose proof (fill_positionals_exact _ a1 NP) as [P1 _]. destruct (P1 _ H) as [B1 B2].
      split; [|exact A4]. intros a I [[OA NG]|IP]; [|apply B1; exact IP]. destruct (A3 a I OA); [contradiction|assumption].
    + intros [D G]. destruct O2 as (a1 & E).
      * intros a I OA. destruct (dict_get (a_field a) (t_args s)) as [v|] eqn:X; [left; unfold given; congruence|]. right. apply D; [exact I|]. left. split; [exact OA|]. unfold given. congruence.
      * exact G.
      * intros g _ [].
      * unfold finalize. rewrite E. cbn [bind]. pose proof (fill_positionals_exact _ a1 NP) as [_ P2]. apply P2. intros a I. apply D; [|right; exact I].
        right. assert (K : In a (positionals (t_node s))) by (rewrite <- (firstn_skipn (t_index s)); apply in_or_app; right; exact I).
        unfold positionals in K. apply filter_In in K. apply K.
Qed.
(** the same, when exactly the positionals before the index have been read *)
Lemma finalize_defaults : forall s, NoDup (map a_field (help_flag :: args_of (t_node s))) ->
  (forall i a, nth_error (positionals (t_node s)) i = Some a -> (given a (t_args s) <-> i < t_index s)) ->
  (forall args, finalize s = Ok args -> forall a, In a (help_flag :: args_of (t_node s)) ->
     dict_get (a_field a) args = match dict_get (a_field a) (t_args s) with Some v => Some v | None => a_default a end) /\
  ((exists args, finalize s = Ok args) <->
     (forall a, In a (help_flag :: args_of (t_node s)) -> ~ given a (t_args s) -> a_default a <> None) /\
     NoDup (groups (args_of (t_node s)) (t_args s))).
Proof.
  intros s N R.
  assert (U : forall a, In a (skipn (t_index s) (positionals (t_node s))) -> ~ given a (t_args s)).
  { intros a I G. apply In_nth_error in I. destruct I as (i & I). assert (X : nth_error (positionals (t_node s)) (t_index s + i) = Some a).
    { rewrite <- I. clear. generalize (positionals (t_node s)), (t_index s). intros l n. revert l. induction n as [|n IH]; intro l; [reflexivity|].
      destruct l as [|x l]; [destruct i; reflexivity|]. exact (IH l). }
    apply R in X. apply X in G. lia. }
  assert (V : forall a, In a (help_flag :: args_of (t_node s)) -> is_option a = false -> ~ given a (t_args s) -> In a (skipn (t_index s) (positionals (t_node s)))).
  { intros a I O G. destruct I as [<-|I]; [discriminate O|]. assert (J : In a (positionals (t_node s))) by (unfold positionals; apply filter_In; split; [exact I|unfold is_positional; rewrite O; reflexivity]).
    apply In_nth_error in J. destruct J as (i & J). destruct (Nat.lt_ge_cases i (t_index s)) as [L|L]; [exfalso; apply G; exact (proj2 (R _ _ J) L)|].
    apply nth_error_split in J. destruct J as (l1 & l2 & E & L1). rewrite E. rewrite skipn_app. apply in_or_app. right. replace (t_index s - length l1) with 0 by lia. left. reflexivity. }
  destruct (finalize_exact s N U) as [A B]. split.
  - intros args H a I. pose proof (A args H a I) as X. destruct (dict_get (a_field a) (t_args s)) as [v|] eqn:G; [exact X|].
    destruct (is_option a) eqn:O; [exact X|].
    assert (J : In a (skipn (t_index s) (positionals (t_node s)))) by (apply V; [exact I|exact O|unfold given; congruence]).
    unfold finalize in H. destruct (fill_options (help_flag :: args_of (t_node s)) [] (t_args s)) as [a1|]; [|discriminate]. cbn [bind] in H.
    assert (NP : NoDup (map a_field (skipn (t_index s) (positionals (t_node s))))).
    { rewrite <- skipn_map. apply skipn_nodup. apply filter_nodup_fields. inversion N. assumption. }
    apply (fill_positionals_exact _ a1 NP) in H. apply H. exact J.
  - rewrite B. split; intros [D G]; (split; [|exact G]); intros a I.
    + intro NG. apply (D a I). unfold unset. destruct (is_option a) eqn:O; [left; auto|right; apply V; assumption].
    + intros [[O NG]|J]; apply (D a I); [exact NG|apply U; exact J].
Qed.
