(** Proofs about the command line parser: it ends, commands are found, and every declared argument gets a value. *)
From Coq Require Import String Ascii List Bool NArith Arith Lia.
From Verif Require Import Base BaseFacts ParserModel ParserFacts ProjectModel CliModel CliSpec CliProofs.
Import ListNotations.
Open Scope string_scope.
Open Scope nat_scope.
Open Scope list_scope.
Open Scope bool_scope.

(** ** It ends *)
Lemma option_value_size : forall o s b s' b', read_option_value o s b = Ok (s', b') -> buffer_size b' <= buffer_size b.
Proof.
  intros o s b s' b' H. unfold read_option_value in H. destruct (read (a_reader o) b) as [[v b1]|] eqn:R; [|discriminate]. cbn [bind fst snd] in H.
  destruct (read_subfields (a_fields o) v b1) as [[v' b2]|] eqn:X; [|discriminate]. cbn [bind fst snd] in H.
  destruct (store o v' (t_args s)); [|discriminate]. injection H as _ <-. apply read_size in R. apply subfields_size in X. lia.
Qed.
Lemma letters_size : forall l need s b need' s' b', letters_loop l need s b = Ok (need', (s', b')) -> buffer_size b' <= buffer_size b.
Proof.
  induction l as [|c l IH]; intros need s b need' s' b' H; cbn [letters_loop] in H; [injection H as _ _ <-; lia|].
  destruct need; [discriminate|]. destruct (get_option (t_node s) ["-"%char; c]) as [o|]; [|discriminate].
  destruct (is_flag (a_reader o)); [|apply IH in H; exact H].
  destruct (read_subfields (a_fields o) (VB true) b) as [[v b1]|] eqn:X; [|discriminate]. cbn [bind fst snd] in H. apply IH in H. apply subfields_size in X. lia.
Qed.
Lemma option_size : forall s w b s' b', read_option_or_flag s (w :: b) = Ok (s', b') -> buffer_size b' < buffer_size (w :: b).
Proof.
  intros s w b s' b' H. unfold read_option_or_flag in H. destruct (next_option_key (w :: b)) as [[key b1]|] eqn:K; [|discriminate]. cbn [bind] in H.
  apply next_key in K. destruct K as (raw & SP & ->). pose proof (after_key_size _ _ _ b SP).
  destruct (starts_with (lit "--") key).
  - destruct (get_option (t_node s) key); [|discriminate]. apply option_value_size in H. lia.
  - destruct (starts_with (lit "-") key); [|injection H as _ <-; lia].
    destruct (letters_loop (tl key) None s (after_key raw b)) as [[need [s1 b1]]|] eqn:L; [|discriminate]. cbn [bind fst snd] in H. apply letters_size in L.
    destruct need; [apply option_value_size in H; lia|injection H as _ <-; lia].
Qed.
Lemma round_size : forall root s w b s' b', simple root -> within root (t_node s) -> round w s (w :: b) = Ok (s', b') ->
  within root (t_node s') /\ (buffer_size b' < buffer_size (w :: b) \/
   (buffer_size b' <= buffer_size (w :: b) /\ t_node s' = t_node s /\ t_index s' = S (t_index s) /\ t_index s < length (positionals (t_node s)))).
Proof.
  intros root s w b s' b' SI W H. unfold round in H. destruct (starts_with (lit "-") w) eqn:D1.
  { split; [|left; exact (option_size _ _ _ _ _ H)].
    assert (t_node s' = t_node s) as ->; [|exact W].
    unfold read_option_or_flag in H. destruct (next_option_key (w :: b)) as [[key b1]|]; [|discriminate]. cbn [bind] in H.
    assert (V : forall o s0 b0, read_option_value o s0 b0 = Ok (s', b') -> t_node s' = t_node s0).
    { intros o s0 b0 X. unfold read_option_value in X. destruct (read (a_reader o) b0) as [[v b2]|]; [|discriminate]. cbn [bind fst snd] in X.
      destruct (read_subfields (a_fields o) v b2) as [[v' b3]|]; [|discriminate]. cbn [bind fst snd] in X.
      destruct (store o v' (t_args s0)); [|discriminate]. injection X as <- _. reflexivity. }
    assert (LT : forall l need s0 b0 need' s1 b2, letters_loop l need s0 b0 = Ok (need', (s1, b2)) -> t_node s1 = t_node s0).
    { induction l as [|c l IH]; intros need s0 b0 need' s1 b2 X; cbn [letters_loop] in X; [injection X as _ <- _; reflexivity|].
      destruct need; [discriminate|]. destruct (get_option (t_node s0) ["-"%char; c]) as [o|]; [|discriminate].
      destruct (is_flag (a_reader o)); [|exact (IH _ _ _ _ _ _ X)].
      destruct (read_subfields (a_fields o) (VB true) b0) as [[v b3]|]; [|discriminate]. cbn [bind fst snd] in X. apply IH in X. exact X. }
    destruct (starts_with (lit "--") key).
    - destruct (get_option (t_node s) key); [|discriminate]. exact (V _ _ _ H).
    - destruct (starts_with (lit "-") key); [|injection H as <- _; reflexivity].
      destruct (letters_loop (tl key) None s b1) as [[need [s1 b2]]|] eqn:L; [|discriminate]. cbn [bind fst snd] in H. apply LT in L.
      destruct need; [rewrite <- L; exact (V _ _ _ H)|injection H as <- _; exact L]. }
  destruct (starts_with (lit "+") w) eqn:D2; [discriminate|].
  destruct (dict_get w (children_of (t_node s))) as [child|] eqn:C.
  - destruct (finalize s) as [args|] eqn:FN; [|discriminate]. injection H as <- <-. cbn [t_node tl]. split; [|left; rewrite size_cons; lia].
    eapply within_child; [exact W|]. apply dict_get_in in C. exact C.
  - destruct (nth_error (positionals (t_node s)) (t_index s)) as [a|] eqn:G; [|discriminate].
    assert (IA : In a (args_of (t_node s)) /\ is_positional a = true). { apply nth_error_In in G. unfold positionals in G. apply filter_In in G. exact G. }
    assert (FP : is_flag (a_reader a) = false).
    { specialize (SI _ W a (proj1 IA)). unfold simple_arg in SI. unfold is_positional, is_option in IA. destruct (a_kind a); [destruct IA as [_ IA]; discriminate IA|].
      destruct (a_reader a); [contradiction| | |]; reflexivity. }
    destruct (a_kind a) as [|n]; [discriminate|]. unfold read_positional in H.
    match type of H with context[values_loop ?n ?a ?w ?b] => destruct (values_loop n a w b) as [[vs b1]|] eqn:L end; [|discriminate].
    cbn [bind fst snd] in H. apply values_size in L; [|exact FP].
    match type of H with (do v <- ?x; _) = _ => destruct x as [v|] end; [|discriminate]. injection H as <- <-. cbn [t_node t_index].
    split; [exact W|]. right. split; [apply L|]. split; [reflexivity|]. split; [reflexivity|]. apply nth_error_Some. congruence.
Qed.
Lemma parse_ends : forall root, simple root -> forall k j s b, within root (t_node s) -> buffer_size b <= k -> length (positionals (t_node s)) - t_index s <= j ->
  exists n r, forall fuel, n <= fuel -> parse_loop fuel s b = Some r.
Proof.
  intros root SI k. induction k as [k IHk] using lt_wf_ind. intro j. induction j as [j IHj] using lt_wf_ind. intros s b W Lk Lj.
  destruct b as [|[|c w] b].
  - exists 0. eexists. intros fuel _. destruct fuel; reflexivity.
  - exists 0. eexists. intros fuel _. destruct fuel; reflexivity.
  - destruct (round (c :: w) s ((c :: w) :: b)) as [[s' b']|e] eqn:R.
    + destruct (round_size root s (c :: w) b s' b' SI W R) as [W' D].
      assert (X : exists n r, forall fuel, n <= fuel -> parse_loop fuel s' b' = Some r).
      { destruct (Nat.lt_ge_cases (buffer_size b') (buffer_size ((c :: w) :: b))) as [L|L].
        - apply (IHk (buffer_size b') ltac:(eapply Nat.lt_le_trans; [exact L|exact Lk]) (length (positionals (t_node s')))); [exact W'|lia|lia].
        - destruct D as [D|(D1 & D2 & D3 & D4)]; [exfalso; exact (Nat.lt_irrefl _ (Nat.lt_le_trans _ _ _ D L))|].
          apply (IHj (length (positionals (t_node s')) - t_index s')); [rewrite D2, D3; lia|exact W'|exact (Nat.le_trans _ _ _ D1 Lk)|lia]. }
      destruct X as (n & r & X). exists (S n), r. intros fuel L. destruct fuel as [|fuel]; [lia|]. cbn [parse_loop].
      match goal with |- context[round ?x ?y ?z] => replace (round x y z) with (@Ok (state * buffer) (s', b')) by (symmetry; exact R) end. apply X. lia.
    + exists 1, (Err e). intros fuel L. destruct fuel as [|fuel]; [lia|]. cbn [parse_loop].
      match goal with |- context[round ?x ?y ?z] => replace (round x y z) with (@Err (state * buffer) e) by (symmetry; exact R) end. reflexivity.
Qed.

(** ** Commands *)
Fixpoint node_at (t : ast) (path : list str) : option ast :=
  match path with
  | [] => Some t
  | p :: r => match dict_get p (children_of t) with Some c => node_at c r | None => None end
  end.
Lemma node_at_snoc : forall path t n u c, node_at t path = Some u -> dict_get n (children_of u) = Some c -> node_at t (path ++ [n]) = Some c.
Proof.
  induction path as [|p path IH]; intros t n u c H G; cbn [node_at app] in *.
  - injection H as ->. rewrite G. reflexivity.
  - destruct (dict_get p (children_of t)) as [v|]; [|discriminate]. exact (IH _ _ _ _ H G).
Qed.
Definition def_at (t : ast) (path : list str) : option (list argdef) := match node_at t path with Some u => def_of u | None => None end.
Lemma insert_same : forall path d t, def_at (insert_command path d t) path = Some d.
Proof.
  induction path as [|p path IH]; intros d t; [reflexivity|]. unfold def_at. cbn [insert_command node_at children_of].
  rewrite dict_get_set_same. exact (IH d _).
Qed.
Lemma insert_other : forall path d t q, q <> path -> def_at (insert_command path d t) q = def_at t q.
Proof.
  induction path as [|p path IH]; intros d t q N.
  - destruct q as [|x q]; [contradiction|]. reflexivity.
  - destruct q as [|x q]; [reflexivity|]. unfold def_at. cbn [insert_command node_at children_of].
    destruct (str_eqb x p) eqn:E.
    + apply str_eqb_eq in E. subst x. rewrite dict_get_set_same.
      pose proof (IH d (match dict_get p (children_of t) with Some n => n | None => Node None [] end) q ltac:(congruence)) as X. unfold def_at in X. rewrite X.
      destruct (dict_get p (children_of t)); [reflexivity|]. destruct q; reflexivity.
    + rewrite dict_get_set_other; [reflexivity|]. intro X. subst. rewrite str_eqb_refl in E. discriminate.
Qed.
Lemma create_def : forall commands path,
  (forall a d b, commands = a ++ (path, d) :: b -> (forall c, In c b -> fst c <> path) -> def_at (create commands) path = Some d) /\
  ((forall c, In c commands -> fst c <> path) -> def_at (create commands) path = None).
Proof.
  intros commands path. unfold create.
  assert (K : forall l t, (forall c, In c l -> fst c <> path) -> def_at (fold_left (fun t c => insert_command (fst c) (snd c) t) l t) path = def_at t path).
  { induction l as [|c l IH]; intros t H; [reflexivity|]. cbn [fold_left]. rewrite IH; [|intros x I; apply H; right; exact I].
    apply insert_other. intro X. apply (H c); [left; reflexivity|auto]. }
  split.
  - intros a d b -> H. rewrite fold_left_app. cbn [fold_left fst snd]. rewrite K; [|exact H]. apply insert_same.
  - intro H. rewrite K; [|exact H]. destruct path; reflexivity.
Qed.

(** ** Defaults *)
Definition given (a : argdef) (args : list (str * val)) : Prop := dict_get (a_field a) args <> None.
(** the groups of the options that are given *)
Definition groups (l : list argdef) (args : list (str * val)) : list str :=
  flat_map (fun a => match a_kind a with
                     | KOption _ (Some (c :: g)) => if dict_has (a_field a) args then [c :: g] else []
                     | _ => []
                     end) l.
Lemma has_given : forall a args, dict_has (a_field a) args = true <-> given a args.
Proof. intros a args. unfold dict_has, given. destruct (dict_get (a_field a) args); cbn; split; congruence. Qed.
Lemma groups_set : forall l f v args, ~ In f (map a_field l) -> groups l (dict_set f v args) = groups l args.
Proof.
  induction l as [|a l IH]; intros f v args N; [reflexivity|]. cbn [groups flat_map]. fold (groups l (dict_set f v args)) (groups l args).
  rewrite IH; [|intro X; apply N; right; exact X]. f_equal. unfold dict_has. rewrite dict_get_set_other; [reflexivity|]. intro X. apply N. left. auto.
Qed.
Lemma fill_options_exact : forall l mutex args, NoDup (map a_field l) ->
  (forall args', fill_options l mutex args = Ok args' ->
     (forall a, In a l -> is_option a = true -> dict_get (a_field a) args' = match dict_get (a_field a) args with Some v => Some v | None => a_default a end) /\
     (forall f, (forall a, In a l -> is_option a = true -> a_field a <> f) -> dict_get f args' = dict_get f args) /\
     (forall a, In a l -> is_option a = true -> given a args \/ a_default a <> None) /\
     NoDup (groups l args) /\ forall g, In g (groups l args) -> ~ In g mutex) /\
  ((forall a, In a l -> is_option a = true -> given a args \/ a_default a <> None) -> NoDup (groups l args) -> (forall g, In g (groups l args) -> ~ In g mutex) ->
    exists args', fill_options l mutex args = Ok args').
Proof.
  induction l as [|a l IH]; intros mutex args N.
  - split.
    + intros args' H. injection H as <-. split; [intros a []|]. split; [reflexivity|]. split; [intros a []|]. split; [constructor|intros g []].
    + intros _ _ _. exists args. reflexivity.
  - inversion N as [|? ? N1 N2]. subst. cbn [fill_options groups flat_map]. fold (groups l args).
    assert (OTH : forall b, In b l -> a_field b <> a_field a). { intros b I X. apply N1. rewrite <- X. apply in_map. exact I. }
    destruct (a_kind a) as [rep m|n] eqn:K.
    + assert (O : is_option a = true) by (unfold is_option; rewrite K; reflexivity).
      destruct (dict_has (a_field a) args) eqn:G.
      * (* given *)
        assert (KEEP : forall mutex' args', fill_options l mutex' args = Ok args' ->
          (forall b, In b (a :: l) -> is_option b = true -> dict_get (a_field b) args' = match dict_get (a_field b) args with Some v => Some v | None => a_default b end) /\
          (forall f, (forall b, In b (a :: l) -> is_option b = true -> a_field b <> f) -> dict_get f args' = dict_get f args) /\
          (forall b, In b (a :: l) -> is_option b = true -> given b args \/ a_default b <> None) /\
          NoDup (groups l args) /\ forall g, In g (groups l args) -> ~ In g mutex').
        { intros mutex' args' H. destruct (IH mutex' args N2) as [IH1 _]. destruct (IH1 _ H) as (A1 & A2 & A3 & A4 & A5). split; [|split; [|split; [|split]]].
          - intros b [<-|I] OB; [|apply A1; assumption]. rewrite A2.
            + unfold dict_has in G. destruct (dict_get (a_field a) args); [reflexivity|discriminate G].
            + intros b I _. apply OTH. exact I.
          - intros f F. apply A2. intros b I OB. apply F; [right; exact I|exact OB].
          - intros b [<-|I] OB; [left; apply has_given; exact G|apply A3; assumption].
          - exact A4.
          - exact A5. }
        assert (PLAIN : forall mutex', (forall b, In b (a :: l) -> is_option b = true -> given b args \/ a_default b <> None) -> NoDup (groups l args) ->
           (forall g, In g (groups l args) -> ~ In g mutex') -> exists args', fill_options l mutex' args = Ok args').
        { intros mutex' R D M. destruct (IH mutex' args N2) as [_ IH2]. apply IH2; [|exact D|exact M]. intros b I. apply R. right. exact I. }
        destruct m as [[|c g]|]; cbn [app].
        -- split; [exact (KEEP mutex)|exact (PLAIN mutex)].
        -- destruct (str_mem (c :: g) mutex) eqn:M.
           ++ split; [discriminate|]. intros _ _ X. exfalso. apply (X (c :: g)); [left; reflexivity|]. apply mem_in. exact M.
           ++ assert (NM : ~ In (c :: g) mutex). { intro X. apply mem_in in X. rewrite X in M. discriminate. } split.
              ** intros args' H. destruct (KEEP _ _ H) as (A1 & A2 & A3 & A4 & A5). split; [exact A1|]. split; [exact A2|]. split; [exact A3|]. split.
                 --- constructor; [|exact A4]. intro I. apply (A5 _ I). left. reflexivity.
                 --- intros h [<-|I]; [exact NM|]. intro X. apply (A5 _ I). right. exact X.
              ** intros R D X. inversion D as [|? ? D1 D2]. subst. apply PLAIN; [exact R|exact D2|]. intros h I [<-|J]; [contradiction|]. apply (X h); [right; exact I|exact J].
        -- split; [exact (KEEP mutex)|exact (PLAIN mutex)].
      * (* default *)
        assert (GN : match m with Some (c :: g) => if false then [c :: g] else [] | _ => [] end = @nil str) by (destruct m as [[|c g]|]; reflexivity).
        assert (NG : dict_get (a_field a) args = None). { unfold dict_has in G. destruct (dict_get (a_field a) args); [discriminate G|reflexivity]. }
        assert (GE : (match m with Some (c :: g) => if dict_has (a_field a) args then [c :: g] else [] | _ => [] end : list str) = []) by (rewrite G; destruct m as [[|c g]|]; reflexivity).
        rewrite ?GN. cbn [app].
        destruct (a_default a) as [v|] eqn:D.
        -- assert (GS : groups l (dict_set (a_field a) v args) = groups l args) by (apply groups_set; exact N1).
           assert (GV : forall b, In b l -> dict_get (a_field b) (dict_set (a_field a) v args) = dict_get (a_field b) args).
           { intros b I. apply dict_get_set_other. intro X. apply (OTH b I). auto. }
           split.
           ++ intros args' H. destruct (IH mutex (dict_set (a_field a) v args) N2) as [IH1 _]. destruct (IH1 _ H) as (A1 & A2 & A3 & A4 & A5). rewrite GS in *.
              split; [|split; [|split; [|split; [exact A4|exact A5]]]].
              ** intros b [<-|I] OB.
                 --- rewrite A2; [|intros b I _; apply OTH; exact I]. rewrite dict_get_set_same, NG. auto.
                 --- rewrite A1 by assumption. rewrite GV by exact I. reflexivity.
              ** intros f F. rewrite A2; [|intros b I OB; apply F; [right; exact I|exact OB]]. apply dict_get_set_other. intro X. apply (F a); [left; reflexivity|exact O|auto].
              ** intros b [<-|I] OB; [right; congruence|]. destruct (A3 b I OB) as [X|X]; [left|right; exact X]. unfold given in *. rewrite GV in X by exact I. exact X.
           ++ intros R DD X. destruct (IH mutex (dict_set (a_field a) v args) N2) as [_ IH2]. rewrite GS in IH2. apply IH2; [|exact DD|exact X].
              intros b I OB. destruct (R b (or_intror I) OB) as [Y|Y]; [left|right; exact Y]. unfold given in *. rewrite GV by exact I. exact Y.
        -- split; [discriminate|]. intros R _ _. exfalso. destruct (R a (or_introl eq_refl) O) as [X|X]; [exact (X NG)|congruence].
    + assert (O : is_option a = false) by (unfold is_option; rewrite K; reflexivity). cbn [app].
      destruct (IH mutex args N2) as [IH1 IH2]. split.
      * intros args' H. destruct (IH1 _ H) as (A1 & A2 & A3 & A4 & A5). split; [|split; [|split; [|split; [exact A4|exact A5]]]].
        -- intros b [<-|I] OB; [congruence|apply A1; assumption].
        -- intros f F. apply A2. intros b I. apply F. right. exact I.
        -- intros b [<-|I] OB; [congruence|apply A3; assumption].
      * intros R D X. apply IH2; [|exact D|exact X]. intros b I. apply R. right. exact I.
Qed.
Lemma fill_positionals_exact : forall l args, NoDup (map a_field l) ->
  (forall args', fill_positionals l args = Ok args' ->
     (forall a, In a l -> a_default a <> None /\ dict_get (a_field a) args' = a_default a) /\
     forall f, ~ In f (map a_field l) -> dict_get f args' = dict_get f args) /\
  ((forall a, In a l -> a_default a <> None) -> exists args', fill_positionals l args = Ok args').
Proof.
  induction l as [|a l IH]; intros args N; cbn [fill_positionals].
  - split; [|exists args; reflexivity]. intros args' H. injection H as <-. split; [intros a []|reflexivity].
  - inversion N as [|? ? N1 N2]. subst. destruct (a_default a) as [v|] eqn:D.
    + destruct (IH (dict_set (a_field a) v args) N2) as [IH1 IH2]. split.
      * intros args' H. destruct (IH1 _ H) as [A1 A2]. split.
        -- intros b [<-|I]; [|apply A1; exact I]. rewrite A2 by exact N1. rewrite dict_get_set_same. split; congruence.
        -- intros f F. cbn [map] in F. rewrite A2; [|intro X; apply F; right; exact X]. apply dict_get_set_other. intro X. apply F. left. auto.
      * intro R. apply IH2. intros b I. apply R. right. exact I.
    + split; [discriminate|]. intro R. exfalso. exact (R a (or_introl eq_refl) D).
Qed.
