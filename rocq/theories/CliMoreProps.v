(** C58: the names of arguments, the fields of values and options that are given several times. *)
From Coq Require Import String Ascii List Bool NArith Arith Lia Sorted Permutation.
From Verif Require Import Base BaseFacts ParserModel ProjectModel CollectionProofs CliModel.
Import ListNotations.
Open Scope string_scope.
Open Scope nat_scope.
Open Scope list_scope.
Open Scope bool_scope.

Definition shorter (a b : str) : Prop := length a <= length b.
Lemma insert_perm : forall x l, Permutation (x :: l) (insert_len x l).
Proof. induction l as [|y l IH]; [reflexivity|]. cbn [insert_len]. destruct (length x <? length y); [reflexivity|]. rewrite perm_swap. apply perm_skip, IH. Qed.
Lemma insert_sorted : forall x l, StronglySorted shorter l -> StronglySorted shorter (insert_len x l).
Proof.
  intros x l. induction l as [|y l IH]; intro S; [repeat constructor|]. cbn [insert_len]. inversion S as [|? ? S' F]; subst. destruct (length x <? length y) eqn:E.
  - apply Nat.ltb_lt in E. constructor; [exact S|]. constructor; [unfold shorter; lia|]. eapply Forall_impl; [|exact F]. unfold shorter. cbn. intros; lia.
  - apply Nat.ltb_ge in E. constructor; [apply IH, S'|]. eapply Permutation_Forall; [apply insert_perm|]. constructor; [exact E|exact F].
Qed.
Lemma sort_facts : forall names, Permutation names (sort_len names) /\ StronglySorted shorter (sort_len names).
Proof.
  intro names. unfold sort_len. assert (G : forall l acc, StronglySorted shorter acc -> Permutation (l ++ acc) (fold_left (fun acc x => insert_len x acc) l acc) /\ StronglySorted shorter (fold_left (fun acc x => insert_len x acc) l acc)).
  { induction l as [|x l IH]; intros acc S; [split; [reflexivity|exact S]|]. cbn [fold_left]. destruct (IH (insert_len x acc) (insert_sorted _ _ S)) as [P Q]. split; [|exact Q]. rewrite <- P. cbn [app]. rewrite Permutation_middle. apply Permutation_app_head, insert_perm. }
  destruct (G names [] (SSorted_nil _)) as [P S]. rewrite app_nil_r in P. split; assumption.
Qed.
Lemma find_shortest : forall (P : str -> bool) l n, StronglySorted shorter l -> In n l -> P n = true -> (forall m, In m l -> P m = true -> m = n \/ length n < length m) -> find P l = Some n.
Proof.
  intros P l n S. induction S as [|x l S IH F]; intros I Pn M; [destruct I|]. cbn [find]. destruct (P x) eqn:E.
  - destruct (M x (or_introl eq_refl) E) as [->|L]; [reflexivity|]. destruct I as [->|I]; [reflexivity|]. rewrite Forall_forall in F. specialize (F n I). unfold shorter in F. lia.
  - apply IH; [destruct I as [->|I]; [congruence|exact I]|exact Pn|]. intros m J. apply M. right. exact J.
Qed.
(** a long name of an argument: with two dashes, or without any *)
Definition long (n : str) : Prop := n <> [] /\ (forall r, n = "-"%char :: r -> exists r', r = "-"%char :: r').
Lemma long_iff : forall n, n <> [] -> (starts_with (lit "--") n || negb (starts_with (lit "-") n) = true <-> long n).
Proof.
  intros n N. unfold long. rewrite orb_true_iff, negb_true_iff, <- not_true_iff_false, !starts_with_iff. split.
  - intros [(r & ->)|H]; (split; [exact N|]); intros r' E; [injection E as <-; exists r; reflexivity|]. exfalso. apply H. exists r'. exact E.
  - intros [_ H]. destruct n as [|c n]; [congruence|]. destruct (Ascii.eqb_spec c "-") as [->|D]; [|right; intros (r & E); injection E as E _; congruence]. destruct (H n eq_refl) as (r & ->). left. exists r. reflexivity.
Qed.
(** C58: an argument is known by its shortest long name, in whatever order its names are declared. *)
Theorem C58_field_name : forall names n, In n names -> (forall m, In m names -> m <> []) -> long n -> (forall m, In m names -> long m -> m = n \/ length n < length m) ->
  field_name names = identifierify (lstrip_marks n).
Proof.
  intros names n I E L M. unfold field_name. destruct (sort_facts names) as [P S]. assert (B : forall m, In m (sort_len names) -> In m names) by (intros m J; eapply Permutation_in; [symmetry; exact P|exact J]).
  rewrite (find_shortest _ (sort_len names) n S).
  - destruct n as [|c n]; [exfalso; exact (E [] I eq_refl)|reflexivity].
  - eapply Permutation_in; [exact P|exact I].
  - apply long_iff; [apply E, I|exact L].
  - intros m J H. apply (M m (B m J)). apply long_iff; [apply E, B, J|exact H].
Qed.
Example C58_field_name_sample : field_name [lit "-p"; lit "--package-name"; lit "--package"] = lit "package" /\ field_name [lit "--no-cache"; lit "-n"] = lit "no_cache" /\ field_name [lit "-p"; lit "-q"] = lit "p".
Proof. repeat split; vm_compute; reflexivity. Qed.

(** C58: the fields of a value that were not given have their defaults; without a default it is an error. *)
Theorem C58_subfields : forall fs v b, NoDup (map s_field fs) ->
  (forall w b', read_subfields (Some fs) v b = Ok (w, b') -> exists given d, fields_loop (fields_fuel b) fs b [(lit "value", v)] = Ok (given, b') /\ w = VD d /\
     forall f, In f fs -> dict_get (s_field f) d = (match dict_get (s_field f) given with Some x => Some x | None => s_default f end) /\ exists x, dict_get (s_field f) d = Some x) /\
  (forall given b' f, fields_loop (fields_fuel b) fs b [(lit "value", v)] = Ok (given, b') -> In f fs -> dict_get (s_field f) given = None -> s_default f = None -> read_subfields (Some fs) v b = Err IOErr).
Proof.
  intros fs v b N. assert (H1 : forall fs d d', NoDup (map s_field fs) -> fill_fields fs d = Ok d' -> (forall k, ~ In k (map s_field fs) -> dict_get k d' = dict_get k d) /\ forall f, In f fs -> dict_get (s_field f) d' = (match dict_get (s_field f) d with Some x => Some x | None => s_default f end) /\ exists x, dict_get (s_field f) d' = Some x).
  { clear. induction fs as [|f fs IH]; intros d d' N H; [injection H as <-; split; [reflexivity|intros f []]|]. cbn [map] in N. inversion N as [|? ? A B]; subst. cbn [fill_fields] in H. unfold dict_has in H. destruct (dict_get (s_field f) d) as [x|] eqn:G; cbn [is_some] in H.
    - destruct (IH _ _ B H) as [O V]. split; [intros k K; apply O; intro J; apply K; right; exact J|]. intros g [<-|J]; [|apply V, J]. rewrite (O _ A), G. split; [reflexivity|eauto].
    - destruct (s_default f) as [x|] eqn:D; [|discriminate]. destruct (IH _ _ B H) as [O V]. split.
      + intros k K. rewrite O by (intro J; apply K; right; exact J). apply dict_get_set_other. intros ->. apply K. left. reflexivity.
      + intros g [<-|J].
        * rewrite (O _ A), dict_get_set_same, G. split; [symmetry; exact D|eauto].
        * destruct (V g J) as [V1 V2]. split; [|exact V2]. rewrite V1, dict_get_set_other; [reflexivity|]. intro Q. apply A. rewrite <- Q. apply in_map, J. }
  assert (H2 : forall fs d f, NoDup (map s_field fs) -> In f fs -> dict_get (s_field f) d = None -> s_default f = None -> fill_fields fs d = Err IOErr).
  { clear. induction fs as [|g fs IH]; intros d f N I G D; [destruct I|]. cbn [map] in N. inversion N as [|? ? A B]; subst. cbn [fill_fields]. unfold dict_has. destruct I as [->|I]; [rewrite G, D; reflexivity|]. destruct (dict_get (s_field g) d) eqn:Q; cbn [is_some]; [apply (IH d f); assumption|]. destruct (s_default g); [|reflexivity].
    apply (IH _ f); [assumption|assumption| |assumption]. rewrite dict_get_set_other; [exact G|]. intro E. apply A. rewrite <- E. apply in_map, I. }
  split.
  - intros w b' H. unfold read_subfields in H. destruct (fields_loop (fields_fuel b) fs b [(lit "value", v)]) as [[given b'']|e] eqn:F; cbn [bind fst snd] in H; [|discriminate]. destruct (fill_fields fs given) as [d|e] eqn:G; cbn [bind] in H; [|discriminate]. injection H as <- <-. exists given, d. split; [reflexivity|]. split; [reflexivity|]. apply (H1 _ _ _ N G).
  - intros given b' f F I G D. unfold read_subfields. rewrite F. cbn [bind fst]. rewrite (H2 fs given f N I G D). reflexivity.
Qed.
Definition sample_fields : list subdef := [Sub [lit "+extras"] (RType (fun s => Ok (VS s))) None; Sub [lit "+optional"] RFlag (Some (VB false))].
Example C58_subfields_sample : NoDup (map s_field sample_fields) /\ read_subfields (Some sample_fields) (VS (lit "foo")) [lit "+extras=a"; lit "bar"] = Ok (VD [(lit "value", VS (lit "foo")); (lit "extras", VS (lit "a")); (lit "optional", VB false)], [lit "bar"]) /\ read_subfields (Some sample_fields) (VS (lit "foo")) [lit "bar"] = Err IOErr.
Proof. split; [repeat constructor; cbn; intuition discriminate|]. split; vm_compute; reflexivity. Qed.

(** C58: an option that can be given several times collects its values in the order in which they are given. *)
Lemma partition_key : forall k w, ~ In "="%char k -> partition_eq (k ++ lit "=" ++ w) = (k, w).
Proof. induction k as [|c k IH]; intros w N; [reflexivity|]. cbn [app partition_eq]. destruct (Ascii.eqb_spec c "=") as [->|D]; [exfalso; apply N; left; reflexivity|]. rewrite IH; [reflexivity|]. intro I. apply N. right. exact I. Qed.
Lemma set_twice : forall V k (v w : V) d, dict_set k w (dict_set k v d) = dict_set k w d.
Proof. intros V k v w d. induction d as [|[x y] d IH]; cbn [dict_set]; [rewrite str_eqb_refl; reflexivity|]. destruct (str_eqb k x) eqn:E; cbn [dict_set]; rewrite E; [reflexivity|]. rewrite IH. reflexivity. Qed.
Definition neat (w : str) : Prop := w <> [] /\ strip w = w.
Theorem C58_repeated : forall o key conv m words vs s rest fuel, a_kind o = KOption true m -> a_reader o = RType conv -> a_fields o = None ->
  starts_with (lit "--") key = true -> ~ In "="%char key -> strip key = key -> get_option (t_node s) key = Some o ->
  dict_get (a_field o) (t_args s) = None -> words <> [] -> Forall2 (fun w v => neat w /\ conv w = Ok v) words vs ->
  parse_loop (length words + fuel) s (map (fun w => key ++ lit "=" ++ w) words ++ rest) = parse_loop fuel (set_args s (dict_set (a_field o) (VL vs) (t_args s))) rest.
Proof.
  intros o key conv m words vs s rest fuel K R F D Q T O N W V.
  assert (B : exists key', key = "-"%char :: "-"%char :: key') by (apply starts_with_iff in D; destruct D as (r & ->); exists r; reflexivity). destruct B as (key' & B).
  assert (L : forall args w v more f, neat w -> conv w = Ok v -> parse_loop (S f) (set_args s args) ((key ++ lit "=" ++ w) :: more) = match store o v args with Ok a => parse_loop f (set_args s a) more | Err e => Some (Err e) end).
  { intros args w v more f [W1 W2] C. assert (X : next_option_key ((key ++ lit "=" ++ w) :: more) = Ok (key, w :: more)).
    { unfold next_option_key. rewrite partition_key by exact Q. rewrite T. rewrite B at 1. cbn [app]. destruct w as [|c w]; [congruence|]. rewrite W2. reflexivity. }
    assert (Y : round (key ++ lit "=" ++ w) (set_args s args) ((key ++ lit "=" ++ w) :: more) = do a <- store o v args; Ok (set_args s a, more)).
    { unfold round. replace (starts_with (lit "-") (key ++ lit "=" ++ w)) with true by (rewrite B; reflexivity). unfold read_option_or_flag. rewrite X. cbn [bind]. rewrite D. cbn [t_node set_args]. rewrite O. unfold read_option_value. rewrite R. cbn [read]. rewrite C. cbn [bind fst snd]. rewrite F. cbn [read_subfields bind fst snd t_args set_args]. destruct (store o v args); reflexivity. }
    rewrite B in Y |- *. cbn [app] in Y |- *. cbn [parse_loop]. rewrite Y. destruct (store o v args); reflexivity. }
  assert (G : forall words vs done args, dict_get (a_field o) args = Some (VL done) -> Forall2 (fun w v => neat w /\ conv w = Ok v) words vs -> forall fuel,
    parse_loop (length words + fuel) (set_args s args) (map (fun w => key ++ lit "=" ++ w) words ++ rest) = parse_loop fuel (set_args s (match words with [] => args | _ => dict_set (a_field o) (VL (done ++ vs)) args end)) rest).
  { intros ws xs done args E W'. revert done args E. induction W' as [|w v ws xs [A C] W' IH]; intros done args E f; [reflexivity|]. cbn [map app length Nat.add]. rewrite (L args w v _ _ A C). unfold store. rewrite K, E. rewrite (IH (done ++ [v])) by apply dict_get_set_same.
    f_equal. f_equal. rewrite <- app_assoc. cbn [app]. destruct ws as [|w' ws]; [inversion W'; reflexivity|]. apply set_twice. }
  destruct V as [|w v words vs [A C] V]; [congruence|]. cbn [map app length Nat.add]. replace s with (set_args s (t_args s)) at 1 by (destruct s; reflexivity). rewrite (L (t_args s) w v _ _ A C). unfold store. rewrite K, N.
  rewrite (G words vs [v]) by (try apply dict_get_set_same; exact V). f_equal. f_equal. destruct words as [|w' words]; [inversion V; reflexivity|]. apply set_twice.
Qed.
Example C58_repeated_sample : let only := Arg [lit "--only"] (RType (fun s => Ok (VS s))) (Some VNone) None (KOption true None) in
  parse 5 (Node (Some [only]) []) [lit "--only=a"; lit "--only=b"] = Some (Ok [([], [(lit "only", VL [VS (lit "a"); VS (lit "b")]); (lit "help", VB false)])]).
Proof. vm_compute. reflexivity. Qed.

Print Assumptions C58_field_name.
Print Assumptions C58_subfields.
Print Assumptions C58_repeated.
