(** Properties of the pages that are read (C195, C196) *)
From Coq Require Import List Bool NArith Ascii String Arith Lia Permutation.
From Verif Require Import Base BaseFacts HtmlModel HtmlProofs.
Import ListNotations.
Open Scope string_scope. Open Scope nat_scope. Open Scope list_scope. Open Scope bool_scope.

(** ** C195: the elements of a page *)
(** a page whose elements are closed in the order they were opened is read as it was written *)
Theorem C195_nested_partial : forall f, parse (flat_map written f) = Ok (Elem (lit "root") [] (map dom_of f)).
Proof. intros f. unfold parse. rewrite <- (app_nil_r (flat_map written f)). change [root] with [Elem (lit "root") [] []]. rewrite feed_forest. reflexivity. Qed.
(** exactly the pages without an end that ends nothing are read, and what is in an element that is never closed is lost *)
Theorem C195_read : forall l d, parse l = Ok d <->
  exists f os, l = flat_map written f ++ flat_map open_events os /\ d = Elem (lit "root") [] (map dom_of f).
Proof.
  intros l d. unfold parse. split.
  - intros H. destruct (feed l [root]) as [st|] eqn:F; [|discriminate]. injection H as <-. destruct (feed_tells l st F) as (f & os & T & ->). exists f, os. split; [exact T|]. apply last_snoc.
  - intros (f & os & -> & ->). change [root] with [Elem (lit "root") [] []]. rewrite feed_forest, feed_opened by discriminate. cbn [bind]. rewrite last_snoc. reflexivity.
Qed.
(** an attribute has the last value that was written for it, or "true" when it was written without one *)
Theorem C195_attributes : forall l k, dict_get k (attrs_of l) =
  match find (fun a => str_eqb (fst a) k) (rev l) with
  | None => None
  | Some (_, Some v) => Some v
  | Some (_, None) => Some (lit "true")
  end.
Proof.
  intros l k. unfold attrs_of. induction l as [|[n v] l IH] using rev_ind; [reflexivity|].
  rewrite fold_left_app, rev_app_distr. cbn [fold_left rev app find fst snd].
  destruct (str_eqb n k) eqn:E.
  - apply str_eqb_eq in E. subst n. rewrite dict_get_set_same. destruct v; reflexivity.
  - rewrite dict_get_set_other by (intros ->; rewrite str_eqb_refl in E; discriminate). exact IH.
Qed.
(** the text of an element is what is written directly in it *)
Theorem C195_text_partial : forall g a c, (forall h b k, In (Node h b k) c -> h <> lit "data") ->
  data (dom_of (Node g a c)) = Ok (flat_map (fun t => match t with Text d => d | Node _ _ _ => [] end) c).
Proof.
  intros g a c H. unfold data. cbn [dom_of e_children]. induction c as [|[h b k|d] c IH]; [reflexivity| |].
  - cbn [map dom_of join_data e_tag flat_map app]. destruct (str_eqb h (lit "data")) eqn:E; [apply str_eqb_eq in E; exfalso; apply (H h b k); [left; reflexivity|exact E]|].
    apply IH. intros. eapply H. right. eassumption.
  - change (bind (join_data (map dom_of c)) (fun w => Ok (d ++ w)) = Ok (d ++ flat_map (fun t => match t with Text d => d | Node _ _ _ => [] end) c)). rewrite IH; [reflexivity|]. intros. eapply H. right. eassumption.
Qed.
Print Assumptions C195_nested_partial. Print Assumptions C195_read. Print Assumptions C195_attributes. Print Assumptions C195_text_partial.
(** an element that html does not close, such as [<br>], makes the page unreadable *)
Theorem C195_void_refuted : parse [EStart (lit "p") []; EData (lit "a"); EStart (lit "br") []; EData (lit "b"); EEnd (lit "p")] = Err OtherErr.
Proof. reflexivity. Qed.
(** a page whose body is left open has an empty dom *)
Theorem C195_open_refuted : parse [EStart (lit "table") []; EStart (lit "tr") []; EEnd (lit "tr")] = Ok (Elem (lit "root") [] []).
Proof. reflexivity. Qed.
(** the text in an emphasised part of a cell is left out; a tag named data is read as text, or fails *)
Theorem C195_text_refuted :
  data (dom_of (Node (lit "td") [] [Text (lit "CUDA "); Node (lit "b") [] [Text (lit "12.1")]])) = Ok (lit "CUDA ") /\
  data (dom_of (Node (lit "td") [] [Node (lit "data") [(lit "value", Some (lit "21053"))] [Text (lit "cheese")]])) = Ok (lit "21053") /\
  data (dom_of (Node (lit "td") [] [Node (lit "data") [] [Text (lit "cheese")]])) = Err KeyError.
Proof. repeat split. Qed.
Definition row (c d : string) : tree := Node (lit "tr") [] [Node (lit "td") [] [Text c]; Node (lit "td") [] [Text d]].
Definition table : tree :=
  Node (lit "table") [(lit "id", Some (lit "drivers")); (lit "hidden", None)] [Node (lit "tbody") [] [row "CUDA 12.1" ">=530.30"; row "CUDA 11.8" ">=520.61"]].
Example C195_sample : exists d, parse (flat_map written [Text (lit "Drivers:"); table]) = Ok (Elem (lit "root") [] [data_elem (lit "Drivers:"); d]) /\
  dict_get (lit "id") (e_attrs d) = Some (lit "drivers") /\ dict_get (lit "hidden") (e_attrs d) = Some (lit "true").
Proof. eexists. split; [reflexivity|]. split; reflexivity. Qed.

(** ** C196: looking for elements *)
(** the elements that are found, each as often as it is in the page: the ends of the branches along which the matchers hold *)
Theorem C196_found : forall ms e, ms <> [] -> exists l, select ms e = Ok l /\ Permutation l (map tip (filter (along ms) (branches e))).
Proof.
  intros ms e N. exists (hits ms e). split; [apply select_hits, N|]. unfold hits. apply Permutation_map, filter_perm, rbranches_perm.
Qed.
(** what it means that matchers hold along a branch *)
Theorem C196_along : forall ms path, along ms path = true <->
  exists ks : list nat, List.length ks = List.length ms /\ ms <> [] /\
    (forall i k m, nth_error ks i = Some k -> nth_error ms i = Some m -> exists x, nth_error path k = Some x /\ m x = true) /\
    (forall i a b, nth_error ks i = Some a -> nth_error ks (S i) = Some b -> a <= b) /\
    S (last ks 0) = List.length path.
Proof.
  assert (SUF : forall (p s : list elem), In s (suffixes p) <-> exists a, p = a ++ s).
  { induction p as [|x p IH]; intros s; cbn.
    - split; [intros [<-|[]]; exists []; reflexivity|intros ([|y a] & E); [left; exact E|discriminate]].
    - rewrite IH. split; [intros [<-|(a & ->)]; [exists []; reflexivity|exists (x :: a); reflexivity]|].
      intros ([|y a] & E); [left; exact E|right; injection E as -> ->; exists a; reflexivity]. }
  assert (LN : forall (p : list elem) d, p <> [] -> nth_error p (List.length p - 1) = Some (last p d)).
  { induction p as [|x [|y p] IH]; intros d NE; [contradiction|reflexivity|]. cbn [Datatypes.length]. replace (S (S (List.length p)) - 1) with (S (List.length p)) by lia. cbn [nth_error].
    specialize (IH d ltac:(discriminate)). cbn [Datatypes.length] in IH. replace (S (List.length p) - 1) with (List.length p) in IH by lia. rewrite IH. reflexivity. }
  induction ms as [|m rest IH]; intros path.
  - split; [discriminate|]. intros (ks & _ & N & _). contradiction.
  - destruct rest as [|m' rest].
    + split.
      * intros H. cbn [along] in H. destruct path as [|x p]; [discriminate|]. exists [List.length p]. split; [reflexivity|split; [discriminate|split; [|split; [|reflexivity]]]].
        -- intros [|[|i]] k n E F; try discriminate. injection E as <-. injection F as <-. exists (last (x :: p) x). split; [|exact H]. specialize (LN (x :: p) x ltac:(discriminate)). cbn [Datatypes.length] in LN. replace (S (List.length p) - 1) with (List.length p) in LN by lia. exact LN.
        -- intros [|i] a b E F; [discriminate|destruct i; discriminate].
      * intros (ks & L & _ & M & _ & E). destruct ks as [|k [|k' ks]]; try discriminate. cbn [last] in E. destruct (M 0 k m eq_refl eq_refl) as (x & X & Y).
        destruct path as [|y p]; [discriminate|]. cbn [along]. cbn [Datatypes.length] in E. injection E as E. subst k. specialize (LN (y :: p) y ltac:(discriminate)). cbn [Datatypes.length] in LN. replace (S (List.length p) - 1) with (List.length p) in LN by lia. rewrite LN in X. injection X as X. rewrite <- X in Y. exact Y.
    + rewrite along_many by discriminate. rewrite existsb_exists. set (ms' := m' :: rest) in *. split.
      * intros ([|x s] & I & H); [discriminate|]. apply andb_true_iff in H as [HM HA]. apply SUF in I. destruct I as (a & ->). apply IH in HA. destruct HA as (ks & L & N & M & O & E).
        exists (List.length a :: map (Nat.add (List.length a)) ks). split; [cbn [Datatypes.length]; rewrite map_length, L; reflexivity|]. split; [discriminate|]. split; [|split].
        -- intros [|i] k n K F; cbn [nth_error] in K, F.
           ++ injection K as <-. injection F as <-. exists x. split; [|exact HM]. rewrite nth_error_app2, Nat.sub_diag by lia. reflexivity.
           ++ rewrite nth_error_map in K. destruct (nth_error ks i) as [k0|] eqn:K0; [|discriminate]. injection K as <-. destruct (M i k0 n K0 F) as (z & Z & W). exists z. split; [|exact W]. rewrite nth_error_app2 by lia. replace (List.length a + k0 - List.length a) with k0 by lia. exact Z.
        -- intros i u v U V; change (nth_error (map (Nat.add (List.length a)) ks) i = Some v) in V; rewrite nth_error_map in V; destruct i as [|i]; cbn [nth_error] in U.
           ++ injection U as <-. destruct (nth_error ks 0); [|discriminate]. injection V as <-. lia.
           ++ rewrite nth_error_map in U. destruct (nth_error ks i) as [u0|] eqn:U0; [|discriminate]. destruct (nth_error ks (S i)) as [v0|] eqn:V0; [|discriminate]. injection U as <-. injection V as <-. specialize (O i u0 v0 U0 V0). lia.
        -- destruct ks as [|k0 ks0]; [discriminate|]. cbn [map]. change (last (List.length a :: (List.length a + k0) :: map (Nat.add (List.length a)) ks0) 0) with (last (map (Nat.add (List.length a)) (k0 :: ks0)) 0).
           assert (LM : forall (q : list nat) d, q <> [] -> last (map (Nat.add (List.length a)) q) d = List.length a + last q d).
           { induction q as [|u [|w q] IHq]; intros d NE; [contradiction|reflexivity|]. cbn [map] in *. change (last (List.length a + w :: map (Nat.add (List.length a)) q) d = List.length a + last (w :: q) d). apply IHq. discriminate. }
           rewrite LM by discriminate. rewrite app_length. lia.
      * intros (ks & L & _ & M & O & E). destruct ks as [|k ks]; [discriminate|]. destruct (M 0 k m eq_refl eq_refl) as (x & X & HM).
        destruct (nth_error_split _ _ X) as (a & s & -> & LA). exists (x :: s). split; [apply SUF; exists a; reflexivity|]. apply andb_true_iff. split; [exact HM|]. apply IH.
        assert (GE : forall i u, nth_error (k :: ks) i = Some u -> k <= u).
        { induction i as [|i IHi]; intros u U; [injection U as <-; lia|]. destruct (nth_error (k :: ks) i) as [w|] eqn:W; [|apply nth_error_None in W; assert (nth_error (k :: ks) (S i) <> None) as Q by congruence; apply nth_error_Some in Q; lia]. specialize (IHi w eq_refl). specialize (O i w u W U). lia. }
        exists (map (fun u => u - k) ks). split; [rewrite map_length; cbn [Datatypes.length] in L; injection L as L; exact L|]. split; [discriminate|]. split; [|split].
        -- intros i u n U F. rewrite nth_error_map in U. destruct (nth_error ks i) as [u0|] eqn:U0; [|discriminate]. injection U as <-. destruct (M (S i) u0 n U0 F) as (z & Z & W). exists z. split; [|exact W]. specialize (GE (S i) u0 U0). rewrite nth_error_app2 in Z by lia. rewrite LA in Z. exact Z.
        -- intros i u v U V. rewrite nth_error_map in U, V. destruct (nth_error ks i) as [u0|] eqn:U0; [|discriminate]. destruct (nth_error ks (S i)) as [v0|] eqn:V0; [|discriminate]. injection U as <-. injection V as <-. specialize (O (S i) u0 v0 U0 V0). lia.
        -- destruct ks as [|k1 ks]; [discriminate|]. change (last (k :: k1 :: ks) 0) with (last (k1 :: ks) 0) in E.
           assert (LM : forall (q : list nat) d, q <> [] -> last (map (fun u => u - k) q) d = last q d - k).
           { induction q as [|u [|w q] IHq]; intros d NE; [contradiction|reflexivity|]. cbn [map] in *. change (last (w - k :: map (fun u => u - k) q) d = last (w :: q) d - k). apply IHq. discriminate. }
           rewrite LM by discriminate. rewrite app_length in E. cbn [Datatypes.length] in E |- *. lia.
Qed.
(** nothing is looked for with no matchers *)
Theorem C196_no_matchers : forall e, select [] e = Err IndexError.
Proof. reflexivity. Qed.
Print Assumptions C196_found. Print Assumptions C196_along. Print Assumptions C196_no_matchers.
(** the rows of a table are found from the last to the first *)
Definition tagged (t : string) : elem -> bool := fun e => str_eqb (e_tag e) (lit t).
Theorem C196_order_refuted : exists d l, parse (flat_map written [table]) = Ok d /\
  select [fun e => match dict_get (lit "id") (e_attrs e) with Some v => str_eqb v (lit "drivers") | None => false end; tagged "tbody"; tagged "tr"] d = Ok l /\
  l = [dom_of (row "CUDA 11.8" ">=520.61"); dom_of (row "CUDA 12.1" ">=530.30")].
Proof. eexists. eexists. split; [reflexivity|]. split; reflexivity. Qed.
Example C196_sample : List.length (filter (along [tagged "table"; tagged "tr"]) (branches (dom_of table))) = 2.
Proof. reflexivity. Qed.
