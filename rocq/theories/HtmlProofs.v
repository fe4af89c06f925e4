(** Facts about HtmlModel *)
From Coq Require Import List Bool NArith Ascii String Arith Lia Permutation.
From Verif Require Import Base BaseFacts HtmlModel.
Import ListNotations.
Open Scope string_scope. Open Scope nat_scope. Open Scope list_scope. Open Scope bool_scope.

(** ** what a page says *)
Inductive tree := Node (tag : str) (attrs : list (str * option str)) (children : list tree) | Text (data : str).
Fixpoint written (t : tree) : list event :=
  match t with
  | Node g a c => EStart g a :: flat_map written c ++ [EEnd g]
  | Text d => [EData d]
  end.
Fixpoint dom_of (t : tree) : elem :=
  match t with
  | Node g a c => Elem g (attrs_of a) (map dom_of c)
  | Text d => data_elem d
  end.

Section TreeInd.
  Variable P : tree -> Prop.
  Hypothesis HN : forall g a c, Forall P c -> P (Node g a c).
  Hypothesis HT : forall d, P (Text d).
  Fixpoint tree_ind' (t : tree) : P t :=
    match t with
    | Node g a c => HN g a c ((fix all l : Forall P l := match l with [] => Forall_nil _ | x :: r => Forall_cons x (tree_ind' x) (all r) end) c)
    | Text d => HT d
    end.
End TreeInd.
Section ElemInd.
  Variable P : elem -> Prop.
  Hypothesis HE : forall g a c, Forall P c -> P (Elem g a c).
  Fixpoint elem_ind' (t : elem) : P t :=
    match t with
    | Elem g a c => HE g a c ((fix all l : Forall P l := match l with [] => Forall_nil _ | x :: r => Forall_cons x (elem_ind' x) (all r) end) c)
    end.
End ElemInd.

Lemma feed_app : forall a b st, feed (a ++ b) st = bind (feed a st) (feed b).
Proof. induction a as [|e a IH]; intros; cbn; [reflexivity|]. destruct (handle e st); cbn; auto. Qed.

Lemma feed_tree : forall t l g a c st, feed (written t ++ l) (Elem g a c :: st) = feed l (Elem g a (c ++ [dom_of t]) :: st).
Proof.
  induction t as [g' a' ch IH|d] using tree_ind'; intros l g a c st; [|reflexivity].
  cbn [written app feed handle bind]. rewrite <- app_assoc.
  assert (K : forall c0 l', feed (flat_map written ch ++ l') (Elem g' (attrs_of a') c0 :: Elem g a c :: st) = feed l' (Elem g' (attrs_of a') (c0 ++ map dom_of ch) :: Elem g a c :: st)).
  { induction IH as [|x r Hx _ IHr]; intros c0 l'; cbn [flat_map map app]; [rewrite app_nil_r; reflexivity|].
    rewrite <- app_assoc, Hx, IHr, <- app_assoc. reflexivity. }
  rewrite K. cbn [app feed handle]. rewrite str_eqb_refl. reflexivity.
Qed.
Lemma feed_forest : forall f l g a c st, feed (flat_map written f ++ l) (Elem g a c :: st) = feed l (Elem g a (c ++ map dom_of f) :: st).
Proof.
  induction f as [|t f IH]; intros; cbn [flat_map map app]; [rewrite app_nil_r; reflexivity|].
  rewrite <- app_assoc, feed_tree, IH, <- app_assoc. reflexivity.
Qed.

(** an element that is still open and what was written in it *)
Definition opened := (str * list (str * option str) * list tree)%type.
Definition open_events (o : opened) : list event := EStart (fst (fst o)) (snd (fst o)) :: flat_map written (snd o).
Definition open_elem (o : opened) : elem := Elem (fst (fst o)) (attrs_of (snd (fst o))) (map dom_of (snd o)).

Lemma open_unfold : forall g a f, open_events (g, a, f) = EStart g a :: flat_map written f.
Proof. reflexivity. Qed.
Lemma open_elem_unfold : forall g a f, open_elem (g, a, f) = Elem g (attrs_of a) (map dom_of f).
Proof. reflexivity. Qed.
Lemma feed_opened : forall os st, st <> [] -> feed (flat_map open_events os) st = Ok (rev (map open_elem os) ++ st).
Proof.
  induction os as [|[[g a] f] os IH]; intros st N; [reflexivity|].
  cbn [flat_map]. rewrite open_unfold. cbn [app feed handle bind]. rewrite feed_forest. cbn [app]. rewrite IH by discriminate.
  cbn [map rev open_elem fst snd]. rewrite <- app_assoc. reflexivity.
Qed.
(** what the stack says about the events so far *)
Definition tells (l : list event) (f : list tree) (os : list opened) : Prop := l = flat_map written f ++ flat_map open_events os.
Definition stack_of (f : list tree) (os : list opened) : list elem := rev (map open_elem os) ++ [Elem (lit "root") [] (map dom_of f)].

Lemma flat_map_snoc : forall A B (f : A -> list B) l x, flat_map f (l ++ [x]) = flat_map f l ++ f x.
Proof. intros. rewrite flat_map_app. cbn. rewrite app_nil_r. reflexivity. Qed.

Lemma feed_tells : forall l st, feed l [root] = Ok st -> exists f os, tells l f os /\ st = stack_of f os.
Proof.
  intros l. induction l as [|e l IH] using rev_ind; intros st H.
  - injection H as <-. exists [], []. split; reflexivity.
  - rewrite feed_app in H. destruct (feed l [root]) as [st0|] eqn:F; [|discriminate]. cbn [bind feed] in H.
    destruct (IH st0 eq_refl) as (f & os & T & ->). destruct (handle e (stack_of f os)) as [st1|] eqn:HD; [|discriminate]. injection H as <-.
    unfold tells in *. subst l. destruct e as [g a|g|d]; cbn [handle] in HD.
    + injection HD as <-. exists f, (os ++ [(g, a, [])]). split.
      * rewrite flat_map_snoc, app_assoc. reflexivity.
      * unfold stack_of. rewrite map_app, rev_app_distr. reflexivity.
    + revert HD. destruct os as [|o os _] using rev_ind.
      * cbn [stack_of map rev app]. destruct (str_eqb _ g); discriminate.
      * unfold stack_of. rewrite map_app, rev_app_distr. cbn [map rev app]. destruct o as [[g' a'] f']. cbn [open_elem fst snd e_tag].
        destruct (str_eqb g' g) eqn:E; [|discriminate]. apply str_eqb_eq in E. subst g'. destruct os as [|o os _] using rev_ind.
        -- cbn [map rev app add_child]. intros HD. injection HD as <-. exists (f ++ [Node g a' f']), []. split.
           ++ rewrite flat_map_snoc. cbn [flat_map app]. rewrite ?open_unfold. cbn [written]. rewrite !app_nil_r, <- app_assoc. reflexivity.
           ++ unfold stack_of. cbn [map rev app]. rewrite map_app. reflexivity.
        -- rewrite map_app, rev_app_distr. destruct o as [[g2 a2] f2]. cbn [map rev app open_elem fst snd add_child]. intros HD. injection HD as <-.
           exists f, (os ++ [(g2, a2, f2 ++ [Node g a' f'])]). split.
           ++ rewrite !flat_map_snoc, !open_unfold, flat_map_snoc. cbn [written]. rewrite <- !app_assoc. cbn [app]. rewrite <- ?app_assoc. reflexivity.
           ++ unfold stack_of. rewrite map_app, rev_app_distr. cbn [map rev app]. rewrite !open_elem_unfold, map_app. reflexivity.
    + destruct os as [|o os _] using rev_ind.
      * cbn in HD. injection HD as <-. exists (f ++ [Text d]), []. split; [rewrite flat_map_snoc; cbn; rewrite !app_nil_r; reflexivity|].
        unfold stack_of. cbn [map rev app]. rewrite map_app. reflexivity.
      * unfold stack_of in HD. rewrite map_app, rev_app_distr in HD. destruct o as [[g2 a2] f2]. cbn [map rev app open_elem fst snd add_child] in HD. injection HD as <-.
        exists f, (os ++ [(g2, a2, f2 ++ [Text d])]). split.
        -- rewrite !flat_map_snoc, !open_unfold, flat_map_snoc. cbn [written]. rewrite <- !app_assoc. cbn [app]. reflexivity.
        -- unfold stack_of. rewrite map_app, rev_app_distr. cbn [map rev app]. rewrite !open_elem_unfold, map_app. reflexivity.
Qed.
Lemma last_snoc : forall A (l : list A) x d, last (l ++ [x]) d = x.
Proof. induction l as [|y [|z l] IH]; intros; cbn in *; auto. Qed.

(** ** the lookup *)
Fixpoint find_all (m : elem -> bool) (e : elem) : list elem :=
  match e with Elem _ _ c => (if m e then [e] else []) ++ List.concat (rev (map (find_all m) c)) end.
Fixpoint find_roots (m : elem -> bool) (e : elem) : list elem :=
  match e with Elem _ _ c => if m e then [e] else List.concat (rev (map (find_roots m) c)) end.

Lemma size_rev : forall l, list_sum (map elem_size (rev l)) = list_sum (map elem_size l).
Proof. induction l as [|x r IH]; [reflexivity|]. cbn [rev]. rewrite map_app, list_sum_app, IH. unfold list_sum. cbn [map fold_right]. lia. Qed.
Lemma flat_map_rev : forall A B (f : A -> list B) l, flat_map f (rev l) = List.concat (rev (map f l)).
Proof. intros. rewrite <- map_rev. apply flat_map_concat_map. Qed.
Lemma lookup_all : forall n m nodes, list_sum (map elem_size nodes) < n -> lookup n m false nodes = flat_map (find_all m) nodes.
Proof.
  induction n as [|n IH]; intros m nodes L; [lia|]. destruct nodes as [|[g a c] r]; [reflexivity|].
  cbn [map list_sum elem_size fold_right] in L. unfold list_sum in L. cbn [fold_right] in L. fold (list_sum (map elem_size c)) in L. fold (list_sum (map elem_size r)) in L.
  assert (LL : list_sum (map elem_size (rev c ++ r)) < n) by (rewrite map_app, list_sum_app, size_rev; lia).
  cbn [lookup e_children flat_map find_all]. destruct (m (Elem g a c)); cbn [app]; rewrite (IH _ _ LL), flat_map_app, flat_map_rev; reflexivity.
Qed.
Lemma lookup_roots : forall n m nodes, list_sum (map elem_size nodes) < n -> lookup n m true nodes = flat_map (find_roots m) nodes.
Proof.
  induction n as [|n IH]; intros m nodes L; [lia|]. destruct nodes as [|[g a c] r]; [reflexivity|].
  cbn [map list_sum elem_size fold_right] in L. unfold list_sum in L. cbn [fold_right] in L. fold (list_sum (map elem_size c)) in L. fold (list_sum (map elem_size r)) in L.
  assert (LL : list_sum (map elem_size (rev c ++ r)) < n) by (rewrite map_app, list_sum_app, size_rev; lia).
  assert (LR : list_sum (map elem_size r) < n) by lia.
  cbn [lookup e_children flat_map find_roots]. destruct (m (Elem g a c)); cbn [app]; [rewrite (IH _ _ LR); reflexivity|rewrite (IH _ _ LL), flat_map_app, flat_map_rev; reflexivity].
Qed.
Lemma do_lookup_all : forall m e, do_lookup m false e = find_all m e.
Proof. intros. unfold do_lookup. rewrite lookup_all; [cbn; apply app_nil_r|cbn; lia]. Qed.
Lemma do_lookup_roots : forall m e, do_lookup m true e = find_roots m e.
Proof. intros. unfold do_lookup. rewrite lookup_roots; [cbn; apply app_nil_r|cbn; lia]. Qed.

(** ** the branches *)
Fixpoint branches (e : elem) : list (list elem) :=
  match e with Elem _ _ c => [e] :: map (cons e) (List.concat (map branches c)) end.
(** the same with the last child first *)
Fixpoint rbranches (e : elem) : list (list elem) :=
  match e with Elem _ _ c => [e] :: map (cons e) (List.concat (rev (map rbranches c))) end.
Fixpoint suffixes {A} (l : list A) : list (list A) := match l with [] => [[]] | _ :: r => l :: suffixes r end.
(** the matchers hold, in this order, along the branch, the last one at its end; one element may satisfy several *)
Fixpoint along (ms : list (elem -> bool)) (path : list elem) : bool :=
  match ms with
  | [] => false
  | [m] => match path with [] => false | x :: _ => m (last path x) end
  | m :: rest => existsb (fun s => match s with [] => false | x :: _ => m x && along rest s end) (suffixes path)
  end.
Definition tip (path : list elem) : elem := last path root.

Lemma last_default : forall A (l : list A) d d', l <> [] -> last l d = last l d'.
Proof. induction l as [|x [|y l] IH]; intros; [contradiction|reflexivity|]. cbn in *. apply IH. discriminate. Qed.
Lemma along_cons : forall rest x q, q <> [] -> along rest q = true -> along rest (x :: q) = true.
Proof.
  intros [|m [|m' rest]] x q N H; [discriminate| |].
  - cbn [along] in *. destruct q as [|y q]; [contradiction|]. change (last (x :: y :: q) x) with (last (y :: q) x). rewrite (last_default _ (y :: q) x y) by discriminate. exact H.
  - cbn [along suffixes existsb] in *. rewrite H. apply orb_true_r.
Qed.
Lemma suffixes_in : forall rest p s, In s (suffixes p) -> s <> [] -> along rest s = true -> along rest p = true.
Proof.
  induction p as [|x p IH]; intros s I N H; cbn in I.
  - destruct I as [<-|[]]; contradiction.
  - destruct I as [<-|I]; [exact H|]. destruct p as [|y p]; [cbn in I; destruct I as [<-|[]]; contradiction|].
    apply along_cons; [discriminate|]. eapply IH; eauto.
Qed.
Lemma along_many : forall m rest p, rest <> [] -> along (m :: rest) p = existsb (fun s => match s with [] => false | x :: _ => m x && along rest s end) (suffixes p).
Proof. intros m [|m' rest] p N; [contradiction|reflexivity]. Qed.
Lemma along_hit : forall m rest e q, rest <> [] -> m e = true -> along (m :: rest) (e :: q) = along rest (e :: q).
Proof.
  intros m rest e q N H. rewrite along_many by exact N. cbn [suffixes existsb]. rewrite H. cbn [andb].
  destruct (along rest (e :: q)) eqn:A; cbn [orb]; [reflexivity|].
  apply not_true_iff_false. intros E. apply existsb_exists in E. destruct E as ([|x s] & I & E); [discriminate|]. apply andb_true_iff in E as [_ E].
  rewrite (suffixes_in rest (e :: q) (x :: s)) in A; [discriminate| |discriminate|exact E]. cbn. right. exact I.
Qed.
Lemma along_miss : forall m rest e q, rest <> [] -> m e = false -> along (m :: rest) (e :: q) = along (m :: rest) q.
Proof. intros m rest e q N H. rewrite !along_many by exact N. cbn [suffixes existsb]. rewrite H. reflexivity. Qed.
Lemma rbranches_nonempty : forall e p, In p (rbranches e) -> p <> [].
Proof. intros [g a c] p I. cbn in I. destruct I as [<-|I]; [discriminate|]. apply in_map_iff in I as (q & <- & _). discriminate. Qed.
Lemma rbranches_head : forall e p, In p (rbranches e) -> exists q, p = e :: q.
Proof. intros [g a c] p I. cbn in I. destruct I as [<-|I]; [exists []; reflexivity|]. apply in_map_iff in I as (q & <- & _). exists q. reflexivity. Qed.

Definition hits (ms : list (elem -> bool)) (e : elem) : list elem := map tip (filter (along ms) (rbranches e)).

Lemma concat_rev_map_ext : forall A B (f g : A -> list B) l, Forall (fun x => f x = g x) l -> List.concat (rev (map f l)) = List.concat (rev (map g l)).
Proof. intros A B f g l F. f_equal. f_equal. induction F; cbn; congruence. Qed.
Lemma map_filter_concat : forall A B C (t : B -> C) (P : B -> bool) (f : A -> list B) l,
  map t (filter P (List.concat (rev (map f l)))) = List.concat (rev (map (fun x => map t (filter P (f x))) l)).
Proof.
  intros. rewrite <- !map_rev. induction (rev l) as [|x r IH]; [reflexivity|]. cbn. rewrite filter_app, map_app, IH. reflexivity.
Qed.
Lemma filter_map_cons : forall (P : list elem -> bool) (Q : list elem -> bool) e l, (forall q, In q l -> P (e :: q) = Q q) -> (forall q, In q l -> q <> []) ->
  map tip (filter P (map (cons e) l)) = map tip (filter Q l).
Proof.
  intros P Q e l H N. induction l as [|q l IH]; [reflexivity|]. cbn. rewrite (H q (or_introl eq_refl)).
  assert (NQ : q <> []) by (apply N; left; reflexivity).
  destruct (Q q); cbn; rewrite IH; try reflexivity; try (intros; apply H; right; assumption); try (intros; apply N; right; assumption).
  f_equal. unfold tip. destruct q; [contradiction|reflexivity].
Qed.
Lemma in_concat_rev : forall c q, In q (List.concat (rev (map rbranches c))) -> exists x, In x c /\ In q (rbranches x).
Proof. intros c q I. rewrite <- map_rev in I. apply in_concat in I as (l & I & J). apply in_map_iff in I as (x & <- & I). exists x. split; [apply in_rev; exact I|exact J]. Qed.

Lemma find_all_hits : forall m e, find_all m e = hits [m] e.
Proof.
  intros m. induction e as [g a c IH] using elem_ind'. unfold hits. cbn [find_all rbranches filter along last]. fold (along [m]).
  assert (K : map tip (filter (along [m]) (map (cons (Elem g a c)) (List.concat (rev (map rbranches c))))) = List.concat (rev (map (find_all m) c))).
  { rewrite (filter_map_cons _ (along [m])).
    - rewrite map_filter_concat. symmetry. apply concat_rev_map_ext. exact IH.
    - intros q I. destruct (in_concat_rev _ _ I) as (x & _ & J). destruct (rbranches_head _ _ J) as (q' & ->). cbn [along].
      change (last (Elem g a c :: x :: q') (Elem g a c)) with (last (x :: q') (Elem g a c)). rewrite (last_default _ (x :: q') (Elem g a c) x) by discriminate. reflexivity.
    - intros q I. destruct (in_concat_rev _ _ I) as (x & _ & J). eapply rbranches_nonempty; eauto. }
  destruct (m (Elem g a c)); cbn [app map]; [|symmetry; exact K]. f_equal. symmetry. exact K.
Qed.
Lemma roots_hits : forall m rest e, rest <> [] -> flat_map (hits rest) (find_roots m e) = hits (m :: rest) e.
Proof.
  intros m rest e N. induction e as [g a c IH] using elem_ind'. set (e := Elem g a c) in *. assert (FR : find_roots m e = if m e then [e] else List.concat (rev (map (find_roots m) c))) by reflexivity. rewrite FR. clear FR. destruct (m e) eqn:M.
  - cbn [flat_map]. rewrite app_nil_r. unfold hits. f_equal. apply filter_ext_in. intros p I. destruct (rbranches_head _ _ I) as (q & ->). symmetry. apply along_hit; assumption.
  - unfold hits. unfold e. cbn [rbranches]. fold e. cbn [filter]. rewrite along_miss by assumption.
    assert (Z : along (m :: rest) [] = false) by (destruct rest; [contradiction|reflexivity]). rewrite Z.
    rewrite (filter_map_cons _ (along (m :: rest))).
    + rewrite map_filter_concat. change (fun x => map tip (filter (along (m :: rest)) (rbranches x))) with (hits (m :: rest)). rewrite <- (concat_rev_map_ext _ _ _ _ _ IH). rewrite <- !map_rev, flat_map_concat_map. induction (rev c) as [|x r IHr]; [reflexivity|]. cbn. rewrite map_app, concat_app, IHr, flat_map_concat_map. reflexivity.
    + intros q _. apply along_miss; assumption.
    + intros q I. destruct (in_concat_rev _ _ I) as (x & _ & J). eapply rbranches_nonempty; eauto.
Qed.
Lemma select_hits : forall ms e, ms <> [] -> select ms e = Ok (hits ms e).
Proof.
  induction ms as [|m rest IH]; intros e N; [contradiction|]. destruct rest as [|m' rest].
  - cbn [select]. rewrite do_lookup_all, find_all_hits. reflexivity.
  - set (ms' := m' :: rest) in *. rewrite <- roots_hits by discriminate. rewrite <- do_lookup_roots.
    change (select (m :: ms') e) with ((fix each (l : list elem) : res (list elem) := match l with [] => Ok [] | x :: r => do a <- select ms' x; do b <- each r; Ok (a ++ b) end) (do_lookup m true e)).
    induction (do_lookup m true e) as [|x r IHr]; [reflexivity|]. rewrite IH by discriminate. cbn [bind]. rewrite IHr. reflexivity.
Qed.

Lemma perm_concat_rev : forall A (l : list (list A)), Permutation (List.concat (rev l)) (List.concat l).
Proof. induction l as [|x l IH]; [reflexivity|]. cbn. rewrite concat_app. cbn. rewrite app_nil_r, Permutation_app_comm. apply Permutation_app_head. exact IH. Qed.
Lemma rbranches_perm : forall e, Permutation (rbranches e) (branches e).
Proof.
  induction e as [g a c IH] using elem_ind'. cbn. constructor. apply Permutation_map. rewrite perm_concat_rev. induction IH; cbn; [constructor|apply Permutation_app; assumption].
Qed.
Lemma filter_perm : forall A (P : A -> bool) l l', Permutation l l' -> Permutation (filter P l) (filter P l').
Proof. intros A P l l' H. induction H; cbn; [constructor|destruct (P x); [constructor|]; assumption|destruct (P x), (P y); try reflexivity; constructor|etransitivity; eassumption]. Qed.
