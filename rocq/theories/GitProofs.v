(** Proofs about GitModel. *)
From Coq Require Import String Ascii List Bool NArith Arith Lia.
From Verif Require Import Base BaseFacts ParserModel ParserFacts UrlModel HttpProofs FsModel FsFacts CollectionProofs GitModel.
Import ListNotations.
Open Scope string_scope.
Open Scope nat_scope.
Open Scope list_scope.
Open Scope bool_scope.

Lemma make_dirs_lookup : forall f p q, lookup (make_dirs f p) q =
  match lookup f q with Some n => Some n | None => if under q p && negb (path_eqb q []) then Some Dir else None end.
Proof.
  intros f p q. induction p as [|c p IH]; cbn [make_dirs].
  - destruct (lookup f q); [reflexivity|]. destruct (under q []) eqn:U; [|reflexivity]. apply under_len in U. destruct q; [reflexivity|cbn in U; lia].
  - assert (N : under q (c :: p) && negb (path_eqb q []) = (path_eqb q (c :: p) || under q p && negb (path_eqb q []))).
    { destruct (path_eqb q (c :: p)) eqn:E; [apply path_eqb_eq in E; subst q; rewrite under_refl; reflexivity|]. cbn [orb]. f_equal. destruct (under q p) eqn:U.
      - apply under_iff in U as (r & ->). apply (under_app (c :: r)).
      - destruct (under q (c :: p)) eqn:V; [|reflexivity]. apply under_cons_cases in V as [->|V]; [rewrite path_eqb_refl in E; discriminate|congruence]. }
    rewrite N. destruct (exists_at (make_dirs f p) (c :: p)) eqn:X.
    + rewrite IH. destruct (lookup f q) eqn:L; [reflexivity|]. destruct (path_eqb q (c :: p)) eqn:E; [|reflexivity]. apply path_eqb_eq in E. subst q. cbn [orb]. apply exists_at_true in X. rewrite IH in X. destruct (under (c :: p) p) eqn:U; [apply under_len in U; cbn in U; lia|]. cbn in X. congruence.
    + rewrite lookup_write. destruct (path_eqb q (c :: p)) eqn:E; [|cbn [orb]; exact IH]. apply path_eqb_eq in E. subst q. apply exists_at_false in X. rewrite IH in X. destruct (lookup f (c :: p)); [discriminate|reflexivity].
Qed.
(** ** Joining *)
Definition straight (t : str) : Prop := ~ In (lit "..") (components t).
Lemma descend_straight : forall l p, ~ In (lit "..") l -> fold_left descend l p = rev l ++ p.
Proof.
  induction l as [|c l IH]; intros p N; [reflexivity|]. cbn [fold_left]. rewrite IH by (intro I; apply N; right; exact I). unfold descend. destruct (str_eqb c "..") eqn:E; [apply str_eqb_eq in E; subst c; exfalso; apply N; left; reflexivity|]. cbn [rev]. rewrite <- app_assoc. reflexivity.
Qed.
Lemma join_relative : forall p t, straight t -> starts_with (lit "/") t = false -> join_path p t = rev (components t) ++ p.
Proof. intros p t S R. unfold join_path. rewrite R. apply descend_straight, S. Qed.
Lemma lstrip_relative : forall t, starts_with (lit "/") (lstrip_slash t) = false.
Proof.
  intro t. unfold lstrip_slash. induction t as [|c t IH]; [reflexivity|]. cbn [span]. destruct (Ascii.eqb "/" c) eqn:E.
  - destruct (span (Ascii.eqb "/") t) as [a b] eqn:Q. cbn [snd] in *. exact IH.
  - cbn [snd]. change (starts_with (lit "/") (c :: t)) with (Ascii.eqb "/" c && true). rewrite E. reflexivity.
Qed.

(** ** What git checks out *)
(** the tree of a checkout: HEAD is a file with a plain text, and there is no directory .git/heads (branches are in .git/refs) *)
Definition git_layout (t : fs) : Prop := lookup t [] = Some Dir /\
  exists h, lookup t [lit "HEAD"; lit ".git"] = Some (File h) /\ straight h /\ starts_with (lit "/") h = false /\ forall p, lookup t (p ++ [lit "heads"; lit ".git"]) = None.
Lemma layout_kept : forall pull f d, git_layout (tree_at f d) -> update pull f d = (f, Ok tt).
Proof.
  intros pull f d (R & h & H & S & A & N). unfold update, is_detached. rewrite lookup_tree_at in H. cbn [app] in H. rewrite H. rewrite join_relative by assumption.
  specialize (N (rev (components h))). rewrite lookup_tree_at, <- app_assoc in N. cbn [app] in N. apply exists_at_false in N. rewrite N. reflexivity.
Qed.
Lemma layout_same : forall a b, (forall p, lookup a p = lookup b p) -> git_layout a -> git_layout b.
Proof. intros a b E (R & h & H & S & A & N). split; [rewrite <- E; exact R|]. exists h. split; [rewrite <- E; exact H|]. split; [exact S|]. split; [exact A|]. intro p. rewrite <- E. apply N. Qed.
(** what is requested: the url, the branch and where it goes *)
Definition branch_of (b : option str) : option str := match b with Some [] => None | x => x end.
Definition aims (workspace : path) (r : str * str) (d : path) (u : str) (b : option str) : Prop :=
  exists x y, git_request (snd r) = Ok (x, y) /\ d = target_dir workspace (fst r) x y /\ u = show_url x /\ b = branch_of y.
Definition absent (f : fs) (d : path) : Prop := forall p, lookup f (p ++ d) = None.
Definition holds (f : fs) (d : path) (t : fs) : Prop := forall p, lookup f (p ++ d) = lookup t p.

Section Clone.
  Variable remote : str -> option str -> option fs.
  Lemma clone_cases : forall f u b d, absent f d ->
    let r := clone remote f u b d in
    (snd r = Ok tt /\ exists t, remote u (branch_of b) = Some t /\ fst r = graft (make_dirs f (tl d)) d t) \/
    (snd r = Err IOErr /\ (fst r = f \/ absent (fst r) d /\ forall q, under d q = false -> lookup (fst r) q = lookup (make_dirs f (tl d)) q)).
  Proof.
    intros f u b d A. cbn zeta. unfold clone. destruct (file_above f (tl d)); [right; split; [reflexivity|left; reflexivity]|].
    assert (G : forall g, absent (remove_tree g d) d) by (intros g p; rewrite lookup_remove_tree, under_app; reflexivity).
    destruct (remote u None) as [t|] eqn:R.
    - destruct b as [[|c b]|]; cbn [branch_of].
      + left. split; [reflexivity|]. exists t. split; [exact R|reflexivity].
      + destruct (remote u (Some (c :: b))) as [t'|] eqn:R'.
        * left. split; [reflexivity|]. exists t'. split; [exact R'|reflexivity].
        * right. split; [reflexivity|right]. split; [apply G|]. intros q U. cbn [fst]. rewrite lookup_remove_tree, U, lookup_graft, U. reflexivity.
      + left. split; [reflexivity|]. exists t. split; [exact R|reflexivity].
    - right. split; [reflexivity|right]. split; [apply G|]. intros q U. cbn [fst]. rewrite lookup_remove_tree, U. reflexivity.
  Qed.
  Lemma graft_holds : forall f d t, absent f d -> d <> [] -> holds (graft (make_dirs f (tl d)) d t) d t.
  Proof.
    intros f d t A N p. rewrite lookup_graft, under_app, rel_to_app. destruct (lookup t p) eqn:E; [reflexivity|]. rewrite make_dirs_lookup, A. destruct (under (p ++ d) (tl d)) eqn:U; [|reflexivity].
    apply under_len in U. rewrite app_length in U. destruct d as [|c d]; [congruence|]. cbn in U. lia.
  Qed.
End Clone.
(** another place, that is not below and not above *)
Lemma elsewhere : forall d d2 p, under d d2 = false -> under d2 d = false -> under d (p ++ d2) = false.
Proof. intros d d2 p A B. destruct (under d (p ++ d2)) eqn:U; [|reflexivity]. destruct (under_linear d d2 _ U (under_app p d2)) as [X|X]; congruence. Qed.
Lemma dirs_elsewhere : forall f d d2 p, under d2 d = false -> lookup (make_dirs f (tl d)) (p ++ d2) = lookup f (p ++ d2).
Proof.
  intros f d d2 p B. rewrite make_dirs_lookup. destruct (lookup f (p ++ d2)); [reflexivity|]. destruct (under (p ++ d2) (tl d)) eqn:U; [|reflexivity]. exfalso.
  assert (X : under d2 d = true); [|congruence]. apply (under_trans d2 (p ++ d2) d); [apply under_app|]. apply (under_trans _ (tl d)); [exact U|]. destruct d as [|c d]; [reflexivity|apply under_cons].
Qed.

(** ** Requests one after the other *)
Section Fetch.
  Variable remote : str -> option str -> option fs.
  Variable pull : fs -> path -> res fs.
  Variable workspace : path.
  Variable R : list (str * str).
  Definition apart : Prop := forall a b d u x d' u' x', In a R -> In b R -> aims workspace a d u x -> aims workspace b d' u' x' -> under d d' = true -> d = d' /\ u = u' /\ x = x'.
  Definition proper_remote : Prop := forall u b t, remote u b = Some t -> git_layout t.
  Definition fine (f : fs) : Prop := forall r d u b, In r R -> aims workspace r d u b -> d <> [] /\ (absent f d \/ exists t, remote u b = Some t /\ holds f d t).
  Lemma fetch_fine : forall f name url, apart -> proper_remote -> In (name, url) R -> fine f -> fine (fst (fetch remote pull workspace f name url)) /\
    forall d, snd (fetch remote pull workspace f name url) = Ok d -> exists u b t, aims workspace (name, url) d u b /\ remote u b = Some t /\ holds (fst (fetch remote pull workspace f name url)) d t.
  Proof.
    intros f name url A P I F. unfold fetch. destruct (git_request url) as [[u y]|e] eqn:G; [|split; [exact F|discriminate]]. cbn zeta.
    set (d := target_dir workspace name u y). assert (M : aims workspace (name, url) d (show_url u) (branch_of y)) by (exists u, y; auto). destruct (F _ _ _ _ I M) as [NE [AB|(t & T & H)]].
    - assert (E : exists_at f d = false) by (apply exists_at_false; apply (AB [])). rewrite E. cbn [fst snd]. destruct (clone_cases remote f (show_url u) y d AB) as [[S (t & T & X)]|[S X]].
      + rewrite S, X. cbn [bind]. assert (HH := graft_holds f d t AB NE). split.
        * intros r d' u' b' J M'. destruct (F r d' u' b' J M') as [NE' K]. split; [exact NE'|]. destruct (under d d') eqn:U.
          { destruct (A _ _ _ _ _ _ _ _ I J M M' U) as (<- & <- & <-). right. exists t. split; [exact T|exact HH]. }
          destruct (under d' d) eqn:U'; [destruct (A _ _ _ _ _ _ _ _ J I M' M U') as (-> & _ & _); rewrite under_refl in U; discriminate|].
          assert (Q : forall p, lookup (graft (make_dirs f (tl d)) d t) (p ++ d') = lookup f (p ++ d')) by (intro p; rewrite lookup_graft, elsewhere by assumption; apply dirs_elsewhere, U').
          destruct K as [K|(t' & T' & K)]; [left|right; exists t'; split; [exact T'|]]; intro p; rewrite Q; apply K.
        * intros d0 D. injection D as <-. exists (show_url u), (branch_of y), t. auto.
      + rewrite S. cbn [bind]. split; [|discriminate]. destruct X as [->|[X1 X2]]; [exact F|]. intros r d' u' b' J M'. destruct (F r d' u' b' J M') as [NE' K]. split; [exact NE'|]. destruct (under d d') eqn:U.
        { destruct (A _ _ _ _ _ _ _ _ I J M M' U) as (<- & <- & <-). left. exact X1. }
        destruct (under d' d) eqn:U'; [destruct (A _ _ _ _ _ _ _ _ J I M' M U') as (-> & _ & _); rewrite under_refl in U; discriminate|].
        assert (Q : forall p, lookup (fst (clone remote f (show_url u) y d)) (p ++ d') = lookup f (p ++ d')) by (intro p; rewrite X2 by (apply elsewhere; assumption); apply dirs_elsewhere, U').
        destruct K as [K|(t' & T' & K)]; [left|right; exists t'; split; [exact T'|]]; intro p; rewrite Q; apply K.
    - assert (E : exists_at f d = true) by (apply exists_at_true; pose proof (H []) as H0; cbn [app] in H0; rewrite H0; destruct (P _ _ _ T) as [-> _]; discriminate). rewrite E.
      rewrite layout_kept by (apply (layout_same t); [intro p; rewrite lookup_tree_at; symmetry; apply H|exact (P _ _ _ T)]). cbn [fst snd bind]. split; [exact F|]. intros d0 D. injection D as <-. exists (show_url u), (branch_of y), t. auto.
  Qed.
  Lemma fetches_fine : apart -> proper_remote -> forall l f, (forall r, In r l -> In r R) -> fine f -> fine (fetches remote pull workspace f l).
  Proof.
    intros A P. induction l as [|[name url] l IH]; intros f I F; [exact F|]. cbn [fetches]. apply IH; [intros r J; apply I; right; exact J|]. apply fetch_fine; auto. apply I. left. reflexivity.
  Qed.
End Fetch.
