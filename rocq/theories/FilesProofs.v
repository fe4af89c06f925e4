From Coq Require Import String Ascii List Bool NArith Arith Lia.
From Verif Require Import Base BaseFacts FsModel FsFacts FilesModel.
Import ListNotations.
Open Scope string_scope.
Open Scope nat_scope.
Open Scope list_scope.
Open Scope bool_scope.

(** names a directory entry can have *)
Definition plain (n : str) : Prop := n <> [] /\ ~ In "/"%char n.
(** follow a relative path, outermost component first, from a directory *)
Fixpoint walk (from : path) (steps : list str) : path :=
  match steps with
  | [] => from
  | s :: r => walk (if str_eqb s ".." then tl from else s :: from) r
  end.
Lemma walk_app : forall a b from, walk from (a ++ b) = walk (walk from a) b.
Proof. induction a as [|s a IH]; intros b from; [reflexivity|]. cbn [app walk]. apply IH. Qed.
Lemma walk_up : forall k from, walk from (repeat (lit "..") k) = skipn k from.
Proof.
  induction k as [|k IH]; intros from; [reflexivity|]. cbn [repeat walk]. rewrite str_eqb_refl, IH. destruct from; cbn; [apply skipn_nil|reflexivity].
Qed.
Lemma walk_down : forall r from, ~ In (lit "..") r -> walk from r = rev r ++ from.
Proof.
  induction r as [|s r IH]; intros from H; [reflexivity|]. cbn [walk]. destruct (str_eqb s (lit "..")) eqn:E.
  - apply str_eqb_eq in E. subst. exfalso. apply H. left. reflexivity.
  - rewrite IH; [|intro X; apply H; right; exact X]. cbn [rev]. rewrite <- app_assoc. reflexivity.
Qed.
Lemma in_parents : forall p q, In q (parents p) <-> exists c r, p = c :: r ++ q.
Proof.
  induction p as [|c p IH]; intro q; cbn.
  - split; [contradiction|]. intros (c & r & H). discriminate.
  - rewrite IH. split.
    + intros [<-|(d & r & ->)]; [exists c, []; reflexivity|exists c, (d :: r); reflexivity].
    + intros (d & r & H). injection H as -> ->. destruct r as [|d' r]; [left; reflexivity|right; exists d', r; reflexivity].
Qed.
Lemma loop_spec : forall p dps fuel back, In [] dps -> length p <= fuel ->
  exists k, path_to_loop fuel p dps back = Some (skipn k p, k + back) /\ In (skipn k p) dps /\
    forall j, j < k -> ~ In (skipn j p) dps.
Proof.
  intros p dps. induction p as [|c p IH]; intros fuel back H L.
  - exists 0. destruct fuel; cbn [path_to_loop]; (rewrite (proj2 (path_mem_iff [] dps) H); split; [reflexivity|split; [exact H|intros; lia]]).
  - destruct fuel as [|fuel]; [cbn in L; lia|]. cbn [path_to_loop]. destruct (path_mem (c :: p) dps) eqn:M.
    + exists 0. split; [reflexivity|]. split; [apply path_mem_iff, M|intros; lia].
    + destruct (IH fuel (S back) H) as (k & E & I & J); [cbn in L; lia|]. exists (S k). cbn [parent tl skipn]. rewrite E. split; [f_equal; f_equal; lia|].
      split; [exact I|]. intros [|j] Hj; [cbn; intro X; apply path_mem_iff in X; congruence|]. cbn. apply J. lia.
Qed.
Lemma path_to_ok : forall source dest, dest <> [] -> ~ In (lit "..") dest ->
  exists r, path_to (length source) source dest = Some r /\ walk source r = dest /\
    (exists up down, r = repeat (lit "..") up ++ down /\ ~ In (lit "..") down).
Proof.
  intros source dest ND NU. unfold path_to.
  assert (R : In [] (parents dest)) by (apply in_parents; destruct dest as [|c d]; [congruence|exists c, d; rewrite app_nil_r; reflexivity]).
  destruct (loop_spec source (parents dest) (length source) 0 R (le_n _)) as (k & E & I & _). rewrite E, Nat.add_0_r.
  apply in_parents in I. destruct I as (c & r & Hd). rewrite Hd. change (c :: r ++ skipn k source) with ((c :: r) ++ skipn k source). rewrite rel_to_app.
  assert (NR : ~ In (lit "..") (rev (c :: r))).
  { intro X. apply NU. rewrite Hd. apply in_rev in X. apply (in_app_iff (c :: r)). left. exact X. }
  eexists. split; [reflexivity|]. split.
  - rewrite walk_app, walk_up, walk_down by exact NR. rewrite rev_involutive. reflexivity.
  - eexists _, _. split; [reflexivity|exact NR].
Qed.
Lemma path_to_root_loops : forall fuel source, path_to fuel source [] = None.
Proof.
  intros fuel source. unfold path_to. cbn [parents].
  assert (H : forall fuel p b, path_to_loop fuel p [] b = None) by (induction fuel0 as [|f IH]; intros; cbn; [reflexivity|apply IH]).
  rewrite H. reflexivity.
Qed.

(** ** String prefixes *)
Lemma cut_first : forall (c : ascii) a b x y, ~ In c a -> ~ In c b -> a ++ c :: x = b ++ c :: y -> a = b /\ x = y.
Proof.
  induction a as [|h a IH]; intros [|k b] x y Ha Hb E; cbn in E.
  - injection E as E. auto.
  - injection E as <- E. exfalso. apply Hb. left. reflexivity.
  - injection E as -> E. exfalso. apply Ha. left. reflexivity.
  - injection E as <- E. destruct (IH b x y) as [-> ->]; auto; intro X; [apply Ha|apply Hb]; right; exact X.
Qed.
Lemma prefix_cut : forall (c : ascii) n w s t, ~ In c n -> n ++ s = w ++ c :: t -> exists x, w = n ++ x.
Proof.
  induction n as [|h n IH]; intros w s t Hn E; [exists w; reflexivity|]. destruct w as [|k w]; cbn in E.
  - exfalso. apply Hn. left. congruence.
  - injection E as <- E. destruct (IH w s t) as [x ->]; [intro X; apply Hn; right; exact X|exact E|]. exists x. reflexivity.
Qed.
Lemma join_cons : forall w w' l, join (lit "/") (w :: w' :: l) = w ++ "/"%char :: join (lit "/") (w' :: l).
Proof. reflexivity. Qed.
Lemma join_prefix : forall Q0 n P s, Forall plain (Q0 ++ [n]) -> Forall plain P -> join (lit "/") P = join (lit "/") (Q0 ++ [n]) ++ s ->
  exists x r, P = Q0 ++ (n ++ x) :: r.
Proof.
  induction Q0 as [|m Q0 IH]; intros n P s FQ FP E; cbn [app] in *.
  - inversion FQ as [|? ? [N1 N2] _]; subst. change (join (lit "/") [n]) with n in E. destruct P as [|w [|w' P]].
    + cbn in E. destruct n; [congruence|discriminate].
    + change (join (lit "/") [w]) with w in E. exists s, []. rewrite E. reflexivity.
    + rewrite join_cons in E. symmetry in E. apply prefix_cut in E; [|exact N2]. destruct E as [x ->]. exists x, (w' :: P). reflexivity.
  - inversion FQ as [|? ? [N1 N2] FQ']; subst. assert (E2 : exists (a : str) (l : list str), Q0 ++ [n] = a :: l) by (destruct Q0; cbn; eauto). destruct E2 as (a & l & E2).
    rewrite E2, join_cons, <- E2 in E. rewrite <- app_assoc in E. cbn [app] in E. destruct P as [|w [|w' P]].
    + cbn in E. destruct m; discriminate.
    + inversion FP as [|? ? [W1 W2] _]; subst. change (join (lit "/") [w]) with w in E. exfalso. apply W2. rewrite E. apply in_app_iff. right. left. reflexivity.
    + inversion FP as [|? ? [W1 W2] FP']; subst. rewrite join_cons in E. apply cut_first in E; [|exact W2|exact N2]. destruct E as [-> E].
      destruct (IH n (w' :: P) s FQ' FP' E) as (x & r & ->). exists x, r. reflexivity.
Qed.
Lemma join_snoc_prefix : forall (Q0 : list str) (n x : str) (r : list str), exists s, join (lit "/") (Q0 ++ (n ++ x) :: r) = join (lit "/") (Q0 ++ [n]) ++ s.
Proof.
  induction Q0 as [|m Q0 IH]; intros n x r; cbn [app].
  - destruct r as [|w r]; [exists x; reflexivity|]. rewrite join_cons. change (join (lit "/") [n]) with n. rewrite <- app_assoc. eauto.
  - destruct (IH n x r) as [s E]. assert (E2 : exists (a : str) (l : list str), Q0 ++ [n] = a :: l) by (destruct Q0; cbn; eauto). destruct E2 as (a & l & E2).
    assert (E3 : exists (a : str) (l : list str), Q0 ++ (n ++ x) :: r = a :: l) by (destruct Q0; cbn; eauto). destruct E3 as (a' & l' & E3).
    exists s. rewrite E2, E3. rewrite !join_cons, <- E2, <- E3, E, <- app_assoc. reflexivity.
Qed.
Lemma is_relative_to_iff : forall p n q, Forall plain p -> Forall plain (n :: q) ->
  is_relative_to p (n :: q) = true <-> exists x r, p = r ++ (n ++ x) :: q.
Proof.
  intros p n q FP FQ. unfold is_relative_to, path_str. cbn [starts_with]. rewrite Ascii.eqb_refl. cbn [andb]. rewrite starts_with_iff. cbn [rev].
  assert (FR : Forall plain (rev p)) by (apply Forall_rev, FP).
  assert (FQ' : Forall plain (rev q ++ [n])) by (change (rev q ++ [n]) with (rev (n :: q)); apply Forall_rev, FQ). split.
  - intros [s E]. destruct (join_prefix _ _ _ _ FQ' FR E) as (x & r & H). exists x, (rev r). rewrite <- (rev_involutive p), H, rev_app_distr. cbn [rev].
    rewrite rev_involutive, <- app_assoc. reflexivity.
  - intros (x & r & ->). rewrite rev_app_distr. cbn [rev]. rewrite <- app_assoc. cbn [app]. apply join_snoc_prefix.
Qed.
Lemma is_relative_to_under : forall p q, Forall plain p -> Forall plain q -> under q p = true -> is_relative_to p q = true.
Proof.
  intros p [|n q] FP FQ H; [unfold is_relative_to, path_str; destruct (rev p); reflexivity|]. apply is_relative_to_iff; [exact FP|exact FQ|].
  apply under_iff in H. destruct H as [r ->]. exists [], r. rewrite app_nil_r. reflexivity.
Qed.
Lemma name_ext : forall n, name_without_ext n ++ extension_of n = n.
Proof. induction n as [|c n IH]; [reflexivity|]. cbn. destruct (Ascii.eqb c "."); cbn; [reflexivity|rewrite IH; reflexivity]. Qed.
Lemma no_dot : forall n, ~ In "."%char (name_without_ext n).
Proof.
  induction n as [|c n IH]; cbn; [auto|]. destruct (Ascii.eqb c ".") eqn:E; [auto|]. intros [H|H]; [subst; rewrite Ascii.eqb_refl in E; discriminate|auto].
Qed.
