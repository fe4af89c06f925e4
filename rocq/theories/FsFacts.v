From Coq Require Import String Ascii List Bool NArith Arith Lia.
From Verif Require Import Base BaseFacts FsModel.
Import ListNotations.
Open Scope nat_scope.
Open Scope list_scope.
Open Scope bool_scope.

Lemma path_eqb_eq : forall a b, path_eqb a b = true <-> a = b.
Proof. apply list_eqb_eq, str_eqb_eq. Qed.
Lemma path_eqb_refl : forall a, path_eqb a a = true.
Proof. intro a. apply path_eqb_eq. reflexivity. Qed.
Lemma path_eqb_neq : forall a b, path_eqb a b = false <-> a <> b.
Proof.
  intros a b. destruct (path_eqb a b) eqn:E; split; intro H; try reflexivity; try discriminate.
  - apply path_eqb_eq in E. contradiction.
  - intro X. apply path_eqb_eq in X. congruence.
Qed.
Lemma path_eqb_sym : forall a b, path_eqb a b = path_eqb b a.
Proof. intros a b. destruct (path_eqb a b) eqn:E; symmetry; [apply path_eqb_eq; apply path_eqb_eq in E; auto|apply path_eqb_neq; apply path_eqb_neq in E; auto]. Qed.
Lemma path_mem_iff : forall p l, path_mem p l = true <-> In p l.
Proof.
  intros p l. unfold path_mem. rewrite existsb_exists. split.
  - intros (x & I & E). apply path_eqb_eq in E. subst. exact I.
  - intro I. exists p. split; [exact I|apply path_eqb_refl].
Qed.

Lemma under_iff : forall b p, under b p = true <-> exists r, p = r ++ b.
Proof.
  intros b p. unfold under. rewrite andb_true_iff, Nat.leb_le, path_eqb_eq. split.
  - intros [L E]. exists (firstn (length p - length b) p). rewrite <- E at 2. symmetry. apply firstn_skipn.
  - intros [r ->]. rewrite app_length. split; [lia|]. replace (length r + length b - length b) with (length r) by lia.
    rewrite skipn_app, skipn_all, Nat.sub_diag. reflexivity.
Qed.
Lemma under_false : forall b p, under b p = false <-> forall r, p <> r ++ b.
Proof.
  intros b p. split.
  - intros H r E. assert (under b p = true) by (apply under_iff; eauto). congruence.
  - intro H. destruct (under b p) eqn:E; [|reflexivity]. apply under_iff in E. destruct E as [r E]. exfalso. exact (H r E).
Qed.
Lemma under_refl : forall p, under p p = true.
Proof. intro p. apply under_iff. exists []. reflexivity. Qed.
Lemma under_trans : forall a b c, under a b = true -> under b c = true -> under a c = true.
Proof. intros a b c. rewrite !under_iff. intros [r ->] [s ->]. exists (s ++ r). rewrite app_assoc. reflexivity. Qed.
Lemma under_app : forall r p, under p (r ++ p) = true.
Proof. intros. apply under_iff. eauto. Qed.
Lemma under_cons : forall c p, under p (c :: p) = true.
Proof. intros. apply under_iff. exists [c]. reflexivity. Qed.
Lemma under_len : forall a b, under a b = true -> length a <= length b.
Proof. intros a b H. apply under_iff in H. destruct H as [r ->]. rewrite app_length. lia. Qed.
Lemma under_antisym : forall a b, under a b = true -> under b a = true -> a = b.
Proof.
  intros a b H1 H2. apply under_len in H2. apply under_iff in H1. destruct H1 as [r ->]. rewrite app_length in H2.
  destruct r; [reflexivity|cbn in H2; lia].
Qed.
(** two ancestors of a path are comparable *)
Lemma under_linear : forall a b p, under a p = true -> under b p = true -> under a b = true \/ under b a = true.
Proof.
  intros a b p. rewrite !under_iff. intros [r E1] [s E2]. subst p. revert s E2.
  induction r as [|x r IH]; intros s E2.
  - right. exists s. exact E2.
  - destruct s as [|y s]; [left; exists (x :: r); symmetry; exact E2|]. injection E2 as _ E2. exact (IH s E2).
Qed.
Lemma under_nil : forall p, under [] p = true.
Proof. intro p. apply under_iff. exists p. symmetry. apply app_nil_r. Qed.
Lemma under_cons_cases : forall b c p, under b (c :: p) = true -> b = c :: p \/ under b p = true.
Proof.
  intros b c p H. apply under_iff in H. destruct H as [[|x r] E]; [left; symmetry; exact E|]. injection E as _ ->. right. apply under_app.
Qed.
Lemma rel_to_app : forall r b, rel_to b (r ++ b) = r.
Proof.
  intros r b. unfold rel_to. rewrite app_length. replace (length r + length b - length b) with (length r + 0) by lia.
  rewrite firstn_app_2. cbn. apply app_nil_r.
Qed.

Lemma lookup_keep : forall q f p, lookup (keep q f) p = if q p then lookup f p else None.
Proof.
  intros q f p. unfold keep. induction f as [|[k n] f IH]; cbn [filter lookup fst]; [destruct (q p); reflexivity|].
  destruct (q k) eqn:E; cbn [lookup].
  - destruct (path_eqb p k) eqn:E2; [|exact IH]. apply path_eqb_eq in E2. subst. rewrite E. reflexivity.
  - rewrite IH. destruct (path_eqb p k) eqn:E2; [|reflexivity]. apply path_eqb_eq in E2. subst. rewrite E. reflexivity.
Qed.
Lemma lookup_remove : forall f p q, lookup (remove_path f p) q = if path_eqb q p then None else lookup f q.
Proof. intros. unfold remove_path. rewrite lookup_keep. destruct (path_eqb q p); reflexivity. Qed.
Lemma lookup_remove_tree : forall f p q, lookup (remove_tree f p) q = if under p q then None else lookup f q.
Proof. intros. unfold remove_tree. rewrite lookup_keep. destruct (under p q); reflexivity. Qed.
Lemma lookup_write : forall f p n q, lookup (write f p n) q = if path_eqb q p then Some n else lookup f q.
Proof. intros. unfold write. cbn [lookup]. destruct (path_eqb q p) eqn:E; [reflexivity|]. rewrite lookup_remove, E. reflexivity. Qed.
Lemma lookup_app : forall a b p, lookup (a ++ b) p = match lookup a p with Some n => Some n | None => lookup b p end.
Proof. intros a b p. induction a as [|[k n] a IH]; [reflexivity|]. cbn. destruct (path_eqb p k); [reflexivity|exact IH]. Qed.
Lemma lookup_in : forall f p n, lookup f p = Some n -> In (p, n) f.
Proof.
  induction f as [|[k m] f IH]; intros p n H; [discriminate|]. cbn in H. destruct (path_eqb p k) eqn:E.
  - apply path_eqb_eq in E. injection H as ->. subst. left. reflexivity.
  - right. apply IH, H.
Qed.
Lemma in_lookup : forall f p n, In (p, n) f -> lookup f p <> None.
Proof.
  induction f as [|[k m] f IH]; intros p n I; [destruct I|]. cbn. destruct (path_eqb p k) eqn:E; [discriminate|].
  destruct I as [X|I]; [|eapply IH, I]. injection X as -> ->. rewrite path_eqb_refl in E. discriminate.
Qed.
Lemma lookup_tree_at : forall f p r, lookup (tree_at f p) r = lookup f (r ++ p).
Proof.
  intros f p r. unfold tree_at. transitivity (lookup (keep (under p) f) (r ++ p)); [|rewrite lookup_keep, under_app; reflexivity].
  unfold keep. induction f as [|[k n] f IH]; [reflexivity|]. cbn [filter fst]. destruct (under p k) eqn:U; [|exact IH].
  cbn [map lookup fst snd]. apply under_iff in U. destruct U as [s ->]. rewrite rel_to_app.
  replace (path_eqb (r ++ p) (s ++ p)) with (path_eqb r s); [destruct (path_eqb r s); [reflexivity|exact IH]|].
  destruct (path_eqb r s) eqn:E; symmetry.
  - apply path_eqb_eq. apply path_eqb_eq in E. subst. reflexivity.
  - apply path_eqb_neq. apply path_eqb_neq in E. intro X. apply E. apply app_inv_tail in X. exact X.
Qed.
Lemma lookup_graft : forall f p t q,
  lookup (graft f p t) q = if under p q then match lookup t (rel_to p q) with Some n => Some n | None => lookup f q end else lookup f q.
Proof.
  intros f p t q. unfold graft. rewrite lookup_app.
  assert (G : lookup (map (fun e => (fst e ++ p, snd e)) t) q = if under p q then lookup t (rel_to p q) else None).
  { induction t as [|[k n] t IH]; [destruct (under p q); reflexivity|]. cbn [map lookup fst snd]. rewrite IH.
    destruct (path_eqb q (k ++ p)) eqn:E.
    - apply path_eqb_eq in E. subst q. rewrite under_app, rel_to_app. rewrite path_eqb_refl. reflexivity.
    - destruct (under p q) eqn:U; [|reflexivity]. apply under_iff in U. destruct U as [r ->]. rewrite rel_to_app.
      destruct (path_eqb r k) eqn:E2; [|reflexivity]. apply path_eqb_eq in E2. subst. rewrite path_eqb_refl in E. discriminate. }
  rewrite G. destruct (under p q); [|reflexivity]. destruct (lookup t (rel_to p q)); reflexivity.
Qed.
Lemma exists_at_true : forall f p, exists_at f p = true <-> lookup f p <> None.
Proof. intros f p. unfold exists_at. destruct (lookup f p); cbn; split; congruence. Qed.
Lemma exists_at_false : forall f p, exists_at f p = false <-> lookup f p = None.
Proof. intros f p. unfold exists_at. destruct (lookup f p); cbn; split; congruence. Qed.
Lemma is_dir_true : forall f p, is_dir f p = true <-> lookup f p = Some Dir.
Proof. intros f p. unfold is_dir. destruct (lookup f p) as [[c|]|]; split; congruence. Qed.
Lemma is_file_true : forall f p, is_file f p = true <-> exists c, lookup f p = Some (File c).
Proof. intros f p. unfold is_file. destruct (lookup f p) as [[c|]|]; split; try congruence; try (intros [x H]; congruence). intros _. eauto. Qed.
Lemma is_child_iff : forall p q, is_child p q = true <-> exists c, q = c :: p.
Proof.
  intros p [|c q]; cbn.
  - split; [discriminate|]. intros [c H]. discriminate.
  - rewrite path_eqb_eq. split; [intros ->; eauto|]. intros [d H]. injection H; auto.
Qed.
Lemma is_empty_directory_true : forall f p, is_empty_directory f p = true <->
  lookup f p = Some Dir /\ forall c, lookup f (c :: p) = None.
Proof.
  intros f p. unfold is_empty_directory. rewrite andb_true_iff, is_dir_true, forallb_forall. split; intros [H1 H2]; (split; [exact H1|]).
  - intro c. destruct (lookup f (c :: p)) eqn:E; [|reflexivity]. apply lookup_in in E. specialize (H2 _ E). cbn in H2. rewrite path_eqb_refl in H2. discriminate.
  - intros [q n] I. cbn. apply negb_true_iff. destruct (is_child p q) eqn:C; [|reflexivity]. apply is_child_iff in C. destruct C as [c ->].
    apply in_lookup in I. exfalso. apply I, H2.
Qed.

(** a file system in which everything sits in a directory *)
Definition wf_fs (f : fs) : Prop := lookup f [] = Some Dir /\ forall c p, lookup f (c :: p) <> None -> lookup f p = Some Dir.
Lemma wf_above : forall f r p, wf_fs f -> lookup f (r ++ p) <> None -> r <> [] -> lookup f p = Some Dir.
Proof.
  intros f r p [_ W]. induction r as [|c r IH]; intros H N; [congruence|]. cbn in H. apply W in H. destruct r as [|d r]; [exact H|].
  apply IH; [rewrite H; discriminate|discriminate].
Qed.
Lemma wf_under : forall f b p, wf_fs f -> under b p = true -> lookup f p <> None -> lookup f b <> None.
Proof.
  intros f b p W U H. apply under_iff in U. destruct U as [r ->]. destruct r as [|c r]; [exact H|].
  rewrite (wf_above f (c :: r) b W H); discriminate.
Qed.
Definition same_fs (f g : fs) : Prop := forall p, lookup f p = lookup g p.
