From Coq Require Import String Ascii List Bool NArith Arith Lia.
From Verif Require Import Base BaseFacts FsModel FsFacts FilesModel InstallModel.
Import ListNotations.
Open Scope nat_scope.
Open Scope list_scope.
Open Scope bool_scope.

Lemma drop_lookup : forall f p q, lookup (drop_pycache f p) q = if is_dir f (pycache p) && under (pycache p) q then None else lookup f q.
Proof. intros f p q. unfold drop_pycache. destruct (is_dir f (pycache p)); [apply lookup_remove_tree|reflexivity]. Qed.
Lemma in_without : forall p q s, In q (without p s) <-> In q s /\ q <> p.
Proof. intros p q s. unfold without. rewrite filter_In, negb_true_iff. split; intros [A B]; (split; [exact A|]); [apply path_eqb_neq, B|apply path_eqb_neq; exact B]. Qed.
Lemma under_parent : forall d p, under d (parent p) = true -> under d p = true.
Proof. intros d [|c p] H; [exact H|]. cbn [parent tl] in H. apply (under_trans d p (c :: p) H). apply under_cons. Qed.
Definition above (s : list path) (d : path) : Prop := exists q, In q s /\ under d q = true.
Lemma above_without : forall p s d, above (without p s) d -> above s d.
Proof. intros p s d (q & I & U). apply in_without in I. exists q. split; [apply I|exact U]. Qed.
Lemma above_rmdir : forall p s d, In p s -> above (parent p :: without (parent p) (without p s)) d -> above s d.
Proof.
  intros p s d IP (q & [<-|I] & U); [exists p; split; [exact IP|apply under_parent, U]|]. apply in_without in I. destruct I as [I _]. apply in_without in I. exists q. split; [apply I|exact U].
Qed.
Lemma clean_sub : forall site f s f', clean site f s f' -> forall p n, lookup f' p = Some n -> lookup f p = Some n.
Proof.
  intros site f s f' H. induction H as [f|f s p f' I E H IH|f s p f' I E EM H IH|f s p f' I E EM H IH]; intros q n L; auto.
  - specialize (IH q n L). rewrite drop_lookup in IH. destruct (_ && _); [discriminate|exact IH].
  - specialize (IH q n L). rewrite lookup_remove in IH. destruct (path_eqb q p); [discriminate|]. rewrite drop_lookup in IH. destruct (_ && _); [discriminate|exact IH].
Qed.
Lemma clean_files : forall site f s f', clean site f s f' -> forall q c, lookup f q = Some (File c) ->
  (forall d, above s d -> eligible site d = true -> under (pycache d) q = false) -> lookup f' q = Some (File c).
Proof.
  intros site f s f' H. induction H as [f|f s p f' I E H IH|f s p f' I E EM H IH|f s p f' I E EM H IH]; intros q c L HP; auto.
  - apply IH; [exact L|]. intros d A. apply HP. exact (above_without p s d A).
  - apply IH; [|intros d A; apply HP; exact (above_without p s d A)]. rewrite drop_lookup, (HP p); [rewrite andb_false_r; exact L|exists p; split; [exact I|apply under_refl]|exact E].
  - assert (L1 : lookup (drop_pycache f p) q = Some (File c)).
    { rewrite drop_lookup, (HP p); [rewrite andb_false_r; exact L|exists p; split; [exact I|apply under_refl]|exact E]. }
    apply IH; [|intros d A; apply HP; exact (above_rmdir p s d I A)]. rewrite lookup_remove. destruct (path_eqb q p) eqn:EQ; [|exact L1].
    exfalso. apply path_eqb_eq in EQ. subst q. apply is_empty_directory_true in EM. destruct EM as [EM _]. congruence.
Qed.
Lemma clean_dirs : forall site f s f', clean site f s f' -> forall d, lookup f d = Some Dir -> lookup f' d = None ->
  (exists e, above s e /\ eligible site e = true /\ under (pycache e) d = true) \/ (above s d /\ eligible site d = true /\ forall c, lookup f' (c :: d) = None).
Proof.
  intros site f s f' H. induction H as [f|f s p f' I E H IH|f s p f' I E EM H IH|f s p f' I E EM H IH]; intros d L N.
  - congruence.
  - destruct (IH d L N) as [(e & A & B & C)|(A & B)]; [left; exists e; split; [exact (above_without p s e A)|auto]|right; split; [exact (above_without p s d A)|exact B]].
  - destruct (under (pycache p) d) eqn:U.
    + left. exists p. split; [exists p; split; [exact I|apply under_refl]|]. auto.
    + destruct (IH d) as [(e & A & B & C)|(A & B)]; [rewrite drop_lookup, U, andb_false_r; exact L|exact N|left; exists e; split; [exact (above_without p s e A)|auto]|right; split; [exact (above_without p s d A)|exact B]].
  - destruct (under (pycache p) d) eqn:U; [left; exists p; split; [exists p; split; [exact I|apply under_refl]|auto]|].
    destruct (path_eqb d p) eqn:EQ.
    + apply path_eqb_eq in EQ. subst d. right. split; [exists p; split; [exact I|apply under_refl]|]. split; [exact E|]. intro c. destruct (lookup f' (c :: p)) as [n|] eqn:LC; [|reflexivity]. exfalso.
      apply is_empty_directory_true in EM. destruct EM as [_ EM]. pose proof (clean_sub _ _ _ _ H _ _ LC) as LS. rewrite lookup_remove in LS. destruct (path_eqb (c :: p) p); [discriminate|]. rewrite EM in LS. discriminate.
    + destruct (IH d) as [(e & A & B & C)|(A & B)]; [rewrite lookup_remove, EQ, drop_lookup, U, andb_false_r; exact L|exact N|left; exists e; split; [exact (above_rmdir p s e I A)|auto]|right; split; [exact (above_rmdir p s d I A)|exact B]].
Qed.
Lemma not_empty_iff : forall f q, is_empty_directory f q = false <-> lookup f q <> Some Dir \/ exists c, lookup f (c :: q) <> None.
Proof.
  intros f q. split.
  - intro H. destruct (is_dir f q) eqn:D.
    + right. unfold is_empty_directory in H. rewrite D in H. cbn [andb] in H.
      assert (X : exists e, In e f /\ is_child q (fst e) = true).
      { clear D. induction f as [|e f IH]; [discriminate|]. cbn [forallb] in H. apply andb_false_iff in H. destruct H as [H|H]; [exists e; split; [left; reflexivity|apply negb_false_iff, H]|]. destruct (IH H) as (e' & I & C). exists e'. split; [right; exact I|exact C]. }
      destruct X as ([p n] & I & C). apply is_child_iff in C. destruct C as (c & C). cbn in C. subst p. exists c. exact (in_lookup _ _ _ I).
    + left. intro L. apply is_dir_true in L. congruence.
  - intro H. destruct (is_empty_directory f q) eqn:E; [|reflexivity]. exfalso. apply is_empty_directory_true in E. destruct E as [E1 E2]. destruct H as [H|(c & H)]; [exact (H E1)|exact (H (E2 c))].
Qed.
Lemma clean_no_empty : forall site f s f', clean site f s f' -> forall q, eligible site q = true -> (In q s \/ is_empty_directory f q = false) -> is_empty_directory f' q = false.
Proof.
  intros site f s f' H. induction H as [f|f s p f' I E H IH|f s p f' I E EM H IH|f s p f' I E EM H IH]; intros q EQ HQ.
  - destruct HQ as [[]|HQ]. exact HQ.
  - apply IH; [exact EQ|]. destruct HQ as [HQ|HQ]; [left; apply in_without; split; [exact HQ|congruence]|right; exact HQ].
  - apply IH; [exact EQ|]. destruct (path_eqb q p) eqn:QP; [apply path_eqb_eq in QP; subst; right; exact EM|]. apply path_eqb_neq in QP. destruct HQ as [HQ|HQ]; [left; apply in_without; auto|right].
    apply not_empty_iff in HQ. apply not_empty_iff. rewrite !drop_lookup. destruct (is_dir f (pycache p) && under (pycache p) q) eqn:U; [left; discriminate|]. destruct HQ as [HQ|(c & HQ)]; [left; exact HQ|]. right. exists c. rewrite drop_lookup.
    destruct (is_dir f (pycache p)); [|exact HQ]. cbn [andb] in *. destruct (under (pycache p) (c :: q)) eqn:UC; [|exact HQ]. exfalso. apply under_cons_cases in UC. destruct UC as [UC|UC]; [injection UC as _ ->; apply QP; reflexivity|congruence].
  - apply IH; [exact EQ|]. destruct (path_eqb q (parent p)) eqn:QPP; [apply path_eqb_eq in QPP; subst; left; left; reflexivity|]. apply path_eqb_neq in QPP.
    destruct (path_eqb q p) eqn:QP.
    + right. apply not_empty_iff. left. rewrite lookup_remove, QP. discriminate.
    + assert (QN : q <> p) by (apply path_eqb_neq; exact QP). destruct HQ as [HQ|HQ]; [left; right; apply in_without; split; [apply in_without; auto|exact QPP]|right].
      apply not_empty_iff in HQ. apply not_empty_iff. rewrite lookup_remove, QP, drop_lookup. destruct (is_dir f (pycache p) && under (pycache p) q) eqn:U; [left; discriminate|]. destruct HQ as [HQ|(c & HQ)]; [left; exact HQ|]. right. exists c.
      rewrite lookup_remove. destruct (path_eqb (c :: q) p) eqn:CP; [apply path_eqb_eq in CP; subst p; exfalso; apply QPP; reflexivity|]. rewrite drop_lookup.
      destruct (is_dir f (pycache p)); [|exact HQ]. cbn [andb] in *. destruct (under (pycache p) (c :: q)) eqn:UC; [|exact HQ]. exfalso. apply under_cons_cases in UC. destruct UC as [UC|UC]; [injection UC as _ ->; apply QN; reflexivity|congruence].
Qed.

(** unlinking *)
Lemma unlink_all_spec : forall ps f f', unlink_all f ps = Ok f' ->
  (forall p, In p ps -> lookup f' p = None) /\ (forall p, ~ In p ps -> lookup f' p = lookup f p) /\ (forall p, lookup f p = Some Dir -> lookup f' p = Some Dir).
Proof.
  induction ps as [|p ps IH]; intros f f' H; cbn [unlink_all] in H.
  - injection H as <-. split; [intros q []|split; auto].
  - unfold unlink in H. destruct (lookup f p) as [[c|]|] eqn:L; cbn [bind] in H; [|discriminate|].
    + destruct (IH _ _ H) as (A & B & C). split; [|split].
      * intros q [<-|I]; [|apply A, I]. destruct (in_dec (list_eq_dec (list_eq_dec ascii_dec)) p ps) as [I|I]; [apply A, I|]. rewrite B by exact I. rewrite lookup_remove, path_eqb_refl. reflexivity.
      * intros q NI. rewrite B by (intro X; apply NI; right; exact X). rewrite lookup_remove. destruct (path_eqb q p) eqn:E; [apply path_eqb_eq in E; subst; exfalso; apply NI; left; reflexivity|reflexivity].
      * intros q LQ. apply C. rewrite lookup_remove. destruct (path_eqb q p) eqn:E; [apply path_eqb_eq in E; subst; congruence|exact LQ].
    + destruct (IH _ _ H) as (A & B & C). split; [|split].
      * intros q [<-|I]; [|apply A, I]. destruct (in_dec (list_eq_dec (list_eq_dec ascii_dec)) p ps) as [I|I]; [apply A, I|]. rewrite B by exact I. exact L.
      * intros q NI. apply B. intro X. apply NI. right. exact X.
      * exact C.
Qed.

(** the whole removal *)
Lemma removal_gone : forall di rs f f', removal di rs f f' -> forall p, In p (installed_files di rs) \/ under di p = true -> lookup f' p = None.
Proof.
  intros di rs f f' (f1 & f2 & U & C & ->) p H. rewrite lookup_remove_tree. destruct (under di p) eqn:E; [reflexivity|]. destruct H as [H|H]; [|discriminate].
  destruct (lookup f2 p) as [n|] eqn:L; [|reflexivity]. pose proof (clean_sub _ _ _ _ C _ _ L) as L1. rewrite (proj1 (unlink_all_spec _ _ _ U) p H) in L1. discriminate.
Qed.
Lemma removal_files : forall di rs f f', removal di rs f f' -> forall p c, lookup f p = Some (File c) ->
  ~ In p (installed_files di rs) -> under di p = false ->
  (forall d q, In q (installed_files di rs) -> under d (parent q) = true -> eligible (parent di) d = true -> under (pycache d) p = false) ->
  lookup f' p = Some (File c).
Proof.
  intros di rs f f' (f1 & f2 & U & C & ->) p c L NI UD HP. rewrite lookup_remove_tree, UD. apply (clean_files _ _ _ _ C).
  - rewrite (proj1 (proj2 (unlink_all_spec _ _ _ U)) p NI). exact L.
  - intros d (q & I & UQ) EL. apply in_map_iff in I. destruct I as (r & <- & I). exact (HP d r I UQ EL).
Qed.
Lemma removal_dirs : forall di rs f f', removal di rs f f' -> forall d, lookup f d = Some Dir -> lookup f' d = None ->
  under di d = true \/
  (exists e q, In q (installed_files di rs) /\ under e (parent q) = true /\ eligible (parent di) e = true /\ under (pycache e) d = true) \/
  (exists q, In q (installed_files di rs) /\ under d (parent q) = true /\ eligible (parent di) d = true /\ forall c, lookup f' (c :: d) = None).
Proof.
  intros di rs f f' (f1 & f2 & U & C & ->) d L N. rewrite lookup_remove_tree in N. destruct (under di d) eqn:UD; [left; reflexivity|]. right.
  pose proof (proj2 (proj2 (unlink_all_spec _ _ _ U)) d L) as L1. destruct (clean_dirs _ _ _ _ C d L1 N) as [(e & (q & I & A) & B & D)|((q & I & A) & B & D)]; apply in_map_iff in I; destruct I as (r & <- & I).
  - left. exists e, r. auto.
  - right. exists r. repeat split; auto. intro c. rewrite lookup_remove_tree. destruct (under di (c :: d)); auto.
Qed.
Lemma removal_no_empty : forall di rs f f', removal di rs f f' -> forall q, eligible (parent di) q = true -> is_empty_directory f q = false -> is_empty_directory f' q = false.
Proof.
  intros di rs f f' (f1 & f2 & U & C & ->) q EL NE. destruct (unlink_all_spec _ _ _ U) as (A & B & D).
  assert (H2 : is_empty_directory f2 q = false).
  { apply (clean_no_empty _ _ _ _ C q EL). apply not_empty_iff in NE. destruct NE as [NE|(c & NE)].
    - right. apply not_empty_iff. left. destruct (in_dec (list_eq_dec (list_eq_dec ascii_dec)) q (installed_files di rs)) as [I|I]; [rewrite A by exact I; discriminate|rewrite B by exact I; exact NE].
    - destruct (in_dec (list_eq_dec (list_eq_dec ascii_dec)) (c :: q) (installed_files di rs)) as [I|I].
      + left. apply in_map_iff. exists (c :: q). auto.
      + right. apply not_empty_iff. right. exists c. rewrite B by exact I. exact NE. }
  apply not_empty_iff in H2. apply not_empty_iff. rewrite lookup_remove_tree. destruct (under di q) eqn:UQ; [left; discriminate|]. destruct H2 as [H2|(c & H2)]; [left; exact H2|]. right. exists c. rewrite lookup_remove_tree.
  destruct (under di (c :: q)) eqn:UC; [|exact H2]. exfalso. apply under_cons_cases in UC. destruct UC as [UC|UC]; [|congruence]. subst di. cbn [parent tl] in EL. unfold eligible in EL. rewrite path_eqb_refl in EL. discriminate.
Qed.
(** the loop ends, whatever the order *)
Lemma filter_len : forall A (f : A -> bool) l, length (filter f l) <= length l.
Proof. intros A f l. induction l as [|x l IH]; [auto|]. cbn. destruct (f x); cbn; lia. Qed.
Lemma filter_shorter : forall A (f : A -> bool) l x, In x l -> f x = false -> length (filter f l) < length l.
Proof.
  intros A f l x I E. induction l as [|y l IH]; [contradiction|]. cbn. destruct I as [->|I].
  - rewrite E. pose proof (filter_len A f l). lia.
  - specialize (IH I). destruct (f y); cbn; lia.
Qed.
Lemma without_shorter : forall p s, In p s -> length (without p s) < length s.
Proof. intros p s I. apply (filter_shorter _ _ _ p I). rewrite path_eqb_refl. reflexivity. Qed.
Lemma clean_total : forall site n m f s, length f <= n -> length s <= m -> exists f', clean site f s f'.
Proof.
  intros site n. induction n as [n IHn] using lt_wf_ind. intro m. induction m as [m IHm] using lt_wf_ind. intros f s LF LS.
  destruct s as [|p s]; [exists f; apply clean_done|]. assert (IP : In p (p :: s)) by (left; reflexivity). pose proof (without_shorter p (p :: s) IP) as WS.
  assert (LD : length (drop_pycache f p) <= length f).
  { unfold drop_pycache, remove_tree, keep. destruct (is_dir f (pycache p)); [apply filter_len|lia]. }
  destruct (eligible site p) eqn:E.
  - destruct (is_empty_directory (drop_pycache f p) p) eqn:EM.
    + assert (LR : length (remove_path (drop_pycache f p) p) < length (drop_pycache f p)).
      { apply is_empty_directory_true in EM. destruct EM as [EM _]. apply lookup_in in EM. apply (filter_shorter _ _ _ (p, Dir) EM). cbn. rewrite path_eqb_refl. reflexivity. }
      destruct (IHn (length (remove_path (drop_pycache f p) p)) ltac:(lia) (length (parent p :: without (parent p) (without p (p :: s)))) (remove_path (drop_pycache f p) p) (parent p :: without (parent p) (without p (p :: s)))) as (f' & C); [lia|lia|].
      exists f'. exact (clean_rmdir site f (p :: s) p f' IP E EM C).
    + destruct (IHm (length (without p (p :: s))) ltac:(lia) (drop_pycache f p) (without p (p :: s))) as (f' & C); [lia|lia|]. exists f'. exact (clean_keep site f (p :: s) p f' IP E EM C).
  - destruct (IHm (length (without p (p :: s))) ltac:(lia) f (without p (p :: s))) as (f' & C); [lia|lia|]. exists f'. exact (clean_skip site f (p :: s) p f' IP E C).
Qed.
(** without recorded directories there is a removal *)
Lemma removal_exists : forall di rs f, (forall p, In p (installed_files di rs) -> is_dir f p = false) -> exists f', removal di rs f f'.
Proof.
  intros di rs f H. assert (U : forall ps g, (forall p, In p ps -> is_dir g p = false) -> exists g', unlink_all g ps = Ok g').
  { induction ps as [|p ps IH]; intros g HG; [exists g; reflexivity|]. cbn [unlink_all]. unfold unlink. pose proof (HG p (or_introl eq_refl)) as HP. unfold is_dir in HP. destruct (lookup g p) as [[c|]|] eqn:L; [|discriminate|]; cbn [bind].
    - apply IH. intros q I. unfold is_dir. rewrite lookup_remove. destruct (path_eqb q p); [reflexivity|]. exact (HG q (or_intror I)).
    - apply IH. intros q I. exact (HG q (or_intror I)). }
  destruct (U _ f H) as (f1 & E1). destruct (clean_total (parent di) (length f1) _ f1 (map parent (installed_files di rs)) (le_n _) (le_n _)) as (f2 & C).
  exists (remove_tree f2 di), f1, f2. auto.
Qed.
