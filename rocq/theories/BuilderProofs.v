From Coq Require Import String Ascii List Bool NArith Arith Lia.
From Verif Require Import Base BaseFacts ParserModel FsModel FsFacts SharedModel SharedProofs ArtifactModel ArtifactProofs RecordFileModel RecordFileProofs GitModel PthModel BuilderModel RecordFileProps.
Import ListNotations.
Open Scope string_scope.
Open Scope nat_scope.
Open Scope list_scope.
Open Scope bool_scope.

Definition cached (q : path) : bool := existsb (str_eqb pycache) q.
Lemma lookup_pruned : forall f d q, lookup (pruned (tree_at f d)) q = if cached q then None else lookup f (q ++ d).
Proof. intros f d q. unfold pruned. rewrite lookup_keep, lookup_tree_at. unfold cached. destruct (existsb (str_eqb pycache) q); reflexivity. Qed.

(** ** mkdirs *)
Lemma exists_mkdirs : forall p f q, exists_at f q = true -> lookup (mkdirs f p) q = lookup f q.
Proof.
  induction p as [|c p IH]; intros f q H; [reflexivity|]. cbn [mkdirs]. destruct (exists_at (mkdirs f p) (c :: p)) eqn:E; [apply IH, H|].
  rewrite lookup_write. destruct (path_eqb q (c :: p)) eqn:Q; [|apply IH, H]. apply path_eqb_eq in Q. subst q. exfalso.
  apply exists_at_false in E. rewrite IH in E by exact H. apply exists_at_true in H. congruence.
Qed.
Lemma mkdirs_there : forall p f, p <> [] -> exists_at (mkdirs f p) p = true.
Proof.
  intros [|c p] f N; [congruence|]. cbn [mkdirs]. destruct (exists_at (mkdirs f p) (c :: p)) eqn:E; [exact E|].
  apply exists_at_true. rewrite lookup_write, path_eqb_refl. discriminate.
Qed.
Lemma lookup_mkdirs : forall p f q, lookup (mkdirs f p) q =
  match lookup f q with Some n => Some n | None => if under q p && negb (path_eqb q []) then Some Dir else None end.
Proof.
  induction p as [|c p IH]; intros f q.
  - cbn [mkdirs]. destruct (lookup f q) eqn:E; [reflexivity|]. destruct q as [|d q]; [rewrite andb_false_r; reflexivity|]. replace (under (d :: q) []) with false by reflexivity. reflexivity.
  - destruct (lookup f q) eqn:E; [transitivity (lookup f q); [apply exists_mkdirs; apply exists_at_true; congruence|exact E]|]. cbn [mkdirs].
    destruct (exists_at (mkdirs f p) (c :: p)) eqn:X.
    + rewrite IH, E. destruct (path_eqb q (c :: p)) eqn:Q.
      * apply path_eqb_eq in Q. subst q. apply exists_at_true in X. rewrite IH, E in X. destruct (under (c :: p) p) eqn:U; [apply under_len in U; cbn in U; lia|]. cbn [andb] in X. congruence.
      * apply path_eqb_neq in Q. f_equal. destruct (under q (c :: p)) eqn:U.
        -- apply under_cons_cases in U. destruct U as [U|U]; [congruence|]. rewrite U. reflexivity.
        -- destruct (under q p) eqn:U2; [|reflexivity]. pose proof (under_trans _ _ _ U2 (under_cons c p)). congruence.
    + rewrite lookup_write. destruct (path_eqb q (c :: p)) eqn:Q.
      * apply path_eqb_eq in Q. subst q. rewrite under_refl. reflexivity.
      * rewrite IH, E. apply path_eqb_neq in Q. f_equal. destruct (under q (c :: p)) eqn:U.
        -- apply under_cons_cases in U. destruct U as [U|U]; [congruence|]. rewrite U. reflexivity.
        -- destruct (under q p) eqn:U2; [|reflexivity]. pose proof (under_trans _ _ _ U2 (under_cons c p)). congruence.
Qed.
Definition unique (f : fs) : Prop := NoDup (map fst f).
Lemma unique_keep : forall q f, unique f -> unique (keep q f).
Proof. intros q f. unfold unique, keep. induction f as [|[k n] f IH]; intro U; [constructor|]. cbn in U. inversion U as [|? ? A B]; subst. cbn [filter fst]. destruct (q k); [|apply IH, B]. cbn. constructor; [|apply IH, B]. intro I. apply A. apply in_map_iff in I. destruct I as ([k' n'] & E & I). cbn in E. subst k'. apply filter_In in I. apply in_map_iff. exists (k, n'). split; [reflexivity|apply I]. Qed.
Lemma key_lookup : forall f p, In p (map fst f) <-> lookup f p <> None.
Proof.
  intros f p. split.
  - intro I. apply in_map_iff in I. destruct I as ([k n] & E & I). cbn in E. subst k. eapply in_lookup, I.
  - intro H. destruct (lookup f p) as [n|] eqn:E; [|congruence]. apply lookup_in in E. apply in_map_iff. exists (p, n). split; [reflexivity|exact E].
Qed.
Lemma unique_write : forall f p n, unique f -> unique (write f p n).
Proof. intros f p n U. unfold write, unique. cbn. constructor; [|apply unique_keep, U]. intro I. apply (proj1 (key_lookup (remove_path f p) p)) in I. rewrite lookup_remove, path_eqb_refl in I. congruence. Qed.
Lemma unique_mkdirs : forall p f, unique f -> unique (mkdirs f p).
Proof. induction p as [|c p IH]; intros f U; [exact U|]. cbn [mkdirs]. destruct (exists_at _ _); [apply IH, U|]. apply unique_write, IH, U. Qed.
Lemma unique_tree : forall f d, unique f -> unique (tree_at f d).
Proof.
  intros f d U. unfold tree_at. pose proof (unique_keep (under d) f U) as V. assert (A : forall e, In e (keep (under d) f) -> exists r, fst e = r ++ d).
  { intros e I. apply filter_In in I. apply under_iff. apply I. }
  unfold unique in *. rewrite map_map. cbn [fst]. induction (keep (under d) f) as [|e l IH]; [constructor|]. cbn in *. inversion V as [|? ? B C]; subst. constructor.
  - intro I. apply B. apply in_map_iff in I. destruct I as (e' & E & I). destruct (A e (or_introl eq_refl)) as (r & R). destruct (A e' (or_intror I)) as (r' & R'). rewrite R, R', !rel_to_app in E. subst r'. apply in_map_iff. exists e'. split; [congruence|exact I].
  - apply IH; [exact C|]. intros x X. apply A. right. exact X.
Qed.
Lemma nodup_app : forall A (a b : list A), NoDup a -> NoDup b -> (forall x, In x a -> ~ In x b) -> NoDup (a ++ b).
Proof. induction a as [|x a IH]; intros b N M D; [exact M|]. inversion N as [|? ? P Q]; subst. cbn. constructor; [|apply IH; [exact Q|exact M|intros y Y; apply D; right; exact Y]]. rewrite in_app_iff. intros [I|I]; [contradiction|]. exact (D x (or_introl eq_refl) I). Qed.
Lemma unique_graft : forall f p t, unique f -> unique t -> (forall q, under p q = true -> lookup f q = None) -> unique (graft f p t).
Proof.
  intros f p t U V H. unfold graft, unique. rewrite map_app, map_map. cbn [fst]. apply nodup_app.
  - assert (G : forall l : list path, NoDup l -> NoDup (map (fun k => k ++ p) l)).
    { induction l as [|k l IH]; intro L; [constructor|]. inversion L as [|? ? A B]; subst. cbn. constructor; [|apply IH, B]. intro I. apply in_map_iff in I. destruct I as (k' & E & I). apply app_inv_tail in E. subst. contradiction. }
    specialize (G _ V). rewrite map_map in G. exact G.
  - exact U.
  - intros x X I. apply in_map_iff in X. destruct X as (e & <- & _). apply (proj1 (key_lookup f (fst e ++ p))) in I. apply I, H. apply under_app.
Qed.

(** ** copying *)
Definition placed (dst d : path) : path := hd [] d :: dst.
(** nothing lies below a path that is free *)
Definition above (t : fs) : Prop := forall r p, lookup t (r ++ p) <> None -> lookup t p <> None.
Lemma above_free : forall t p q, above t -> exists_at t p = false -> under p q = true -> lookup t q = None.
Proof. intros t p q A E U. apply under_iff in U. destruct U as [r ->]. destruct (lookup t (r ++ p)) eqn:L; [|reflexivity]. exfalso. apply exists_at_false in E. apply (A r p); congruence. Qed.
Lemma cached_app : forall a b, cached (a ++ b) = cached a || cached b.
Proof. intros. apply existsb_app. Qed.
Lemma above_mkdirs : forall dst t, above t -> lookup t [] <> None -> above (mkdirs t dst).
Proof.
  intros dst t A N r p H. rewrite lookup_mkdirs in *. destruct (lookup t p) eqn:E; [discriminate|]. destruct (lookup t (r ++ p)) eqn:E2; [exfalso; apply (A r p); congruence|].
  destruct (under (r ++ p) dst) eqn:U; [|cbn in H; congruence]. rewrite (under_trans _ _ _ (under_app r p) U). destruct (path_eqb p []) eqn:P; [apply path_eqb_eq in P; subst; congruence|]. discriminate.
Qed.
Lemma lookup_copy : forall f t dst d q, lookup (graft t (placed dst d) (pruned (tree_at f d))) q =
  if under (placed dst d) q then match (if cached (rel_to (placed dst d) q) then None else lookup f (rel_to (placed dst d) q ++ d)) with Some n => Some n | None => lookup t q end else lookup t q.
Proof. intros. rewrite lookup_graft, lookup_pruned. reflexivity. Qed.
Lemma above_copy : forall f t dst d, wf_fs f -> above t -> lookup t dst <> None -> is_dir f d = true -> above (graft t (placed dst d) (pruned (tree_at f d))).
Proof.
  intros f t dst d W A N D r p H. apply is_dir_true in D. rewrite lookup_copy in *. destruct (under (placed dst d) p) eqn:U.
  - pose proof (under_trans _ _ _ U (under_app r p)) as U2. rewrite U2 in H. apply under_iff in U. destruct U as [s ->]. rewrite rel_to_app. replace (r ++ s ++ placed dst d) with ((r ++ s) ++ placed dst d) in H by apply app_assoc_reverse. rewrite rel_to_app in H. rewrite cached_app in H.
    destruct (cached s) eqn:C.
    + rewrite orb_true_r in H. rewrite <- app_assoc in H. apply A in H. exact H.
    + rewrite orb_false_r in H. destruct (lookup f (s ++ d)) eqn:L; [discriminate|]. assert (K : lookup f ((r ++ s) ++ d) = None).
      { destruct (lookup f ((r ++ s) ++ d)) eqn:Z; [|reflexivity]. exfalso. rewrite <- app_assoc in Z. assert (under (s ++ d) (r ++ s ++ d) = true) as X by apply under_app. apply (wf_under f _ _ W X); congruence. }
      rewrite K in H. assert (Y : lookup t ((r ++ s) ++ placed dst d) <> None) by (destruct (cached r); exact H). rewrite <- app_assoc in Y. apply A in Y. exact Y.
  - destruct (under (placed dst d) (r ++ p)) eqn:U2; [|apply A in H; exact H].
    (* p is above the place *)
    assert (X : under p dst = true).
    { destruct (under_linear p (placed dst d) (r ++ p) (under_app r p) U2) as [V|V]; [|congruence]. unfold placed in V. apply under_cons_cases in V. destruct V as [V|V]; [|exact V]. subst p. unfold placed in U. rewrite under_refl in U. discriminate. }
    apply under_iff in X. destruct X as [s X]. rewrite X in N. apply A in N. exact N.
Qed.
Lemma copy_spec : forall f dst dirs t t', wf_fs f -> above t -> lookup t [] <> None -> copy_packages f dst t dirs = Ok t' ->
  (forall d, In d dirs -> is_dir f d = true /\ exists_at t (placed dst d) = false) /\ NoDup (map (hd []) dirs) /\
  (forall d q, In d dirs -> lookup t' (q ++ placed dst d) = if cached q then None else lookup f (q ++ d)) /\
  (forall x, (forall d, In d dirs -> under (placed dst d) x = false) -> lookup t' x = match dirs with [] => lookup t x | _ :: _ => lookup (mkdirs t dst) x end) /\
  above t' /\ lookup t' [] <> None /\ (unique f -> unique t -> unique t').
Proof.
  intros f dst. induction dirs as [|d dirs IH]; intros t t' W A N H.
  - injection H as <-. split; [intros d []|]. split; [constructor|]. split; [intros d q []|]. split; [reflexivity|]. split; [exact A|]. split; [exact N|auto].
  - cbn [copy_packages] in H. destruct (is_dir f d) eqn:D; [|discriminate]. destruct (exists_at t (hd [] d :: dst)) eqn:E; [discriminate|]. change (hd [] d :: dst) with (placed dst d) in *.
    assert (A1 : above (mkdirs t dst)) by (apply above_mkdirs; assumption).
    assert (DD : lookup (mkdirs t dst) dst <> None) by (destruct dst as [|c dst]; [exact N|apply exists_at_true, mkdirs_there; discriminate]).
    set (t1 := graft (mkdirs t dst) (placed dst d) (pruned (tree_at f d))) in *.
    assert (A2 : above t1) by (apply above_copy; assumption).
    assert (N2 : lookup t1 [] <> None).
    { unfold t1. rewrite lookup_copy. replace (under (placed dst d) []) with false by reflexivity. rewrite lookup_mkdirs. destruct (lookup t []); congruence. }
    assert (F : forall q, under (placed dst d) q = true -> lookup (mkdirs t dst) q = None).
    { intros q U. apply (above_free (mkdirs t dst) (placed dst d) q A1); [|exact U]. apply exists_at_false. rewrite lookup_mkdirs. apply exists_at_false in E. rewrite E. destruct (under (placed dst d) dst) eqn:V; [apply under_len in V; cbn in V; lia|reflexivity]. }
    destruct (IH t1 t' W A2 N2 H) as (P1 & P2 & P3 & P4 & P5 & P6 & P7).
    assert (T1 : forall q, lookup t1 (q ++ placed dst d) = if cached q then None else lookup f (q ++ d)).
    { intro q. unfold t1. rewrite lookup_copy, under_app, rel_to_app. rewrite F by apply under_app. destruct (cached q); [reflexivity|]. destruct (lookup f (q ++ d)); reflexivity. }
    assert (O : forall x, under (placed dst d) x = false -> lookup t1 x = lookup (mkdirs t dst) x) by (intros x U; unfold t1; rewrite lookup_copy, U; reflexivity).
    assert (Q : forall d', In d' dirs -> hd [] d' <> hd [] d).
    { intros d' I X. destruct (P1 d' I) as [_ Y]. apply exists_at_false in Y. unfold placed in Y. rewrite X in Y. pose proof (T1 []) as Z. cbn in Z. unfold placed in Z. apply is_dir_true in D. congruence. }
    assert (R : forall d' x, In d' dirs -> under (placed dst d) x = true -> under (placed dst d') x = false).
    { intros d' x I U. destruct (under (placed dst d') x) eqn:V; [|reflexivity]. exfalso. destruct (under_linear _ _ _ U V) as [Z|Z]; unfold placed in Z; apply under_cons_cases in Z; destruct Z as [Z|Z]; try (injection Z as Z; apply (Q d' I); congruence); apply under_len in Z; cbn in Z; lia. }
    assert (M : forall x, lookup (mkdirs t1 dst) x = lookup t1 x).
    { intro x. rewrite lookup_mkdirs. destruct (lookup t1 x) eqn:L; [reflexivity|]. destruct (under x dst) eqn:U; [|reflexivity]. apply under_iff in U. destruct U as [r U]. destruct (path_eqb x []) eqn:X; [reflexivity|]. exfalso.
      assert (K : lookup t1 dst <> None).
      { rewrite O; [exact DD|]. destruct (under (placed dst d) dst) eqn:V; [apply under_len in V; cbn in V; lia|reflexivity]. }
      rewrite U in K. apply A2 in K. congruence. }
    split; [|split; [|split; [|split; [|split; [|split]]]]].
    + intros d' [<-|I]; [split; [exact D|exact E]|]. destruct (P1 d' I) as [X Y]. split; [exact X|]. apply exists_at_false in Y. apply exists_at_false.
      rewrite O in Y. { rewrite lookup_mkdirs in Y. destruct (lookup t (placed dst d')); congruence. }
      destruct (under (placed dst d) (placed dst d')) eqn:Z; [|reflexivity]. exfalso. unfold placed in Z. apply under_cons_cases in Z. destruct Z as [Z|Z]; [injection Z as Z; apply (Q d' I); congruence|]. apply under_len in Z. cbn in Z. lia.
    + cbn. constructor; [|exact P2]. intro I. apply in_map_iff in I. destruct I as (d' & X & I). exact (Q d' I X).
    + intros d' q [<-|I]; [|apply P3, I]. rewrite P4 by (intros d' I; apply (R d' _ I), under_app). destruct dirs; [|rewrite M]; apply T1.
    + intros x X. rewrite P4 by (intros d' I; apply X; right; exact I). destruct dirs; [|rewrite M]; apply O, X; left; reflexivity.
    + exact P5.
    + exact P6.
    + intros U V. apply P7; [exact U|]. apply unique_graft; [apply unique_mkdirs, V|apply unique_keep, unique_tree, U|exact F].
Qed.
(** copying works for different names that are free *)
Lemma copy_works : forall f dst dirs t, wf_fs f -> above t -> lookup t [] <> None ->
  (forall d, In d dirs -> is_dir f d = true /\ exists_at t (placed dst d) = false) -> NoDup (map (hd []) dirs) -> exists t', copy_packages f dst t dirs = Ok t'.
Proof.
  intros f dst. induction dirs as [|d dirs IH]; intros t W A N H U; [eexists; reflexivity|]. cbn [copy_packages]. destruct (H d (or_introl eq_refl)) as [D E]. rewrite D. change (hd [] d :: dst) with (placed dst d) in *. rewrite E.
  assert (A1 : above (mkdirs t dst)) by (apply above_mkdirs; assumption).
  assert (DD : lookup (mkdirs t dst) dst <> None) by (destruct dst as [|c dst]; [exact N|apply exists_at_true, mkdirs_there; discriminate]).
  apply IH.
  - exact W.
  - apply above_copy; assumption.
  - rewrite lookup_copy. replace (under (placed dst d) []) with false by reflexivity. rewrite lookup_mkdirs. destruct (lookup t []); congruence.
  - intros d' I. destruct (H d' (or_intror I)) as [D' E']. split; [exact D'|]. apply exists_at_false. rewrite lookup_copy.
    replace (under (placed dst d) (placed dst d')) with false.
    + rewrite lookup_mkdirs. apply exists_at_false in E'. rewrite E'. destruct (under (placed dst d') dst) eqn:V; [apply under_len in V; cbn in V; lia|reflexivity].
    + symmetry. destruct (under (placed dst d) (placed dst d')) eqn:Z; [|reflexivity]. exfalso. unfold placed in Z. apply under_cons_cases in Z. destruct Z as [Z|Z].
      * injection Z as Z. cbn in U. inversion U as [|? ? X _]; subst. apply X. apply in_map_iff. exists d'. split; [congruence|exact I].
      * apply under_len in Z. cbn in Z. lia.
  - cbn in U. inversion U. assumption.
Qed.

(** ** the texts of paths *)
Definition plain_names (f : fs) : Prop := forall p n c, In (p, n) f -> In c p -> ~ In "/"%char c.
Lemma rel_text_inj : forall a b, a <> [] -> b <> [] -> (forall c, In c a -> ~ In "/"%char c) -> (forall c, In c b -> ~ In "/"%char c) -> rel_text a = rel_text b -> a = b.
Proof.
  intros a b A B P Q E. unfold rel_text in E. assert (R : rev a = rev b).
  { rewrite <- (split_join "/"%char (rev a)), <- (split_join "/"%char (rev b)).
    - f_equal. exact E.
    - intro X. apply B. rewrite <- (rev_involutive b), X. reflexivity.
    - intros w W. apply Q. apply in_rev. exact W.
    - intro X. apply A. rewrite <- (rev_involutive a), X. reflexivity.
    - intros w W. apply P. apply in_rev. exact W. }
  rewrite <- (rev_involutive a), <- (rev_involutive b), R. reflexivity.
Qed.
(** ** wheels *)
Lemma above_graft : forall t s c dst, above t -> above s -> lookup s [] <> None -> lookup t dst <> None -> above (graft t (c :: dst) s).
Proof.
  intros t s c dst A B N D r p H. rewrite lookup_graft in *. destruct (under (c :: dst) p) eqn:U.
  - rewrite (under_trans _ _ _ U (under_app r p)) in H. apply under_iff in U. destruct U as [x ->]. rewrite rel_to_app. replace (r ++ x ++ c :: dst) with ((r ++ x) ++ c :: dst) in H by apply app_assoc_reverse. rewrite rel_to_app in H.
    destruct (lookup s x) eqn:L; [discriminate|]. destruct (lookup s (r ++ x)) eqn:L2; [exfalso; apply (B r x); congruence|]. rewrite <- app_assoc in H. apply A in H. exact H.
  - destruct (under (c :: dst) (r ++ p)) eqn:U2; [|apply A in H; exact H].
    assert (X : under p dst = true).
    { destruct (under_linear p (c :: dst) (r ++ p) (under_app r p) U2) as [V|V]; [|congruence]. apply under_cons_cases in V. destruct V as [V|V]; [|exact V]. subst p. rewrite under_refl in U. discriminate. }
    apply under_iff in X. destruct X as [y X]. rewrite X in D. apply A in D. exact D.
Qed.
Lemma above_flat : forall t, lookup t [] <> None -> (forall e, In e t -> length (fst e) <= 1) -> above t.
Proof.
  intros t N H r p X. destruct p as [|c p]; [exact N|]. destruct (lookup t (r ++ c :: p)) as [n|] eqn:E; [|congruence]. pose proof (lookup_in _ _ _ E) as I. apply H in I. cbn in I. rewrite app_length in I. cbn in I. destruct r as [|d r]; [|cbn in I; lia]. cbn in E. congruence.
Qed.
Lemma above_root : above [([], Dir)].
Proof. apply above_flat; [discriminate|]. intros e [<-|[]]. cbn. lia. Qed.
Section Wheel.
  Variable metadata : project -> str -> str -> res str.
  Variable entry_points : project -> res str.
  Variable digest : str -> str.
  Notation wheel_tree := (wheel_tree metadata entry_points digest).
  Notation dist_info_files := (dist_info_files metadata entry_points).
  Definition base_tree (p : project) (info : fs) : fs := graft [([], Dir)] [dist_info_name p] info.
  Definition info_names : list str := [lit "METADATA"; lit "LICENSE"; lit "WHEEL"; lit "entry_points.txt"].
  Lemma info_shape : forall f cwd p info, dist_info_files f cwd p = Ok info ->
    above info /\ lookup info [] = Some Dir /\ unique info /\ (forall q, lookup info q <> None -> q = [] \/ exists n, q = [n] /\ In n info_names).
  Proof.
    intros f cwd p info H. unfold BuilderModel.dist_info_files in H. destruct (readme_content f cwd p); [|discriminate]. cbn [bind] in H. destruct (license_content f cwd p); [|discriminate]. cbn [bind] in H. destruct (metadata p a a0); [|discriminate]. cbn [bind] in H. destruct (entry_points p); [|discriminate]. cbn [bind] in H. injection H as <-.
    assert (K : forall (q : path) n x y z w, In (q, n) [([], Dir); ([lit "METADATA"], File x); ([lit "LICENSE"], File y); ([lit "WHEEL"], File z); ([lit "entry_points.txt"], File w)] -> q = [] \/ exists n, q = [n] /\ In n info_names).
    { intros q n x y z w I. cbn [In] in I. destruct I as [I|[I|[I|[I|[I|[]]]]]]; injection I as <- _; [left; reflexivity| | | |]; right; eexists; (split; [reflexivity|]); unfold info_names; cbn [In]; auto. }
    split; [|split; [reflexivity|split]].
    - apply above_flat; [discriminate|]. intros [q n] I. apply K in I. cbn. destruct I as [->|(m & -> & _)]; cbn; lia.
    - unfold unique. cbn [map fst]. assert (forall a b : str, str_eqb a b = false -> [a] <> [b]) as D by (intros x y E X; injection X as ->; rewrite str_eqb_refl in E; discriminate).
      repeat (apply NoDup_cons; [cbn [In]; intro I; repeat match type of I with _ \/ _ => destruct I as [I|I] end; try (discriminate I); try contradiction; try (symmetry in I; revert I; apply D; vm_compute; reflexivity)|]). apply NoDup_nil.
    - intros q L. destruct (lookup _ q) as [n|] eqn:E in L; [|congruence]. apply lookup_in in E. apply K in E. exact E.
  Qed.
  Lemma base_shape : forall f cwd p info, dist_info_files f cwd p = Ok info ->
    above (base_tree p info) /\ lookup (base_tree p info) [] = Some Dir /\ unique (base_tree p info) /\
    lookup (base_tree p info) [dist_info_name p] = Some Dir /\
    (forall q, lookup (base_tree p info) q <> None -> q = [] \/ q = [dist_info_name p] \/ exists n, q = [n; dist_info_name p] /\ In n info_names).
  Proof.
    intros f cwd p info H. destruct (info_shape f cwd p info H) as (A & R & U & S). unfold base_tree. split; [|split; [|split; [|split]]].
    - apply above_graft; [apply above_root|exact A|congruence|discriminate].
    - rewrite lookup_graft. reflexivity.
    - apply unique_graft; [constructor; [intros []|constructor]|exact U|]. intros q V. apply under_iff in V. destruct V as [r ->]. destruct r; reflexivity.
    - rewrite lookup_graft, under_refl. pose proof (rel_to_app [] [dist_info_name p]) as X. cbn [app] in X. rewrite X, R. reflexivity.
    - intros q L. rewrite lookup_graft in L. destruct (under [dist_info_name p] q) eqn:V.
      + apply under_iff in V. destruct V as [r ->]. rewrite rel_to_app in L. destruct (lookup info r) as [n|] eqn:E.
        * destruct (S r) as [->|(m & -> & I)]; [congruence|right; left; reflexivity|right; right; exists m; split; [reflexivity|exact I]].
        * destruct r; cbn in L; congruence.
      + left. destruct q; [reflexivity|]. cbn in L. congruence.
  Qed.
  Definition record_file (p : project) : path := [lit "RECORD"; dist_info_name p].
  Lemma wheel_parts : forall f cwd root p t', wheel_tree f cwd root p = Ok t' ->
    exists info dirs t, dist_info_files f cwd p = Ok info /\ src_packages f root (p_packages p) = Ok dirs /\ copy_packages f [] (base_tree p info) dirs = Ok t /\
      t' = write t (record_file p) (File (snd (save_records (sign_tree digest t)))).
  Proof.
    intros f cwd root p t' H. unfold BuilderModel.wheel_tree, copy_sources in H. destruct (dist_info_files f cwd p) as [info|] eqn:I; [|discriminate]. cbn [bind] in H. destruct (src_packages f root (p_packages p)) as [dirs|] eqn:D; [|discriminate]. cbn [bind] in H.
    fold (base_tree p info) in H. destruct (copy_packages f [] (base_tree p info) dirs) as [t|] eqn:C; [|discriminate]. cbn [bind] in H. destruct (save_records (sign_tree digest t)) as [x text] eqn:S. injection H as <-. exists info, dirs, t. repeat split; [exact C|]. rewrite S. reflexivity.
  Qed.
  (** what is in the tree before RECORD is written *)
  Lemma tree_shape : forall f cwd root p info dirs t, wf_fs f -> dist_info_files f cwd p = Ok info -> src_packages f root (p_packages p) = Ok dirs -> copy_packages f [] (base_tree p info) dirs = Ok t ->
    NoDup (map (hd []) dirs) /\ ~ In (dist_info_name p) (map (hd []) dirs) /\ (forall d, In d dirs -> is_dir f d = true) /\
    (forall d q, In d dirs -> lookup t (q ++ [hd [] d]) = if cached q then None else lookup f (q ++ d)) /\
    (forall x, (forall d, In d dirs -> under [hd [] d] x = false) -> lookup t x = lookup (base_tree p info) x) /\
    (unique f -> unique t).
  Proof.
    intros f cwd root p info dirs t W I D C. destruct (base_shape f cwd p info I) as (A & R & U & N & S).
    destruct (copy_spec f [] dirs (base_tree p info) t W A) as (P1 & P2 & P3 & P4 & P5 & P6 & P7); [congruence|exact C|]. unfold placed in *.
    split; [exact P2|]. split; [|split; [intros d X; apply P1, X|split; [exact P3|split; [|intro V; apply P7; [exact V|exact U]]]]].
    - intro X. apply in_map_iff in X. destruct X as (d & E & X). destruct (P1 d X) as [_ Y]. rewrite E in Y. apply exists_at_false in Y. pose proof (eq_trans (eq_sym N) Y) as Z. discriminate Z.
    - intros x X. rewrite P4 by exact X. destruct dirs; reflexivity.
  Qed.
  (** *** the list of files *)
  Definition file_list (t : fs) : list (str * str) := flat_map (fun e => match snd e with File c => [(rel_text (fst e), c)] | Dir => [] end) t.
  Lemma file_list_in : forall t k c, In (k, c) (file_list t) <-> exists q, In (q, File c) t /\ k = rel_text q.
  Proof.
    intros t k c. unfold file_list. rewrite in_flat_map. split.
    - intros ([q [x|]] & I & E); cbn [snd fst] in E; [|destruct E]. destruct E as [E|[]]. injection E as <- <-. exists q. split; [exact I|reflexivity].
    - intros (q & I & ->). exists (q, File c). split; [exact I|left; reflexivity].
  Qed.
  Definition slashless (t : fs) : Prop := forall q, lookup t q <> None -> forall c, In c q -> ~ In "/"%char c.
  Lemma entry_lookup : forall t q n, unique t -> In (q, n) t -> lookup t q = Some n.
  Proof.
    intros t q n U I. induction t as [|[a b] t IH]; [contradiction|]. inversion U as [|? ? A B]; subst. cbn [lookup]. destruct I as [I|I]; [injection I as -> ->; rewrite path_eqb_refl; reflexivity|]. destruct (path_eqb q a) eqn:E; [|apply IH; assumption]. apply path_eqb_eq in E. subst q. exfalso. apply A. apply in_map_iff. exists (a, n). split; [reflexivity|exact I].
  Qed.
  Lemma file_list_root : forall t c, unique t -> lookup t [] = Some Dir -> ~ In ([], File c) t.
  Proof. intros t c U L I. apply (entry_lookup _ _ _ U) in I. congruence. Qed.
  Lemma file_list_nodup : forall t, unique t -> slashless t -> (forall c, lookup t [] <> Some (File c)) -> NoDup (map fst (file_list t)).
  Proof.
    intros t U P N.
    assert (G : forall s, (forall e, In e s -> In e t) -> unique s -> NoDup (map fst (file_list s))).
    { induction s as [|[q n] s IH]; intros I V; [constructor|]. inversion V as [|? ? A B]; subst. cbn [file_list flat_map snd fst]. destruct n as [c|]; [|apply IH; [intros e X; apply I; right; exact X|exact B]].
      cbn [app map fst]. constructor; [|apply IH; [intros e X; apply I; right; exact X|exact B]]. intro X. apply in_map_iff in X. destruct X as ([k c'] & E & X). cbn [fst] in E. apply file_list_in in X. destruct X as (q' & X & Y).
      assert (L1 := entry_lookup t q _ U (I _ (or_introl eq_refl))). assert (L2 := entry_lookup t q' _ U (I _ (or_intror X))).
      assert (Q : q' = q). { apply rel_text_inj; [intros ->; apply (N c'), L2|intros ->; apply (N c), L1|apply P; congruence|apply P; congruence|]. transitivity k; [symmetry; exact Y|exact E]. }
      subst q'. apply A. apply in_map_iff. exists (q, File c'). split; [reflexivity|exact X]. }
    apply G; [auto|exact U].
  Qed.
  Lemma dict_of_nodup : forall V (l : list (str * V)) k v, NoDup (map fst l) -> In (k, v) l -> dict_get k (dict_of l) = Some v.
  Proof.
    intros V l k v N I. unfold dict_of. rewrite dict_of_last. assert (N2 : NoDup (map fst (rev l))) by (rewrite map_rev; apply NoDup_rev; exact N). apply in_rev in I. clear N. induction (rev l) as [|[a b] r IH]; [contradiction|]. inversion N2 as [|? ? A B]; subst. cbn [find fst]. destruct I as [I|I].
    - injection I as -> ->. rewrite str_eqb_refl. reflexivity.
    - destruct (str_eqb k a) eqn:E; [|apply IH; assumption]. apply str_eqb_eq in E. subst a. exfalso. apply A. apply in_map_iff. exists (k, v). split; [reflexivity|exact I].
  Qed.
  Lemma dict_of_absent : forall V (l : list (str * V)) k, ~ In k (map fst l) -> dict_get k (dict_of l) = None.
  Proof.
    intros V l k N. unfold dict_of. rewrite dict_of_last. assert (N2 : ~ In k (map fst (rev l))) by (rewrite map_rev; intro X; apply N, in_rev, X). clear N. induction (rev l) as [|[a b] r IH]; [reflexivity|]. cbn [find fst]. destruct (str_eqb k a) eqn:E; [|apply IH; intro X; apply N2; right; exact X]. apply str_eqb_eq in E. subst a. exfalso. apply N2. left. reflexivity.
  Qed.
  Lemma rows_of : forall t, flat_map (fun r => match rec_file r with Some n => [(n, rec_hash r)] | None => [] end) (sign_tree digest t) = map (fun e => (fst e, Some (Sig (lit "sha256") (digest (snd e))))) (file_list t).
  Proof. induction t as [|[q [c|]] t IH]; [reflexivity| |exact IH]. cbn [sign_tree file_list flat_map snd fst app rec_file rec_hash map]. f_equal. exact IH. Qed.
  Lemma remove_absent : forall f p, lookup f p = None -> remove_path f p = f.
  Proof. induction f as [|[k n] f IH]; intros p L; [reflexivity|]. cbn [lookup] in L. unfold remove_path, keep. cbn [filter fst]. destruct (path_eqb p k) eqn:E; [discriminate|]. destruct (path_eqb k p) eqn:E2; [apply path_eqb_eq in E2; subst; rewrite path_eqb_refl in E; discriminate|]. cbn [negb]. apply f_equal. exact (IH p L). Qed.
  (** *** what a built wheel holds *)
  Definition good_names (p : project) : Prop := ~ In "/"%char (p_name p) /\ ~ In "/"%char (p_version p).
  Lemma good_dist_info : forall p, good_names p -> ~ In "/"%char (dist_info_name p).
  Proof.
    intros p [A B] I. unfold dist_info_name, file_prefix in I. rewrite !in_app_iff in I. destruct I as [[I|[I|I]]|I].
    - apply in_map_iff in I. destruct I as (c & E & I). destruct (Ascii.eqb c "-") eqn:X; [discriminate E|]. subst c. exact (A I).
    - vm_compute in I. destruct I as [I|[]]. discriminate I.
    - exact (B I).
    - vm_compute in I. repeat (destruct I as [I|I]; [discriminate I|]). exact I.
  Qed.
  Lemma dist_info_ends : forall p, ends_with ".dist-info" (dist_info_name p) = true.
  Proof. intro p. unfold dist_info_name, ends_with. rewrite rev_app_distr. apply starts_with_iff. eexists. reflexivity. Qed.
  Lemma wheel_slashless : forall f cwd root p info dirs t, wf_fs f -> slashless f -> good_names p -> dist_info_files f cwd p = Ok info -> src_packages f root (p_packages p) = Ok dirs -> copy_packages f [] (base_tree p info) dirs = Ok t -> slashless t.
  Proof.
    intros f cwd root p info dirs t W SL GN I D C q L c Q. destruct (tree_shape f cwd root p info dirs t W I D C) as (_ & _ & T1 & T2 & T3 & _).
    destruct (existsb (fun d => under [hd [] d] q) dirs) eqn:E.
    - apply existsb_exists in E. destruct E as (d & Id & U). apply under_iff in U. destruct U as [r ->]. assert (L' : (if cached r then None else lookup f (r ++ d)) <> None) by (intro Y; apply L; exact (eq_trans (T2 d r Id) Y)). destruct (cached r); [congruence|]. assert (X := SL _ L'). apply in_app_or in Q. destruct Q as [Q|[<-|[]]].
      + apply X, in_or_app. left. exact Q.
      + destruct d as [|x d]; [intros []|]. apply X, in_or_app. right. left. reflexivity.
    - rewrite T3 in L.
      + destruct (base_shape f cwd p info I) as (_ & _ & _ & _ & S). destruct (S q L) as [->|[->|(n & -> & In_)]]; [destruct Q| |].
        * destruct Q as [<-|[]]. apply good_dist_info, GN.
        * destruct Q as [<-|[<-|[]]]; [|apply good_dist_info, GN]. unfold info_names in In_. cbn [In] in In_. intro Y. destruct In_ as [<-|[<-|[<-|[<-|[]]]]]; vm_compute in Y; repeat (destruct Y as [Y|Y]; [discriminate Y|]); exact Y.
      + intros d Id. destruct (under [hd [] d] q) eqn:U; [|reflexivity]. assert (existsb (fun d => under [hd [] d] q) dirs = true) by (apply existsb_exists; exists d; split; assumption). congruence.
  Qed.
  Lemma one_filter : forall (P : str -> bool) l a, NoDup l -> In a l -> P a = true -> (forall b, In b l -> P b = true -> b = a) -> filter P l = [a].
  Proof.
    intros P l a N I Pa H. assert (NoDup (filter P l)) as N2 by (apply NoDup_filter, N). assert (forall b, In b (filter P l) <-> b = a) as E.
    { intro b. rewrite filter_In. split; [intros [X Y]; apply H; assumption|intros ->; auto]. }
    destruct (filter P l) as [|x [|y r]]; [destruct (proj2 (E a) eq_refl)| |].
    - f_equal. apply E. left. reflexivity.
    - assert (x = a) by (apply E; left; reflexivity). assert (y = a) by (apply E; right; left; reflexivity). inversion N2 as [|? ? A]. subst. exfalso. apply A. left. reflexivity.
  Qed.
  Theorem wheel_opens : forall f cwd root p t', wf_fs f -> unique f -> slashless f -> good_names p -> (forall c, tab_free (digest c)) ->
    (forall dirs d, src_packages f root (p_packages p) = Ok dirs -> In d dirs -> ends_with ".dist-info" (hd [] d) = false) ->
    wheel_tree f cwd root p = Ok t' ->
    exists t, unique t /\ slashless t /\ lookup t [] = Some Dir /\ t' = (record_file p, File (snd (save_records (sign_tree digest t)))) :: t /\ lookup t (record_file p) = None /\
      open_wheel t' = Ok (Wheel ((rel_text (record_file p), snd (save_records (sign_tree digest t))) :: file_list t) (dist_info_name p) (Some (map (fun e => (fst e, Some (Sig (lit "sha256") (digest (snd e))))) (file_list t)))).
  Proof.
    intros f cwd root p t' W U SL GN TF ND H. destruct (wheel_parts f cwd root p t' H) as (info & dirs & t & I & D & C & ->).
    destruct (tree_shape f cwd root p info dirs t W I D C) as (_ & NI & T1 & T2 & T3 & T4). destruct (base_shape f cwd p info I) as (_ & R & _ & N & S).
    assert (NU : forall q, (forall d, In d dirs -> under [hd [] d] (q ++ [dist_info_name p]) = false)).
    { intros q d Id. destruct (under [hd [] d] (q ++ [dist_info_name p])) eqn:V; [|reflexivity]. exfalso. apply NI. apply in_map_iff. exists d. split; [|exact Id]. apply under_iff in V. destruct V as [r V]. apply app_inj_tail in V. symmetry. apply V. }
    assert (LR : lookup t (record_file p) = None).
    { pose proof (T3 _ (NU [lit "RECORD"])) as X. cbn [app] in X. unfold record_file. rewrite X. destruct (lookup (base_tree p info) [lit "RECORD"; dist_info_name p]) eqn:E; [|reflexivity]. exfalso. destruct (S [lit "RECORD"; dist_info_name p]) as [Y|[Y|(n' & Y & Z)]]; [rewrite E; discriminate|discriminate Y|discriminate Y|]. apply (f_equal (hd [])) in Y. cbn [hd] in Y. rewrite <- Y in Z. vm_compute in Z. repeat (destruct Z as [Z|Z]; [discriminate Z|]). exact Z. }
    assert (L0 : lookup t [] = Some Dir) by (rewrite T3; [exact R|intros; reflexivity]).
    exists t. split; [apply T4, U|]. split; [eapply wheel_slashless; eassumption|]. split; [exact L0|].
    unfold write. rewrite (remove_absent t _ LR). split; [reflexivity|]. split; [exact LR|].
    unfold open_wheel, find_dist_info. set (text := snd (save_records (sign_tree digest t))).
    rewrite (one_filter _ _ (dist_info_name p)).
    - cbn [bind]. assert (Lw : lookup ((record_file p, File text) :: t) [lit "RECORD"; dist_info_name p] = Some (File text)) by (cbn [lookup]; change ([lit "RECORD"; dist_info_name p]) with (record_file p); rewrite path_eqb_refl; reflexivity).
      rewrite Lw. unfold text. rewrite load_saved.
      + cbn [bind]. rewrite rows_of. reflexivity.
      + intros r Ir. unfold sign_tree in Ir. apply in_flat_map in Ir. destruct Ir as ([q [c|]] & _ & Ir); [|destruct Ir]. destruct Ir as [<-|[]]. split; [repeat split; discriminate|]. intros s E. injection E as <-.
        assert (X : forall s, tab_free s -> lstrip_ws s = s) by (intros [|a r] Y; [reflexivity|]; cbn [lstrip_ws]; destruct (Y a (or_introl eq_refl)) as [-> _]; reflexivity).
        split; [|split; [|split]]; cbn [s_type s_value].
        * intro Y. vm_compute in Y. repeat (destruct Y as [Y|Y]; [discriminate Y|]). exact Y.
        * intro Y. destruct (TF c _ Y). congruence.
        * vm_compute. reflexivity.
        * apply X, TF.
    - apply children_nodup.
    - apply children_in. cbn [lookup]. destruct (path_eqb [dist_info_name p] (record_file p)); [discriminate|]. pose proof (T3 _ (NU [])) as X. cbn [app] in X. pose proof (eq_trans X N) as Y. rewrite Y. discriminate.
    - apply dist_info_ends.
    - intros b Ib E. apply children_in in Ib. cbn [lookup] in Ib. destruct (path_eqb [b] (record_file p)) eqn:X; [apply path_eqb_eq in X; discriminate X|]. destruct (existsb (fun d => under [hd [] d] [b]) dirs) eqn:EX.
      + apply existsb_exists in EX. destruct EX as (d & Id & V). apply under_iff in V. destruct V as [r V]. assert (hd [] d = b). { destruct r as [|x r]; [injection V as V; symmetry; exact V|]. apply (f_equal (@length str)) in V. rewrite app_length in V. cbn in V. lia. } rewrite <- H0 in E. rewrite (ND dirs d D Id) in E. discriminate.
      + rewrite T3 in Ib.
        * destruct (S _ Ib) as [Y|[Y|(n & Y & _)]]; [discriminate|injection Y as Y; exact Y|discriminate].
        * intros d Id. destruct (under [hd [] d] [b]) eqn:V; [|reflexivity]. assert (existsb (fun d => under [hd [] d] [b]) dirs = true) by (apply existsb_exists; exists d; split; assumption). congruence.
  Qed.
  Theorem wheel_verifies : forall h f cwd root p t' w, wf_fs f -> unique f -> slashless f -> good_names p -> (forall c, tab_free (digest c)) -> h (lit "sha256") = Some digest ->
    (forall dirs d, src_packages f root (p_packages p) = Ok dirs -> In d dirs -> ends_with ".dist-info" (hd [] d) = false) ->
    wheel_tree f cwd root p = Ok t' -> open_wheel t' = Ok w -> verify_records h w = Ok tt.
  Proof.
    intros h f cwd root p t' w W U SL GN TF HH ND H HO. destruct (wheel_opens f cwd root p t' W U SL GN TF ND H) as (t & Ut & St & Lt & _ & LR & O). rewrite O in HO. injection HO as <-. unfold verify_records. cbn [w_records w_files]. apply verify_files_conv.
    assert (NN : NoDup (map fst (file_list t))) by (apply file_list_nodup; [exact Ut|exact St|intros c X; rewrite Lt in X; discriminate X]).
    intros [k c] [E|I].
    - injection E as <- <-. unfold verify_file. cbn [fst].
      rewrite dict_of_absent.
      + replace (str_eqb _ _) with true; [reflexivity|]. symmetry. apply str_eqb_eq. unfold record_path, record_file, rel_text. cbn [w_dist_info rev app]. reflexivity.
      + intro X. rewrite map_map in X. apply in_map_iff in X. destruct X as ([k c] & E & X). cbn [fst] in E. apply file_list_in in X. destruct X as (q & X & Y).
        assert (LL : lookup t q <> None) by (eapply in_lookup, X). assert (q = record_file p).
        { apply rel_text_inj.
          - intros ->. apply (file_list_root t c Ut Lt X).
          - discriminate.
          - apply St, LL.
          - intros x [<-|[<-|[]]]; [intro Z; vm_compute in Z; repeat (destruct Z as [Z|Z]; [discriminate Z|]); exact Z|apply good_dist_info, GN].
          - transitivity k; [symmetry; exact Y|exact E]. }
        subst q. congruence.
    - unfold verify_file. cbn [fst snd]. rewrite (dict_of_nodup _ _ k (Some (Sig (lit "sha256") (digest c)))).
      + unfold validate_against. cbn [s_type s_value]. rewrite HH. cbn [bind]. rewrite str_eqb_refl. reflexivity.
      + rewrite map_map. exact NN.
      + apply in_map_iff. exists (k, c). split; [reflexivity|exact I].
  Qed.
  (** *** the same project from its source distribution *)
  Lemma wf_graft : forall t c dst s, wf_fs t -> wf_fs s -> lookup t dst = Some Dir -> (forall q, under (c :: dst) q = true -> lookup t q = None) -> wf_fs (graft t (c :: dst) s).
  Proof.
    intros t c dst s [A B] [A' B'] D F. split.
    - rewrite lookup_graft. replace (under (c :: dst) []) with false by reflexivity. exact A.
    - intros x p L. rewrite lookup_graft in *. pose proof (under_app [x] p) as Y0. cbn [app] in Y0. destruct (under (c :: dst) p) eqn:U.
      + rewrite (under_trans _ _ _ U Y0) in L. apply under_iff in U. destruct U as [r ->]. rewrite rel_to_app. pose proof (rel_to_app (x :: r) (c :: dst)) as Y. cbn [app] in Y. rewrite Y in L.
        destruct (lookup s (x :: r)) as [n|] eqn:E; [|rewrite (F (x :: r ++ c :: dst)) in L; [congruence|exact (under_app (x :: r) (c :: dst))]]. rewrite (B' x r); [reflexivity|congruence].
      + destruct (under (c :: dst) (x :: p)) eqn:V; [|apply B in L; exact L]. assert (X : under p dst = true).
        { destruct (under_linear p (c :: dst) (x :: p) Y0 V) as [Z|Z]; [|congruence]. apply under_cons_cases in Z. destruct Z as [Z|Z]; [|exact Z]. subst p. rewrite under_refl in U. discriminate. }
        assert (H : under dst p = true). { apply under_cons_cases in V. destruct V as [V|V]; [injection V as -> ->; apply under_refl|]. congruence. }
        rewrite (under_antisym _ _ X H). exact D.
  Qed.
  Lemma cached_tail : forall x r, cached r = true -> cached (x :: r) = true.
  Proof. intros x r H. unfold cached in *. cbn [existsb]. rewrite H. apply orb_true_r. Qed.
  Lemma wf_pruned : forall f d, wf_fs f -> is_dir f d = true -> wf_fs (pruned (tree_at f d)).
  Proof.
    intros f d W D. apply is_dir_true in D. split; [rewrite lookup_pruned; exact D|]. intros x p L. rewrite lookup_pruned in *. destruct (cached p) eqn:C; [rewrite (cached_tail x p C) in L; congruence|]. destruct (cached (x :: p)); [congruence|]. cbn [app] in L. apply W in L. exact L.
  Qed.
  Lemma wf_copy : forall f dst dirs t t', wf_fs f -> wf_fs t -> wf_fs (mkdirs t dst) -> lookup (mkdirs t dst) dst = Some Dir -> copy_packages f dst t dirs = Ok t' -> wf_fs t'.
  Proof.
    intros f dst. induction dirs as [|d dirs IH]; intros t t' W V V' D H; [injection H as <-; exact V|]. cbn [copy_packages] in H. destruct (is_dir f d) eqn:I; [|discriminate]. destruct (exists_at t (hd [] d :: dst)) eqn:E; [discriminate|].
    assert (WG : wf_fs (graft (mkdirs t dst) (hd [] d :: dst) (pruned (tree_at f d)))).
    { apply wf_graft; [exact V'|apply wf_pruned; assumption|exact D|]. intros q U. rewrite lookup_mkdirs. assert (Lq : lookup t q = None).
      { apply under_iff in U. destruct U as [r ->]. destruct (lookup t (r ++ hd [] d :: dst)) eqn:L; [|exact L]. exfalso. apply exists_at_false in E. destruct r as [|x r]; [pose proof (eq_trans (eq_sym L) E) as Z; discriminate Z|]. assert (X : lookup t (hd [] d :: dst) = Some Dir) by (apply (wf_above t (x :: r)); [exact V|intro Y; pose proof (eq_trans (eq_sym L) Y) as Z; discriminate Z|discriminate]). congruence. }
      rewrite Lq. replace (under q dst) with false; [reflexivity|]. symmetry. destruct (under q dst) eqn:U2; [|reflexivity]. apply under_len in U. apply under_len in U2. cbn in U. lia. }
    set (t1 := graft _ _ _) in *.
    assert (D1 : lookup t1 dst = Some Dir). { unfold t1. rewrite lookup_graft. replace (under (hd [] d :: dst) dst) with false; [exact D|]. symmetry. destruct (under (hd [] d :: dst) dst) eqn:U; [|reflexivity]. apply under_len in U. cbn in U. lia. }
    assert (M : forall q, lookup (mkdirs t1 dst) q = lookup t1 q).
    { intro q. rewrite lookup_mkdirs. destruct (lookup t1 q) eqn:L; [reflexivity|]. destruct (under q dst) eqn:U; [|reflexivity]. apply under_iff in U. destruct U as [r U]. exfalso. destruct r as [|x r]; [cbn in U; congruence|].
      assert (X : lookup t1 q = Some Dir) by (apply (wf_above t1 (x :: r) q WG); [rewrite <- U, D1; discriminate|discriminate]). congruence. }
    apply (IH t1 t' W WG); [|rewrite M; exact D1|exact H]. destruct WG as [G1 G2]. split; [rewrite M; exact G1|]. intros c p L. rewrite M in *. apply (G2 c p L).
  Qed.
  Variable pyproject : project -> str.
  Definition unlisted (p : project) : Prop := match p_packages p with Some (_ :: _) => False | _ => True end.
  Definition no_files (p : project) : Prop := (forall n, p_readme p <> Some (TFile n)) /\ (forall n, p_license p <> Some (TFile n)).
  Lemma info_anywhere : forall f f' cwd cwd' p, no_files p -> dist_info_files f cwd p = dist_info_files f' cwd' p.
  Proof. intros f f' cwd cwd' p [A B]. unfold BuilderModel.dist_info_files, readme_content, license_content. destruct (p_readme p) as [[x|x]|]; [|exfalso; eapply A; reflexivity|]; (destruct (p_license p) as [[y|y]|]; [|exfalso; eapply B; reflexivity|]); reflexivity. Qed.
  Definition sdist_base (p : project) (info : fs) : fs := [([], Dir); ([lit "PKG-INFO"], match lookup info [lit "METADATA"] with Some n => n | None => Dir end); ([lit "pyproject.toml"], File (pyproject p))].
  Lemma sdist_parts : forall f cwd root p s, unlisted p -> sdist_tree metadata entry_points pyproject f cwd root p = Ok s ->
    exists info dirs, dist_info_files f cwd p = Ok info /\ src_packages f root (p_packages p) = Ok dirs /\ copy_packages f [lit "src"] (sdist_base p info) dirs = Ok s.
  Proof.
    intros f cwd root p s N H. unfold sdist_tree, copy_sources in H. destruct (dist_info_files f cwd p) as [info|] eqn:I; [|discriminate]. cbn [bind] in H. exists info. unfold unlisted in N.
    destruct (src_packages f root (p_packages p)) as [dirs|] eqn:D; destruct (p_packages p) as [[|x l]|]; try contradiction; try discriminate; exists dirs; repeat split; exact H.
  Qed.
  Lemma meta_file : forall f cwd p info, dist_info_files f cwd p = Ok info -> exists c, lookup info [lit "METADATA"] = Some (File c).
  Proof.
    intros f cwd p info H. unfold BuilderModel.dist_info_files in H. destruct (readme_content f cwd p); [|discriminate]. cbn [bind] in H. destruct (license_content f cwd p); [|discriminate]. cbn [bind] in H. destruct (metadata p a a0); [|discriminate]. cbn [bind] in H. destruct (entry_points p); [|discriminate]. cbn [bind] in H. injection H as <-. eexists. reflexivity.
  Qed.
  Lemma sdist_base_shape : forall f cwd p info, dist_info_files f cwd p = Ok info -> wf_fs (sdist_base p info) /\ above (sdist_base p info) /\ (forall q, lookup (sdist_base p info) q <> None -> q = [] \/ q = [lit "PKG-INFO"] \/ q = [lit "pyproject.toml"]) /\ (forall q, lookup (sdist_base p info) q = Some Dir -> q = []).
  Proof.
    intros f cwd p info I. destruct (meta_file f cwd p info I) as [c M]. unfold sdist_base. rewrite M.
    assert (K : forall q n, In (q, n) [([], Dir); ([lit "PKG-INFO"], File c); ([lit "pyproject.toml"], File (pyproject p))] -> (q = [] \/ q = [lit "PKG-INFO"] \/ q = [lit "pyproject.toml"]) /\ (n = Dir -> q = [])).
    { intros q n X. destruct X as [X|[X|[X|[]]]]; apply pair_equal_spec in X; destruct X as [<- <-]; (split; [auto|intro Y; try reflexivity; discriminate Y]). }
    split; [|split; [|split]].
    - split; [reflexivity|]. intros x q L. destruct (lookup _ (x :: q)) as [n|] eqn:E in L; [|congruence]. apply lookup_in in E. apply K in E. destruct E as [[E|[E|E]] _]; [discriminate E| |]; apply (f_equal (@tl str)) in E; cbn in E; rewrite E; reflexivity.
    - apply above_flat; [discriminate|]. intros [q n] X. apply K in X. destruct X as [[->|[->| ->]] _]; cbn; lia.
    - intros q L. destruct (lookup _ q) as [n|] eqn:E in L; [|congruence]. apply lookup_in in E. apply K in E. apply E.
    - intros q E. apply lookup_in in E. apply K in E. apply E. reflexivity.
  Qed.
  Lemma unlisted_dirs : forall f root p dirs, unlisted p -> src_packages f root (p_packages p) = Ok dirs -> exists src, src = (if exists_at f (lit "src" :: root) then lit "src" :: root else root) /\ is_dir f src = true /\ dirs = filter (is_dir f) (map (fun n => n :: src) (children f src)).
  Proof.
    intros f root p dirs N H. exists (if exists_at f (lit "src" :: root) then lit "src" :: root else root). split; [reflexivity|]. unfold src_packages, unlisted in *. destruct (p_packages p) as [[|x l]|]; try contradiction; unfold iterdir in H; destruct (is_dir f _) eqn:E; try discriminate; cbn [bind] in H; injection H as <-; split; reflexivity || exact E.
  Qed.
  Lemma dirs_nodup : forall f src, NoDup (map (hd []) (filter (is_dir f) (map (fun n => n :: src) (children f src)))).
  Proof.
    intros f src. pose proof (children_nodup f src) as N. induction (children f src) as [|x l IH]; [constructor|]. inversion N as [|? ? A B]; subst. cbn [map filter]. destruct (is_dir f (x :: src)); [|apply IH, B]. cbn [map hd]. constructor; [|apply IH, B]. intro I. apply in_map_iff in I. destruct I as (d & E & I). apply filter_In in I. destruct I as [I _]. apply in_map_iff in I. destruct I as (y & <- & I). cbn in E. subst y. exact (A I).
  Qed.
  Lemma sdist_dirs : forall f cwd root p info dirs s, wf_fs f -> unlisted p -> dist_info_files f cwd p = Ok info -> src_packages f root (p_packages p) = Ok dirs -> copy_packages f [lit "src"] (sdist_base p info) dirs = Ok s ->
    wf_fs s /\ exists dirs', src_packages s [] (p_packages p) = Ok dirs' /\ NoDup (map (hd []) dirs') /\ (forall d', In d' dirs' <-> exists d, In d dirs /\ d' = [hd [] d; lit "src"]) /\
      (forall d q, In d dirs -> lookup s (q ++ [hd [] d; lit "src"]) = if cached q then None else lookup f (q ++ d)).
  Proof.
    intros f cwd root p info dirs s W N I D C. destruct (sdist_base_shape f cwd p info I) as (Wb & Ab & Sb & Db).
    assert (Ls : lookup (sdist_base p info) [lit "src"] = None).
    { destruct (lookup (sdist_base p info) [lit "src"]) eqn:E; [|reflexivity]. destruct (Sb [lit "src"]) as [X|[X|X]]; [congruence|discriminate X| |]; apply (f_equal (hd [])) in X; vm_compute in X; discriminate X. }
    assert (Lm : forall q, lookup (mkdirs (sdist_base p info) [lit "src"]) q = if path_eqb q [lit "src"] then Some Dir else lookup (sdist_base p info) q).
    { intro q. cbn [mkdirs]. apply exists_at_false in Ls. rewrite Ls. apply lookup_write. }
    assert (Wm : wf_fs (mkdirs (sdist_base p info) [lit "src"])).
    { split; [rewrite Lm; apply Wb|]. intros c q L. rewrite Lm in L. destruct (path_eqb (c :: q) [lit "src"]) eqn:E.
      - apply path_eqb_eq in E. apply (f_equal (@tl str)) in E. cbn in E. rewrite E, Lm. apply Wb.
      - apply Wb in L. rewrite Lm. destruct (path_eqb q [lit "src"]); [reflexivity|exact L]. }
    assert (Ws : wf_fs s) by (eapply wf_copy; [exact W|exact Wb|exact Wm|rewrite Lm, path_eqb_refl; reflexivity|exact C]).
    split; [exact Ws|]. destruct (copy_spec f [lit "src"] dirs (sdist_base p info) s W Ab) as (P1 & P2 & P3 & P4 & _); [destruct Wb as [X _]; congruence|exact C|]. unfold placed in *.
    assert (Src : forall b, (exists_at s [lit "src"] = b) -> src_packages s [] (p_packages p) = (let src := if b then [lit "src"] else [] in do names <- iterdir s src; Ok (filter (is_dir s) (map (fun n => n :: src) names)))).
    { intros b <-. unfold src_packages, unlisted in *. destruct (p_packages p) as [[|x l]|]; try contradiction; reflexivity. }
    destruct dirs as [|d0 dirs0].
    - injection C as <-. exists []. apply exists_at_false in Ls. rewrite (Src false Ls). cbn [iterdir]. unfold iterdir. destruct Wb as [R _]. assert (is_dir (sdist_base p info) [] = true) as -> by (apply is_dir_true; exact R). cbn [bind].
      assert (X : filter (is_dir (sdist_base p info)) (map (fun n => [n]) (children (sdist_base p info) [])) = []).
      { destruct (filter _ _) as [|a l] eqn:E; [reflexivity|]. assert (In a (a :: l)) as Y by (left; reflexivity). rewrite <- E in Y. apply filter_In in Y. destruct Y as [Y Z]. apply is_dir_true in Z. apply Db in Z. subst a. apply in_map_iff in Y. destruct Y as (n & Y & _). discriminate Y. }
      rewrite X. split; [reflexivity|]. split; [constructor|]. split; [|intros d q []]. intro d'. split; [intros []|intros (d & [] & _)].
    - set (dirs := d0 :: dirs0) in *. assert (Lss : lookup s [lit "src"] = Some Dir).
      { rewrite P4; [|intros d _; destruct (under [hd [] d; lit "src"] [lit "src"]) eqn:U; [apply under_len in U; cbn in U; lia|reflexivity]]. rewrite Lm, path_eqb_refl. reflexivity. }
      assert (Ex : exists_at s [lit "src"] = true) by (apply exists_at_true; congruence). rewrite (Src true Ex). unfold iterdir. assert (is_dir s [lit "src"] = true) as -> by (apply is_dir_true; exact Lss). cbn [bind].
      eexists. split; [reflexivity|]. split; [apply dirs_nodup|]. split; [|exact P3]. intro d'. rewrite filter_In, in_map_iff. split.
      + intros [(n & <- & In_) Z]. apply children_in in In_. destruct (existsb (fun d => under [hd [] d; lit "src"] [n; lit "src"]) dirs) eqn:E.
        * apply existsb_exists in E. destruct E as (d & Id & U). exists d. split; [exact Id|]. apply under_iff in U. destruct U as [r U]. assert (r = []) by (apply (f_equal (@length str)) in U; rewrite app_length in U; cbn in U; destruct r; [reflexivity|cbn in U; lia]). subst r. exact U.
        * exfalso. apply In_. rewrite P4.
          -- unfold dirs. rewrite Lm. destruct (path_eqb [n; lit "src"] [lit "src"]) eqn:Q; [apply path_eqb_eq in Q; discriminate Q|]. destruct (lookup (sdist_base p info) [n; lit "src"]) eqn:L; [|reflexivity]. destruct (Sb [n; lit "src"]) as [X|[X|X]]; [congruence|discriminate X|discriminate X|discriminate X].
          -- intros d Id. destruct (under [hd [] d; lit "src"] [n; lit "src"]) eqn:V; [|reflexivity]. assert (existsb (fun d => under [hd [] d; lit "src"] [n; lit "src"]) dirs = true) by (apply existsb_exists; exists d; split; assumption). congruence.
      + intros (d & Id & ->). destruct (P1 d Id) as [Y _]. apply is_dir_true in Y. pose proof (P3 d [] Id) as L. cbn [app cached existsb] in L. unfold cached in L. cbn [existsb] in L. rewrite Y in L. split; [|apply is_dir_true; exact L]. exists (hd [] d). split; [reflexivity|]. apply children_in. intro Z. pose proof (eq_trans (eq_sym L) Z) as Z2. discriminate Z2.
  Qed.
  Theorem sdist_same : forall f cwd cwd' root p s t, wf_fs f -> unlisted p -> no_files p -> sdist_tree metadata entry_points pyproject f cwd root p = Ok s -> wheel_tree f cwd root p = Ok t ->
    exists t', wheel_tree s cwd' [] p = Ok t' /\ forall q, q <> record_file p -> lookup t' q = lookup t q.
  Proof.
    intros f cwd cwd' root p s t W N F S H. destruct (sdist_parts _ _ _ _ _ N S) as (info & dirs & I & D & C). destruct (wheel_parts _ _ _ _ _ H) as (info2 & dirs2 & t0 & I2 & D2 & C2 & ->). assert (info2 = info) by congruence. assert (dirs2 = dirs) by congruence. subst info2 dirs2.
    destruct (sdist_dirs _ _ _ _ _ _ _ W N I D C) as (Ws & dirs' & D' & ND & M & L'). assert (I' : dist_info_files s cwd' p = Ok info) by (rewrite (info_anywhere s f cwd' cwd p F); exact I).
    destruct (base_shape f cwd p info I) as (A & R & U & NN & SS). destruct (copy_spec f [] dirs (base_tree p info) t0 W A) as (P1 & P2 & P3 & P4 & _); [congruence|exact C2|].
    destruct (copy_works s [] dirs' (base_tree p info) Ws A) as [t1 C1]; [congruence| |exact ND|].
    { intros d' Id'. pose proof (proj1 (M d') Id') as X. destruct X as (d & Id & ->). destruct (P1 d Id) as [Y Z]. split; [|exact Z]. apply is_dir_true in Y. apply is_dir_true. pose proof (L' d [] Id) as L. unfold cached in L. cbn [app existsb] in L. rewrite Y in L. exact L. }
    exists (write t1 (record_file p) (File (snd (save_records (sign_tree digest t1))))). split.
    - unfold BuilderModel.wheel_tree, copy_sources. rewrite I'. cbn [bind]. rewrite D'. cbn [bind]. fold (base_tree p info). rewrite C1. cbn [bind]. destruct (save_records (sign_tree digest t1)). reflexivity.
    - intros q Q. rewrite !lookup_write. destruct (path_eqb q (record_file p)) eqn:E; [apply path_eqb_eq in E; contradiction|].
      destruct (copy_spec s [] dirs' (base_tree p info) t1 Ws A) as (_ & _ & Q3 & Q4 & _); [congruence|exact C1|]. unfold placed in *.
      destruct (existsb (fun d => under [hd [] d] q) dirs) eqn:X.
      + apply existsb_exists in X. destruct X as (d & Id & V). apply under_iff in V. destruct V as [r ->]. transitivity (if cached r then None else lookup f (r ++ d)); [|symmetry; exact (P3 d r Id)].
        assert (Id' : In [hd [] d; lit "src"] dirs') by (apply M; exists d; split; [exact Id|reflexivity]). pose proof (Q3 _ r Id') as Z. cbn [hd] in Z. transitivity (if cached r then None else lookup s (r ++ [hd [] d; lit "src"])); [exact Z|]. destruct (cached r) eqn:CR; [reflexivity|]. pose proof (L' d r Id) as Z2. rewrite CR in Z2. exact Z2.
      + assert (V : forall d, In d dirs -> under [hd [] d] q = false). { intros d Id. destruct (under [hd [] d] q) eqn:V; [|reflexivity]. assert (existsb (fun d => under [hd [] d] q) dirs = true) by (apply existsb_exists; exists d; split; assumption). congruence. }
        rewrite P4 by exact V. rewrite Q4.
        * cbn [mkdirs]. destruct dirs, dirs'; reflexivity.
        * intros d' Id'. pose proof (proj1 (M d') Id') as Y. destruct Y as (d & Id & ->). exact (V d Id).
  Qed.
  (** *** building again *)
  Lemma wf_mkdirs : forall p f, wf_fs f -> (forall q c, under q p = true -> lookup f q <> Some (File c)) -> wf_fs (mkdirs f p).
  Proof.
    intros p f [A B] N. split; [rewrite lookup_mkdirs, A; reflexivity|]. intros c q L. rewrite lookup_mkdirs in *. destruct (lookup f (c :: q)) eqn:E; [rewrite (B c q); [reflexivity|congruence]|].
    destruct (under (c :: q) p) eqn:U; [|cbn in L; congruence]. pose proof (under_app [c] q) as Y. cbn [app] in Y. pose proof (under_trans _ _ _ Y U) as V. rewrite V. destruct (lookup f q) as [[x|]|] eqn:Q; [exfalso; exact (N q x V Q)|reflexivity|]. destruct q; [rewrite A in Q; discriminate|reflexivity].
  Qed.
  Lemma wf_write_file : forall f c p x, wf_fs f -> lookup f p = Some Dir -> is_dir f (c :: p) = false -> wf_fs (write f (c :: p) (File x)).
  Proof.
    intros f c p x [A B] D N. split; [rewrite lookup_write; exact A|]. intros d q L. rewrite lookup_write in *. destruct (path_eqb (d :: q) (c :: p)) eqn:E.
    - apply path_eqb_eq in E. injection E as -> ->. destruct (path_eqb p (c :: p)) eqn:E2; [apply path_eqb_eq in E2; apply (f_equal (@length str)) in E2; cbn in E2; lia|exact D].
    - destruct (path_eqb q (c :: p)) eqn:E2; [|apply (B d q L)]. apply path_eqb_eq in E2. subst q. apply B in L. assert (is_dir f (c :: p) = true) by (apply is_dir_true; exact L). congruence.
  Qed.
  Lemma wheel_agree : forall f f' cwd cwd' root p t, wf_fs f -> wf_fs f' -> unlisted p -> no_files p -> lookup f (lit "src" :: root) <> None ->
    (forall q, lookup f' (q ++ lit "src" :: root) = lookup f (q ++ lit "src" :: root)) -> wheel_tree f cwd root p = Ok t ->
    exists t', wheel_tree f' cwd' root p = Ok t' /\ forall q, q <> record_file p -> lookup t' q = lookup t q.
  Proof.
    intros f f' cwd cwd' root p t W W' N F X Ag H. destruct (wheel_parts _ _ _ _ _ H) as (info & dirs & t0 & I & D & C & ->).
    set (src := lit "src" :: root) in *. assert (X' : lookup f' src <> None) by (pose proof (Ag []) as Y; cbn [app] in Y; rewrite Y; exact X).
    destruct (unlisted_dirs f root p dirs N D) as (src0 & S0 & S1 & S2). apply exists_at_true in X. fold src in S0. rewrite X in S0. subst src0.
    assert (Is : forall q, is_dir f' (q ++ src) = is_dir f (q ++ src)) by (intro q; unfold is_dir; rewrite Ag; reflexivity).
    set (dirs' := filter (is_dir f') (map (fun n => n :: src) (children f' src))).
    assert (D' : src_packages f' root (p_packages p) = Ok dirs').
    { apply exists_at_true in X'. unfold src_packages, unlisted in *. fold src. rewrite X'. unfold iterdir. pose proof (Is []) as Y. cbn [app] in Y. rewrite Y, S1. destruct (p_packages p) as [[|x l]|]; try contradiction; reflexivity. }
    assert (M : forall d, In d dirs' <-> In d dirs).
    { intro d. rewrite S2. unfold dirs'. rewrite !filter_In, !in_map_iff. split; intros [(n & <- & Y) Z]; apply children_in in Y; pose proof (Is [n]) as K; cbn [app] in K; pose proof (Ag [n]) as K2; cbn [app] in K2; (split; [|congruence]); exists n; (split; [reflexivity|]); apply children_in; congruence. }
    assert (Z : forall d, In d dirs -> exists n, d = n :: src). { intros d Id. rewrite S2 in Id. apply filter_In in Id. destruct Id as [Id _]. apply in_map_iff in Id. destruct Id as (n & <- & _). exists n. reflexivity. }
    assert (I' : dist_info_files f' cwd' p = Ok info) by (rewrite (info_anywhere f' f cwd' cwd p F); exact I).
    destruct (base_shape f cwd p info I) as (A & R & U & NN & SS). destruct (copy_spec f [] dirs (base_tree p info) t0 W A) as (P1 & P2 & P3 & P4 & _); [congruence|exact C|].
    destruct (copy_works f' [] dirs' (base_tree p info) W' A) as [t1 C1]; [congruence| |apply dirs_nodup|].
    { intros d Id. apply M in Id. destruct (P1 d Id) as [Y Y2]. split; [|exact Y2]. destruct (Z d Id) as [n ->]. pose proof (Is [n]) as K. cbn [app] in K. congruence. }
    exists (write t1 (record_file p) (File (snd (save_records (sign_tree digest t1))))). split.
    - unfold BuilderModel.wheel_tree, copy_sources. rewrite I'. cbn [bind]. rewrite D'. cbn [bind]. fold (base_tree p info). rewrite C1. cbn [bind]. destruct (save_records (sign_tree digest t1)). reflexivity.
    - intros q Q. rewrite !lookup_write. destruct (path_eqb q (record_file p)) eqn:E; [apply path_eqb_eq in E; contradiction|].
      destruct (copy_spec f' [] dirs' (base_tree p info) t1 W' A) as (_ & _ & Q3 & Q4 & _); [congruence|exact C1|]. unfold placed in *.
      destruct (existsb (fun d => under [hd [] d] q) dirs) eqn:EX.
      + apply existsb_exists in EX. destruct EX as (d & Id & V). apply under_iff in V. destruct V as [r ->]. transitivity (if cached r then None else lookup f (r ++ d)); [|symmetry; exact (P3 d r Id)].
        transitivity (if cached r then None else lookup f' (r ++ d)); [exact (Q3 d r (proj2 (M d) Id))|]. destruct (cached r); [reflexivity|]. destruct (Z d Id) as [n ->]. pose proof (Ag (r ++ [n])) as K. rewrite <- app_assoc in K. exact K.
      + assert (V : forall d, In d dirs -> under [hd [] d] q = false). { intros d Id. destruct (under [hd [] d] q) eqn:V; [|reflexivity]. assert (existsb (fun d => under [hd [] d] q) dirs = true) by (apply existsb_exists; exists d; split; assumption). congruence. }
        rewrite P4 by exact V. rewrite Q4; [cbn [mkdirs]; destruct dirs, dirs'; reflexivity|]. intros d Id. apply V, M, Id.
  Qed.
  Lemma apart : forall (q root : path) x rest, str_eqb x (lit "src") = false -> (under (q ++ lit "src" :: root) (rest ++ x :: root) = false /\ under (rest ++ x :: root) (q ++ lit "src" :: root) = false).
  Proof.
    intros q root x rest NE.
    assert (G : forall a b r, r ++ a ++ (lit "src" :: root) = b ++ x :: root -> False).
    { intros a b r E. change (a ++ lit "src" :: root) with (a ++ [lit "src"] ++ root) in E. change (b ++ x :: root) with (b ++ [x] ++ root) in E. rewrite !app_assoc in E. apply app_inv_tail in E. apply app_inj_tail in E. destruct E as [_ E]. rewrite <- E in NE. rewrite str_eqb_refl in NE. discriminate. }
    split.
    - destruct (under (q ++ lit "src" :: root) (rest ++ x :: root)) eqn:U; [|reflexivity]. exfalso. apply under_iff in U. destruct U as [r E]. apply (G q rest r). symmetry. exact E.
    - destruct (under (rest ++ x :: root) (q ++ lit "src" :: root)) eqn:U; [|reflexivity]. exfalso. apply under_iff in U. destruct U as [r E]. apply (G q (r ++ rest) []). cbn [app]. rewrite <- app_assoc. exact E.
  Qed.
  Theorem build_again : forall pack fname f cwd cwd' root p f' t, wf_fs f -> unlisted p -> no_files p -> lookup f (lit "src" :: root) <> None ->
    (forall q c, under q (lit "pkm" :: lit "etc" :: root) = true \/ under q (p_version p :: lit "dist" :: root) = true -> lookup f q <> Some (File c)) ->
    build_wheel metadata entry_points digest pack fname f cwd root p = Ok (f', t) ->
    exists f'' t', build_wheel metadata entry_points digest pack fname f' cwd' root p = Ok (f'', t') /\ forall q, q <> record_file p -> lookup t' q = lookup t q.
  Proof.
    intros pack fname f cwd cwd' root p f' t W N F X NF H. unfold build_wheel in H. set (dist := p_version p :: lit "dist" :: root) in *. destruct (wheel_tree (with_etc f root) cwd root p) as [t0|] eqn:B; [|discriminate]. cbn [bind] in H. destruct (is_dir (mkdirs (with_etc f root) dist) (fname :: dist)) eqn:ID; [discriminate|]. assert (H1 : write (mkdirs (with_etc f root) dist) (fname :: dist) (File (pack t0)) = f') by (apply (f_equal (fun r => match r with Ok x => fst x | Err _ => f end)) in H; exact H). assert (H2 : t0 = t) by (apply (f_equal (fun r => match r with Ok x => snd x | Err _ => t0 end)) in H; exact H). clear H. subst f' t0.
    set (etc := lit "pkm" :: lit "etc" :: root) in *.
    assert (W1 : wf_fs (with_etc f root)) by (apply wf_mkdirs; [exact W|intros q c U; apply NF; left; exact U]).
    assert (NF1 : forall q c, (under q etc = true \/ under q dist = true) -> lookup (with_etc f root) q <> Some (File c)).
    { intros q c U. unfold with_etc. fold etc. rewrite lookup_mkdirs. pose proof (NF q c U) as Y. destruct (lookup f q) as [n|]; [intro E; apply Y; exact E|]. destruct (under q etc && negb (path_eqb q [])); discriminate. }
    set (f1 := with_etc f root) in *. assert (W2 : wf_fs (mkdirs f1 dist)) by (apply wf_mkdirs; [exact W1|intros q c U; apply NF1; right; exact U]).
    assert (NF2 : forall q c, (under q etc = true \/ under q dist = true) -> lookup (mkdirs f1 dist) q <> Some (File c)).
    { intros q c U. rewrite lookup_mkdirs. pose proof (NF1 q c U) as Y. destruct (lookup f1 q) as [n|]; [intro E; apply Y; exact E|]. destruct (under q dist && negb (path_eqb q [])); discriminate. }
    assert (DD : lookup (mkdirs f1 dist) dist = Some Dir).
    { rewrite lookup_mkdirs, under_refl. pose proof (NF1 dist) as Y. destruct (lookup f1 dist) as [[c|]|]; [exfalso; apply (Y c); [right; apply under_refl|reflexivity]|reflexivity|reflexivity]. }
    set (f2 := mkdirs f1 dist) in *. assert (W3 : wf_fs (write f2 (fname :: dist) (File (pack t)))) by (apply wf_write_file; assumption).
    set (f3 := write f2 (fname :: dist) (File (pack t))) in *.
    assert (NF3 : forall q c, (under q etc = true \/ under q dist = true) -> lookup f3 q <> Some (File c)).
    { intros q c U. unfold f3. rewrite lookup_write. destruct (path_eqb q (fname :: dist)) eqn:E; [|apply NF2, U]. exfalso. apply path_eqb_eq in E. subst q. destruct U as [U|U].
      - apply under_len in U. unfold etc, dist in U. cbn in U. lia.
      - apply under_len in U. cbn in U. lia. }
    assert (W4 : wf_fs (with_etc f3 root)) by (apply wf_mkdirs; [exact W3|intros q c U; apply NF3; left; exact U]).
    assert (K1 : forall q, lookup f1 (q ++ lit "src" :: root) = lookup f (q ++ lit "src" :: root)).
    { intro q. unfold f1, with_etc. rewrite lookup_mkdirs. destruct (apart q root (lit "etc") [lit "pkm"] eq_refl) as [Y _]. cbn [app] in Y. rewrite Y. destruct (lookup f (q ++ lit "src" :: root)); reflexivity. }
    assert (K : forall q, lookup (with_etc f3 root) (q ++ lit "src" :: root) = lookup f1 (q ++ lit "src" :: root)).
    { intro q. unfold with_etc. rewrite lookup_mkdirs. destruct (apart q root (lit "etc") [lit "pkm"] eq_refl) as [Y _]. cbn [app] in Y. rewrite Y. cbn [andb].
      assert (E : lookup f3 (q ++ lit "src" :: root) = lookup f1 (q ++ lit "src" :: root)).
      { unfold f3. rewrite lookup_write. destruct (path_eqb (q ++ lit "src" :: root) (fname :: dist)) eqn:E.
        - exfalso. apply path_eqb_eq in E. destruct (apart q root (lit "dist") [fname; p_version p] eq_refl) as [Y1 _]. cbn [app] in Y1. change (fname :: p_version p :: lit "dist" :: root) with (fname :: dist) in Y1. rewrite <- E, under_refl in Y1. discriminate.
        - unfold f2. rewrite lookup_mkdirs. destruct (apart q root (lit "dist") [p_version p] eq_refl) as [Y1 _]. cbn [app] in Y1. fold dist in Y1. rewrite Y1. destruct (lookup f1 (q ++ lit "src" :: root)); reflexivity. }
      rewrite E. destruct (lookup f1 (q ++ lit "src" :: root)); reflexivity. }
    destruct (wheel_agree f1 (with_etc f3 root) cwd cwd' root p t W1 W4 N F) as (t' & B' & Same); [pose proof (K1 []) as Y; cbn [app] in Y; rewrite Y; exact X|exact K|exact B|].
    unfold build_wheel. rewrite B'. cbn [bind]. fold dist.
    assert (L : lookup (mkdirs (with_etc f3 root) dist) (fname :: dist) = Some (File (pack t))).
    { rewrite lookup_mkdirs. unfold with_etc. rewrite lookup_mkdirs. unfold f3. rewrite lookup_write, path_eqb_refl. reflexivity. }
    destruct (is_dir (mkdirs (with_etc f3 root) dist) (fname :: dist)) eqn:J; [apply is_dir_true in J; pose proof (eq_trans (eq_sym L) J) as Q; discriminate Q|]. eexists. eexists. split; [reflexivity|exact Same].
  Qed.
End Wheel.
