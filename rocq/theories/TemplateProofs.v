(** Proofs about TemplateModel. *)
From Coq Require Import String Ascii List Bool NArith Arith Lia.
From Verif Require Import Base BaseFacts FsModel FsFacts TemplateModel.
Import ListNotations.
Open Scope string_scope.
Open Scope nat_scope.
Open Scope list_scope.
Open Scope bool_scope.

(** a file name as it is in a directory *)
Definition plain_name (n : str) : Prop :=
  n <> [] /\ ~ In "/"%char n /\ n <> lit "." /\ n <> lit "..".
(** jinja gives file names, or nothing *)
Definition plain_names (names : str -> res str) : Prop := forall s n, names s = Ok n -> n = [] \/ plain_name n.

Lemma resolve_plain : forall b n, plain_name n -> resolve b n = n :: b.
Proof.
  intros b n (N & S & D & DD). unfold resolve. rewrite split_on_single by exact S.
  assert (starts_with (lit "/") n = false) as X.
  { destruct n as [|c r]; auto. change (Ascii.eqb "/"%char c && true = false). destruct (Ascii.eqb "/" c) eqn:E; auto. apply Ascii.eqb_eq in E. subst. destruct S. left. reflexivity. }
  rewrite X. cbn [fold_left]. unfold descend.
  destruct (str_eqb n []) eqn:E1; [apply str_eqb_eq in E1; congruence|].
  destruct (str_eqb n (lit ".")) eqn:E2; [apply str_eqb_eq in E2; congruence|].
  destruct (str_eqb n (lit "..")) eqn:E3; [apply str_eqb_eq in E3; congruence|]. reflexivity.
Qed.

(** ** What an operation leaves alone *)
Definition local (b : path) (f f' : fs) : Prop :=
  (forall p, under b p = false -> lookup f' p = lookup f p) /\
  (forall p, lookup f p <> None -> lookup f' p <> None).
Lemma local_refl : forall b f, local b f f.
Proof. intros. split; auto. Qed.
Lemma local_trans : forall b f g h, local b f g -> local b g h -> local b f h.
Proof. intros b f g h [A1 A2] [B1 B2]. split; intros p H; [rewrite B1 by auto; auto | auto]. Qed.
Lemma local_weaken : forall a b f g, under a b = true -> local b f g -> local a f g.
Proof.
  intros a b f g U [A1 A2]. split; auto. intros p H. apply A1. destruct (under b p) eqn:E; auto.
  rewrite (under_trans a b p U E) in H. discriminate.
Qed.
Lemma local_write : forall f p n, local p f (write f p n).
Proof.
  intros f p n. split; intros q H; rewrite lookup_write; destruct (path_eqb q p) eqn:E; auto; try discriminate.
  apply path_eqb_eq in E. subst. rewrite under_refl in H. discriminate.
Qed.
Lemma local_put : forall f p c f', put f p c = Ok f' -> local p f f'.
Proof.
  intros f [|n par] c f' H; [discriminate|]. unfold put in H.
  destruct (_ || _); [discriminate|]. injection H as <-. apply local_write.
Qed.
Lemma local_copy_to : forall f n c p f', copy_to f n c p = Ok f' -> local p f f'.
Proof.
  intros f n c p f' H. unfold copy_to in H. apply local_put in H. destruct (is_dir f p); auto.
  eapply local_weaken; [|exact H]. apply under_cons.
Qed.
Lemma local_ensure_dir : forall f p f', ensure_dir f p = Ok f' -> local p f f'.
Proof.
  intros f p f' H. unfold ensure_dir in H. destruct (lookup f p) as [[c|]|]; try discriminate.
  - injection H as <-. apply local_refl.
  - destruct (is_dir f (tl p)); [|discriminate]. injection H as <-. apply local_write.
Qed.
Lemma tree_ind' : forall (P : tree -> Prop),
  (forall n c, P (TFile n c)) -> (forall n cs, Forall P cs -> P (TDir n cs)) -> forall t, P t.
Proof.
  intros P HF HD. fix IH 1. intros [n c|n cs]; [apply HF|]. apply HD. induction cs as [|t r IHr]; constructor; auto.
Qed.
Lemma local_copy_one : forall t dst f, local dst f (copy_one dst f t).
Proof.
  induction t as [n c|n cs IH] using tree_ind'; intros dst f; cbn [copy_one].
  - eapply local_weaken; [apply under_cons | apply local_write].
  - apply local_weaken with (b := n :: dst); [apply under_cons|].
    assert (forall g, local (n :: dst) g (fold_left (copy_one (n :: dst)) cs g)) as F.
    { clear f. induction IH as [|t r Ht _ IHr]; intros g; [apply local_refl|]. cbn [fold_left].
      eapply local_trans; [apply Ht | apply IHr]. }
    eapply local_trans; [apply local_write | apply F].
Qed.
Lemma local_copy_tree : forall cs dst f, local dst f (copy_tree f dst cs).
Proof.
  intros cs dst. unfold copy_tree. induction cs as [|t r IH]; intros f; [apply local_refl|]. cbn [fold_left].
  eapply local_trans; [apply local_copy_one | apply IH].
Qed.
Lemma tmpl_stem_some : forall p stem par, tmpl_stem p = Some (stem, par) -> exists n, p = n :: par.
Proof. intros [|n q] stem par H; [discriminate|]. cbn in H. destruct (_ && _) in H; [|discriminate]. injection H as _ <-. eauto. Qed.
Lemma local_render_file : forall texts f n c m par, local par f (fst (render_file texts f n c (m :: par))).
Proof.
  intros texts f n c m par. unfold render_file.
  destruct (tmpl_stem (m :: par)) as [[stem q]|] eqn:T.
  - destruct (tmpl_stem_some _ _ _ T) as [m' E]. injection E as _ <-.
    destruct (_ || _); [apply local_refl|]. destruct (put f (stem :: par) []) as [f1|e] eqn:P1; [|apply local_refl].
    apply local_put in P1. apply local_weaken with (a := par) in P1; [|apply under_cons].
    destruct (texts c) as [t|e]; [|exact P1].
    destruct (put f1 (stem :: par) t) as [f2|e] eqn:P2; [|exact P1].
    apply local_put in P2. apply local_weaken with (a := par) in P2; [|apply under_cons]. cbn [fst]. eapply local_trans; eauto.
  - destruct (copy_to f n c (m :: par)) as [f1|e] eqn:P; [|apply local_refl]. apply local_copy_to in P.
    eapply local_weaken; [apply under_cons | exact P].
Qed.

Section Rendering.
  Variables (names texts : str -> res str) (ignored : path -> bool).
  Hypothesis plain : plain_names names.

  Lemma loop_local : forall b (entry : tree -> fs -> fs * res bool) l,
    Forall (fun t => forall f, lookup f b <> None -> local b f (fst (entry t f))) l ->
    forall f, lookup f b <> None -> local b f (fst (loop entry l f)).
  Proof.
    intros b entry l. induction 1 as [|t r Ht _ IH]; intros f E; [apply local_refl|]. cbn [loop].
    specialize (Ht f E). destruct (entry t f) as [f' [[]|e]]; cbn [fst] in *; auto.
    eapply local_trans; [exact Ht|]. apply IH. apply Ht. exact E.
  Qed.
  Lemma entry_local : forall t at_ target f, lookup f target <> None ->
    local target f (fst (render_entry names texts ignored at_ target t f)).
  Proof.
    induction t as [n c|n cs IH] using tree_ind'; intros at_ target f E; cbn [render_entry tname];
      (destruct (ignored (n :: at_)); [apply local_refl|]);
      (destruct (names n) as [m|e] eqn:N; [|apply local_refl]);
      (destruct (plain _ _ N) as [->|P]; [apply local_refl|]);
      (destruct m as [|x y] eqn:M; [apply local_refl|]; rewrite <- M in *; clear M x y);
      cbv zeta; rewrite (resolve_plain target m P); unfold ensure_parent; cbn [tl];
      rewrite (proj2 (exists_at_true f target) E).
    - pose proof (local_render_file texts f n c m target) as L. unfold continue.
      destruct (render_file texts f n c (m :: target)) as [f' [u|e]]; exact L.
    - destruct (preserved cs).
      + destruct (_ || _); [apply local_refl|]. cbn [fst]. apply local_weaken with (b := m :: target); [apply under_cons|].
        eapply local_trans; [apply local_write | apply local_copy_tree].
      + destruct (ensure_dir f (m :: target)) as [f2|e] eqn:D; [|apply local_refl].
        assert (lookup f2 (m :: target) <> None) as E2.
        { unfold ensure_dir in D. destruct (lookup f (m :: target)) as [[c|]|] eqn:L; try discriminate.
          - injection D as <-. rewrite L. discriminate.
          - destruct (is_dir f (tl (m :: target))); [|discriminate]. injection D as <-. rewrite lookup_write, path_eqb_refl. discriminate. }
        apply local_ensure_dir in D. apply local_weaken with (b := m :: target); [apply under_cons|].
        eapply local_trans; [exact D|].
        pose proof (loop_local (m :: target) (render_entry names texts ignored (n :: at_) (m :: target)) cs) as L.
        assert (Forall (fun t => forall g, lookup g (m :: target) <> None ->
                  local (m :: target) g (fst (render_entry names texts ignored (n :: at_) (m :: target) t g))) cs) as A
          by (eapply Forall_impl; [|exact IH]; intros t H; apply (H (n :: at_) (m :: target))).
        specialize (L A f2 E2).
        unfold continue. destruct (loop _ cs f2) as [f3 [u|e]]; exact L.
  Qed.
  (** rendering changes nothing outside the directory it renders to *)
  Lemma render_local : forall children at_ target f, lookup f target <> None ->
    local target f (fst (render names texts ignored f at_ target children)).
  Proof.
    intros children at_ target f E. apply loop_local; auto. apply Forall_forall. intros t _ g G. apply entry_local. exact G.
  Qed.
End Rendering.

(** ** The entries that are copied *)
Lemma in_by_depth : forall l e, In e (by_depth l) <-> In e l /\ fst e <> [].
Proof.
  intros l [r n]. unfold by_depth. rewrite in_flat_map. cbn [fst]. split.
  - intros (d & D & I). apply in_seq in D. apply filter_In in I. destruct I as [I L]. apply Nat.eqb_eq in L. cbn [fst] in L. split; auto.
    intro X. rewrite X in L. cbn in L. lia.
  - intros [I N]. exists (length r). split; [|apply filter_In; split; auto; apply Nat.eqb_refl].
    apply in_seq. assert (length r <= list_max (map (fun e => length (fst e)) l)) as M.
    { pose proof (proj1 (list_max_le (map (fun e => length (fst e)) l) _) (le_n _)) as F. rewrite Forall_forall in F. apply F.
      apply in_map_iff. exists (r, n). split; auto. }
    destruct r; [congruence|]. cbn [length] in *. lia.
Qed.
Lemma in_tree_at : forall f p r n, In (r, n) (tree_at f p) -> lookup f (r ++ p) <> None.
Proof. intros f p r n H. rewrite <- lookup_tree_at. eapply in_lookup; eauto. Qed.
Lemma apart_app : forall a b r, under a b = false -> under b a = false -> under a (r ++ b) = false.
Proof.
  intros a b r H1 H2. destruct (under a (r ++ b)) eqn:E; auto.
  destruct (under_linear a b (r ++ b) E (under_app r b)); congruence.
Qed.

(** what making directories and copying does to what is there: directories stay, files stay but for doubled names *)
Definition doubled (target p : path) : Prop := exists n d, p = n :: n :: d /\ under target d = true.
Definition kept (target : path) (f f' : fs) : Prop :=
  (forall p, lookup f p = Some Dir -> lookup f' p = Some Dir) /\
  (forall p c, lookup f p = Some (File c) -> lookup f' p = Some (File c) \/ doubled target p).
Lemma mkdirs_keeps : forall p f f', mkdirs f p = Ok f' -> forall q, lookup f q <> None -> lookup f' q = lookup f q.
Proof.
  induction p as [|n p IH]; intros f f' H q Q; cbn [mkdirs] in H.
  - destruct (lookup f []) as [[c|]|] eqn:L; try discriminate; injection H as <-; auto.
    rewrite lookup_write. destruct (path_eqb q []) eqn:E; auto. apply path_eqb_eq in E. congruence.
  - destruct (lookup f (n :: p)) as [[c|]|] eqn:L; try discriminate; [injection H as <-; auto|].
    destruct (mkdirs f p) as [g|e] eqn:M; [|discriminate]. cbn [bind] in H. injection H as <-.
    rewrite lookup_write. destruct (path_eqb q (n :: p)) eqn:E; [apply path_eqb_eq in E; congruence|]. eapply IH; eauto.
Qed.
Lemma put_lookup : forall f p c f', put f p c = Ok f' ->
  lookup f p <> Some Dir /\ forall q, lookup f' q = if path_eqb q p then Some (File c) else lookup f q.
Proof.
  intros f [|n par] c f' H; [discriminate|]. unfold put in H. destruct (is_dir f (n :: par)) eqn:D; [discriminate|].
  destruct (is_dir f par); [|discriminate]. injection H as <-. split; [|intro q; apply lookup_write].
  intro X. apply is_dir_true in X. congruence.
Qed.
Lemma ensure_dir_lookup : forall f p f', ensure_dir f p = Ok f' ->
  forall q, lookup f' q = if path_eqb q p then Some Dir else lookup f q.
Proof.
  intros f p f' H q. unfold ensure_dir in H. destruct (lookup f p) as [[c|]|] eqn:L; try discriminate.
  - injection H as <-. destruct (path_eqb q p) eqn:E; auto. apply path_eqb_eq in E. congruence.
  - destruct (is_dir f (tl p)); [|discriminate]. injection H as <-. apply lookup_write.
Qed.
Lemma ensure_dir_was : forall f p f', ensure_dir f p = Ok f' -> forall c, lookup f p <> Some (File c).
Proof. intros f p f' H c X. unfold ensure_dir in H. rewrite X in H. discriminate. Qed.

(** one entry: nothing that the check let through is lost *)
Lemma copy_entry_kept : forall target f g ok e,
  fst e <> [] -> (forall c, lookup f (fst e ++ target) <> Some (File c)) -> kept target f g ->
  kept target f (fst (copy_entry target (g, ok) e)).
Proof.
  intros target f g ok [r nd] R C [KD KF]. cbn [fst snd] in *. unfold copy_entry. cbn [fst snd].
  destruct nd as [c|].
  - destruct (copy_to g (hd [] r) c (r ++ target)) as [g'|e] eqn:P; cbn [fst]; [|split; assumption].
    unfold copy_to in P. apply put_lookup in P. destruct P as [ND PL]. destruct r as [|n r]; [congruence|]. cbn [hd] in *.
    split.
    + intros p L. rewrite PL. destruct (path_eqb p _) eqn:E; [|auto]. apply path_eqb_eq in E. subst p.
      exfalso. apply ND. apply KD. exact L.
    + intros p c0 L. rewrite PL. destruct (path_eqb p _) eqn:E; [|eauto]. apply path_eqb_eq in E.
      destruct (is_dir g ((n :: r) ++ target)) eqn:D.
      * right. exists n, (r ++ target). split; [exact E | apply under_app].
      * subst p. exfalso. eapply C, L.
  - destruct (ensure_dir g (r ++ target)) as [g'|e] eqn:P; cbn [fst]; [|split; assumption].
    pose proof (ensure_dir_lookup _ _ _ P) as PL. split.
    + intros p L. rewrite PL. destruct (path_eqb p _); auto.
    + intros p c L. rewrite PL. destruct (path_eqb p _) eqn:E; [|auto]. apply path_eqb_eq in E. subst p. exfalso. eapply C, L.
Qed.
Lemma copy_all_kept : forall target f l g ok,
  (forall e, In e l -> fst e <> [] /\ forall c, lookup f (fst e ++ target) <> Some (File c)) -> kept target f g ->
  kept target f (fst (fold_left (copy_entry target) l (g, ok))).
Proof.
  intros target f l. induction l as [|e r IH]; intros g ok H K; [exact K|]. cbn [fold_left].
  destruct (copy_entry target (g, ok) e) as [g' ok'] eqn:E. apply IH; [intros e' I; apply H; right; exact I|].
  change g' with (fst (g', ok')). rewrite <- E. apply copy_entry_kept; auto; apply (H e); left; reflexivity.
Qed.

Section Execute.
  Variables (names texts : str -> res str) (ignored : path -> bool) (template : list tree) (tdir target : path) (f : fs).
  Hypothesis plain : plain_names names.
  Hypothesis fresh : forall p, under tdir p = true -> lookup f p = None.

  Lemma rendered_local : forall p, under tdir p = false ->
    lookup (fst (render names texts ignored (write f tdir Dir) [] tdir template)) p = lookup f p.
  Proof.
    intros p U. destruct (render_local names texts ignored plain template [] tdir (write f tdir Dir)) as [L _].
    - rewrite lookup_write, path_eqb_refl. discriminate.
    - rewrite L by exact U. rewrite lookup_write. destruct (path_eqb p tdir) eqn:E; auto.
      apply path_eqb_eq in E. subst. rewrite under_refl in U. discriminate.
  Qed.
  (** cleaned up: as it was *)
  Lemma cleaned : forall p,
    lookup (remove_tree (fst (render names texts ignored (write f tdir Dir) [] tdir template)) tdir) p = lookup f p.
  Proof.
    intro p. rewrite lookup_remove_tree. destruct (under tdir p) eqn:U; [symmetry; apply fresh, U | apply rendered_local, U].
  Qed.
  Lemma execute_kept : under tdir target = false -> under target tdir = false ->
    let f' := fst (execute names texts ignored template false tdir target f) in
    (forall p, lookup f p = Some Dir -> lookup f' p = Some Dir) /\
    (forall p c, lookup f p = Some (File c) -> lookup f' p = Some (File c) \/ doubled target p).
  Proof.
    intros A1 A2. cbv zeta. unfold execute. pose proof cleaned as CL. pose proof rendered_local as RL.
    destruct (render names texts ignored (write f tdir Dir) [] tdir template) as [f2 [u|e]]; cbn [fst] in CL, RL.
    2:{ cbn [fst]. split; intros; rewrite CL; auto. }
    destruct (existsb _ _) eqn:X; [cbn [fst]; split; intros; rewrite CL; auto|].
    destruct (mkdirs f2 target) as [f3|e] eqn:M; [|cbn [fst]; split; intros; rewrite CL; auto].
    assert (kept target f2 (fst (fold_left (copy_entry target) (by_depth (tree_at f2 tdir)) (f3, true)))) as K.
    { apply copy_all_kept.
      - intros [r n] I. split; [apply in_by_depth in I; apply I|]. intros c L. cbn [fst] in L.
        rewrite <- not_true_iff_false, existsb_exists in X. apply X. exists (r, n). split; auto. cbn [fst].
        apply andb_true_iff. split; [apply exists_at_true; rewrite L; discriminate|]. unfold is_dir. rewrite L. reflexivity.
      - pose proof (mkdirs_keeps _ _ _ M) as MK. split; [intros p L|intros p c L; left]; rewrite MK; auto; rewrite L; discriminate. }
    destruct (fold_left _ _ _) as [f4 ok]. cbn [fst] in *. destruct K as [KD KF].
    assert (forall p n, lookup f p = Some n -> under tdir p = false) as O.
    { intros p n L. destruct (under tdir p) eqn:U; auto. rewrite fresh in L by auto. discriminate. }
    split.
    - intros p L. rewrite lookup_remove_tree, (O _ _ L). apply KD. rewrite RL; eauto.
    - intros p c L. rewrite lookup_remove_tree, (O _ _ L). apply KF. rewrite RL; eauto.
  Qed.
  Lemma execute_refuses : forall f2, under tdir target = false -> under target tdir = false ->
    render names texts ignored (write f tdir Dir) [] tdir template = (f2, Ok tt) ->
    (exists r c, r <> [] /\ lookup f2 (r ++ tdir) <> None /\ lookup f (r ++ target) = Some (File c)) ->
    snd (execute names texts ignored template false tdir target f) = Err IOErr /\
    forall p, lookup (fst (execute names texts ignored template false tdir target f)) p = lookup f p.
  Proof.
    intros f2 A1 A2 R (r & c & N & L & F). unfold execute. pose proof cleaned as CL. pose proof rendered_local as RL.
    rewrite R in *. cbn [fst] in *. destruct (existsb _ _) eqn:X; [split; [reflexivity | exact CL]|].
    exfalso. rewrite <- not_true_iff_false, existsb_exists in X. apply X.
    destruct (lookup f2 (r ++ tdir)) as [nd|] eqn:L2; [|congruence].
    exists (r, nd). split.
    - apply in_by_depth. split; auto. apply lookup_in. rewrite lookup_tree_at. exact L2.
    - assert (lookup f2 (r ++ target) = Some (File c)) as E by (rewrite RL; auto; apply apart_app; auto).
      cbn [fst]. unfold exists_at, is_dir. rewrite E. reflexivity.
  Qed.
  Lemma execute_fails : forall f2 e,
    render names texts ignored (write f tdir Dir) [] tdir template = (f2, Err e) ->
    snd (execute names texts ignored template false tdir target f) = Err e /\
    forall p, lookup (fst (execute names texts ignored template false tdir target f)) p = lookup f p.
  Proof.
    intros f2 e R. unfold execute. pose proof cleaned as CL. rewrite R in *. split; [reflexivity | exact CL].
  Qed.
End Execute.
