From Coq Require Import String Ascii List Bool NArith Arith Lia.
From Verif Require Import Base BaseFacts FsModel FsFacts NamesModel SharedModel.
Import ListNotations.
Open Scope list_scope.

Lemma dedup_in : forall l x, In x (dedup l) <-> In x l.
Proof.
  induction l as [|y l IH]; intro x; [reflexivity|]. cbn [dedup In]. rewrite filter_In, IH. split.
  - intros [E|[E _]]; auto.
  - intros [E|E]; [left; exact E|]. destruct (str_eqb y x) eqn:Q; [left; apply str_eqb_eq, Q|right; split; [exact E|reflexivity]].
Qed.
Lemma dedup_nodup : forall l, NoDup (dedup l).
Proof.
  induction l as [|y l IH]; [constructor|]. cbn [dedup]. constructor.
  - rewrite filter_In. intros [_ H]. rewrite str_eqb_refl in H. discriminate.
  - apply NoDup_filter, IH.
Qed.
Lemma children_nodup : forall f p, NoDup (children f p).
Proof. intros. apply dedup_nodup. Qed.
Lemma children_in : forall f p c, In c (children f p) <-> lookup f (c :: p) <> None.
Proof.
  intros f p c. unfold children. rewrite dedup_in, in_map_iff. split.
  - intros ([q n] & E & H). apply filter_In in H. destruct H as [H C]. cbn [fst] in *. apply is_child_iff in C.
    destruct C as [d ->]. cbn in E. subst d. eapply in_lookup, H.
  - intro H. destruct (lookup f (c :: p)) as [n|] eqn:E; [|congruence]. exists (c :: p, n). split; [reflexivity|].
    apply filter_In. split; [apply lookup_in, E|]. cbn [fst]. apply is_child_iff. eauto.
Qed.

(** loops whose rounds each work below one child *)
Section Loop.
  Variables (b : path) (step : fs -> str -> fs) (G : str -> (path -> option node) -> path -> Prop).
  Hypothesis step_spec : forall f c q, (G c (lookup f) q /\ lookup (step f c) q = None) \/
                                       (~ G c (lookup f) q /\ lookup (step f c) q = lookup f q).
  Hypothesis G_local : forall c L L' q, (forall r, under (c :: b) r = true -> L r = L' r) -> G c L q -> G c L' q.
  Hypothesis G_under : forall c L q, G c L q -> under (c :: b) q = true.

  Lemma apart : forall c d q, under (c :: b) q = true -> under (d :: b) q = true -> c = d.
  Proof.
    intros c d q H1 H2. destruct (under_linear _ _ _ H1 H2) as [U|U]; apply under_iff in U; destruct U as [r E];
      assert (X := f_equal (@length str) E); rewrite app_length in X; cbn [length] in X;
      (destruct r; [injection E; auto|cbn [length] in X; lia]).
  Qed.
  Lemma step_frame : forall f c q, under (c :: b) q = false -> lookup (step f c) q = lookup f q.
  Proof. intros f c q U. destruct (step_spec f c q) as [[H _]|[_ H]]; [|exact H]. apply G_under in H. congruence. Qed.
  Lemma loop_spec : forall l f q, NoDup l ->
    ((exists c, In c l /\ G c (lookup f) q) /\ lookup (fold_left step l f) q = None) \/
    ((forall c, In c l -> ~ G c (lookup f) q) /\ lookup (fold_left step l f) q = lookup f q).
  Proof.
    induction l as [|c l IH]; intros f q N; [right; split; [intros c []|reflexivity]|].
    inversion N as [|? ? Nc Nl]; subst. cbn [fold_left].
    assert (Loc : forall d r, In d l -> under (d :: b) r = true -> lookup (step f c) r = lookup f r).
    { intros d r Hd U. apply step_frame. destruct (under (c :: b) r) eqn:U2; [|reflexivity]. exfalso.
      rewrite (apart c d r U2 U) in Nc. contradiction. }
    destruct (IH (step f c) q Nl) as [[(d & Hd & Gd) R]|[Gd R]]; rewrite R.
    - left. split; [|reflexivity]. exists d. split; [right; exact Hd|]. eapply G_local; [|exact Gd]. intros r U. apply (Loc d r Hd U).
    - destruct (step_spec f c q) as [[Gc E]|[Gc E]].
      + left. split; [exists c; split; [left; reflexivity|exact Gc]|exact E].
      + right. split; [|exact E]. intros d [<-|Hd]; [exact Gc|]. intro X. apply (Gd d Hd). eapply G_local; [|exact X].
        intros r U. symmetry. apply (Loc d r Hd U).
  Qed.
End Loop.

Section Clean.
  Variables (used : list str) (text : str) (ws : path).
  Definition unused (p v a : str) : Prop := ~ In (artifact_text text p v a) used.

  Lemma str_mem_iff : forall x l, str_mem x l = true <-> In x l.
  Proof.
    intros x l. unfold str_mem. rewrite existsb_exists. split.
    - intros (y & H & E). apply str_eqb_eq in E. subst. exact H.
    - intro H. exists x. split; [exact H|apply str_eqb_refl].
  Qed.
  Definition g_art (p v a : str) (L : path -> option node) (q : path) : Prop :=
    under (a :: v :: p :: ws) q = true /\ L (a :: v :: p :: ws) = Some Dir /\ unused p v a.
  Definition emptied_version (L : path -> option node) (p v : str) : Prop :=
    L (v :: p :: ws) = Some Dir /\ forall a, L (a :: v :: p :: ws) <> None -> L (a :: v :: p :: ws) = Some Dir /\ unused p v a.
  Definition g_version (p v : str) (L : path -> option node) (q : path) : Prop :=
    L (v :: p :: ws) = Some Dir /\ ((exists a, g_art p v a L q) \/ (q = v :: p :: ws /\ emptied_version L p v)).
  Definition emptied_package (L : path -> option node) (p : str) : Prop :=
    L (p :: ws) = Some Dir /\ forall v, L (v :: p :: ws) <> None -> emptied_version L p v.
  Definition g_package (p : str) (L : path -> option node) (q : path) : Prop :=
    L (p :: ws) = Some Dir /\ ((exists v, g_version p v L q) \/ (q = p :: ws /\ emptied_package L p)).

  Lemma art_spec : forall p v f a q,
    (g_art p v a (lookup f) q /\ lookup (clean_artifact used text ws p v f a) q = None) \/
    (~ g_art p v a (lookup f) q /\ lookup (clean_artifact used text ws p v f a) q = lookup f q).
  Proof.
    intros p v f a q. unfold clean_artifact, g_art, unused. destruct (is_dir f (a :: v :: p :: ws)) eqn:D.
    2:{ right. split; [|reflexivity]. intros (_ & X & _). apply is_dir_true in X. congruence. }
    apply is_dir_true in D. destruct (str_mem (artifact_text text p v a) used) eqn:M.
    - apply str_mem_iff in M. right. split; [|reflexivity]. tauto.
    - rewrite lookup_remove_tree. assert (~ In (artifact_text text p v a) used) by (rewrite <- str_mem_iff; congruence).
      destruct (under (a :: v :: p :: ws) q) eqn:U; [left; auto|right]. split; [|reflexivity]. intros (X & _). discriminate.
  Qed.
  Lemma art_local : forall p v a L L' q, (forall r, under (a :: v :: p :: ws) r = true -> L r = L' r) -> g_art p v a L q -> g_art p v a L' q.
  Proof. intros p v a L L' q H (U & D & X). split; [exact U|]. split; [|exact X]. rewrite <- H; [exact D|apply under_refl]. Qed.
  Lemma art_under : forall p v a L q, g_art p v a L q -> under (a :: v :: p :: ws) q = true.
  Proof. intros p v a L q (U & _). exact U. Qed.

  Lemma not_under_child : forall c b, under (c :: b) b = false.
  Proof.
    intros c b. destruct (under (c :: b) b) eqn:U; [|reflexivity]. apply under_len in U. cbn in U. lia.
  Qed.
  Lemma version_spec : forall p f v q,
    (g_version p v (lookup f) q /\ lookup (clean_version used text ws p f v) q = None) \/
    (~ g_version p v (lookup f) q /\ lookup (clean_version used text ws p f v) q = lookup f q).
  Proof.
    intros p f v q. unfold clean_version. destruct (is_dir f (v :: p :: ws)) eqn:D.
    2:{ right. split; [|reflexivity]. intros (X & _). apply is_dir_true in X. congruence. }
    apply is_dir_true in D. set (f1 := fold_left _ _ _).
    assert (S : forall q, (( exists a, In a (children f (v :: p :: ws)) /\ g_art p v a (lookup f) q) /\ lookup f1 q = None) \/
                ((forall a, In a (children f (v :: p :: ws)) -> ~ g_art p v a (lookup f) q) /\ lookup f1 q = lookup f q)).
    { intro q0. apply (loop_spec (v :: p :: ws) (clean_artifact used text ws p v) (g_art p v)).
      - intros. apply art_spec. - intros c L L' q1. apply art_local. - intros c L q1. apply art_under. - apply children_nodup. }
    assert (InC : forall a q, g_art p v a (lookup f) q -> In a (children f (v :: p :: ws))).
    { intros a q0 (_ & X & _). apply children_in. rewrite X. discriminate. }
    assert (Self : lookup f1 (v :: p :: ws) = Some Dir).
    { destruct (S (v :: p :: ws)) as [[(a & _ & (U & _)) _]|[_ E]]; [|congruence]. rewrite not_under_child in U. discriminate. }
    assert (Emp : is_empty_directory f1 (v :: p :: ws) = true <-> emptied_version (lookup f) p v).
    { rewrite is_empty_directory_true. unfold emptied_version. split; intros [_ H]; (split; [assumption|]).
      - intros a Ha. destruct (S (a :: v :: p :: ws)) as [[(b & _ & (U & X & Y)) _]|[_ E]].
        + assert (b = a) by (apply (apart (v :: p :: ws) b a (a :: v :: p :: ws) U), under_refl). subst b. auto.
        + exfalso. apply Ha. rewrite <- E. apply H.
      - intro a. destruct (S (a :: v :: p :: ws)) as [[_ E]|[N E]]; [exact E|]. rewrite E.
        destruct (lookup f (a :: v :: p :: ws)) eqn:La; [|reflexivity]. exfalso.
        assert (La' : lookup f (a :: v :: p :: ws) <> None) by congruence.
        apply (N a); [apply children_in, La'|]. destruct (H a La') as [X Y]. split; [apply under_refl|]. split; assumption. }
    assert (Gv : forall q, g_version p v (lookup f) q <-> (exists a, In a (children f (v :: p :: ws)) /\ g_art p v a (lookup f) q) \/ (q = v :: p :: ws /\ emptied_version (lookup f) p v)).
    { intro q0. unfold g_version. split.
      - intros [_ [[a X]|X]]; [left; exists a; split; [eapply InC, X|exact X]|right; exact X].
      - intros [(a & _ & X)|X]; (split; [exact D|]); [left; exists a; exact X|right; exact X]. }
    destruct (is_empty_directory f1 (v :: p :: ws)) eqn:E.
    - rewrite lookup_remove. assert (EV : emptied_version (lookup f) p v) by (apply Emp; reflexivity).
      destruct (path_eqb q (v :: p :: ws)) eqn:Q.
      + apply path_eqb_eq in Q. left. split; [|reflexivity]. apply Gv. right. auto.
      + apply path_eqb_neq in Q. destruct (S q) as [[X R]|[X R]]; [left|right]; (split; [|exact R]).
        * apply Gv. left. exact X.
        * rewrite Gv. intros [(a & Ia & Y)|[Y _]]; [exact (X a Ia Y)|contradiction].
    - destruct (S q) as [[X R]|[X R]]; [left|right]; (split; [|exact R]).
      + apply Gv. left. exact X.
      + rewrite Gv. intros [(a & Ia & Y)|[_ Y]]; [exact (X a Ia Y)|]. apply Emp in Y. discriminate.
  Qed.
  Lemma version_ext : forall p v L L', (forall r, under (v :: p :: ws) r = true -> L r = L' r) -> emptied_version L p v -> emptied_version L' p v.
  Proof.
    intros p v L L' H [D E]. split; [rewrite <- H; [exact D|apply under_refl]|]. intro a.
    rewrite <- H by apply under_cons. apply E.
  Qed.
  Lemma version_local : forall p v L L' q, (forall r, under (v :: p :: ws) r = true -> L r = L' r) -> g_version p v L q -> g_version p v L' q.
  Proof.
    intros p v L L' q H [D X]. split; [rewrite <- H; [exact D|apply under_refl]|]. destruct X as [[a X]|[E X]].
    - left. exists a. eapply art_local; [|exact X]. intros r U. apply H. eapply under_trans; [|exact U]. apply under_cons.
    - right. split; [exact E|]. eapply version_ext; eassumption.
  Qed.
  Lemma version_under : forall p v L q, g_version p v L q -> under (v :: p :: ws) q = true.
  Proof.
    intros p v L q [_ [[a X]|[-> _]]]; [|apply under_refl]. apply art_under in X. eapply under_trans; [|exact X]. apply under_cons.
  Qed.

  Lemma package_spec : forall f p q,
    (g_package p (lookup f) q /\ lookup (clean_package used text ws f p) q = None) \/
    (~ g_package p (lookup f) q /\ lookup (clean_package used text ws f p) q = lookup f q).
  Proof.
    intros f p q. unfold clean_package. destruct (is_dir f (p :: ws)) eqn:D.
    2:{ right. split; [|reflexivity]. intros (X & _). apply is_dir_true in X. congruence. }
    apply is_dir_true in D. set (f1 := fold_left _ _ _).
    assert (S : forall q, ((exists v, In v (children f (p :: ws)) /\ g_version p v (lookup f) q) /\ lookup f1 q = None) \/
                ((forall v, In v (children f (p :: ws)) -> ~ g_version p v (lookup f) q) /\ lookup f1 q = lookup f q)).
    { intro q0. apply (loop_spec (p :: ws) (clean_version used text ws p) (g_version p)).
      - intros. apply version_spec. - intros c L L' q1. apply version_local. - intros c L q1. apply version_under. - apply children_nodup. }
    assert (InC : forall v q, g_version p v (lookup f) q -> In v (children f (p :: ws))).
    { intros v q0 (X & _). apply children_in. rewrite X. discriminate. }
    assert (Self : lookup f1 (p :: ws) = Some Dir).
    { destruct (S (p :: ws)) as [[(v & _ & X) _]|[_ E]]; [|congruence]. apply version_under in X. rewrite not_under_child in X. discriminate. }
    assert (Top : forall v, g_version p v (lookup f) (v :: p :: ws) -> emptied_version (lookup f) p v).
    { intros v [_ [[a X]|[_ X]]]; [|exact X]. apply art_under in X. rewrite not_under_child in X. discriminate. }
    assert (Emp : is_empty_directory f1 (p :: ws) = true <-> emptied_package (lookup f) p).
    { rewrite is_empty_directory_true. unfold emptied_package. split; intros [_ H]; (split; [assumption|]).
      - intros v Hv. destruct (S (v :: p :: ws)) as [[(w & _ & X) _]|[_ E]].
        + assert (w = v) by (apply (apart (p :: ws) w v (v :: p :: ws)); [apply (version_under _ _ _ _ X)|apply under_refl]). subst w.
          apply Top, X.
        + exfalso. apply Hv. rewrite <- E. apply H.
      - intro v. destruct (S (v :: p :: ws)) as [[_ E]|[N E]]; [exact E|]. rewrite E.
        destruct (lookup f (v :: p :: ws)) eqn:Lv; [|reflexivity]. exfalso.
        assert (Lv' : lookup f (v :: p :: ws) <> None) by congruence.
        apply (N v); [apply children_in, Lv'|]. assert (EV := H v Lv'). split; [apply (proj1 EV)|]. right. split; [reflexivity|exact EV]. }
    assert (Gv : forall q, g_package p (lookup f) q <-> (exists v, In v (children f (p :: ws)) /\ g_version p v (lookup f) q) \/ (q = p :: ws /\ emptied_package (lookup f) p)).
    { intro q0. unfold g_package. split.
      - intros [_ [[a X]|X]]; [left; exists a; split; [eapply InC, X|exact X]|right; exact X].
      - intros [(a & _ & X)|X]; (split; [exact D|]); [left; exists a; exact X|right; exact X]. }
    destruct (is_empty_directory f1 (p :: ws)) eqn:E.
    - rewrite lookup_remove. assert (EV : emptied_package (lookup f) p) by (apply Emp; reflexivity).
      destruct (path_eqb q (p :: ws)) eqn:Q.
      + apply path_eqb_eq in Q. left. split; [|reflexivity]. apply Gv. right. auto.
      + apply path_eqb_neq in Q. destruct (S q) as [[X R]|[X R]]; [left|right]; (split; [|exact R]).
        * apply Gv. left. exact X.
        * rewrite Gv. intros [(a & Ia & Y)|[Y _]]; [exact (X a Ia Y)|contradiction].
    - destruct (S q) as [[X R]|[X R]]; [left|right]; (split; [|exact R]).
      + apply Gv. left. exact X.
      + rewrite Gv. intros [(a & Ia & Y)|[_ Y]]; [exact (X a Ia Y)|]. apply Emp in Y. discriminate.
  Qed.
  Lemma package_local : forall p L L' q, (forall r, under (p :: ws) r = true -> L r = L' r) -> g_package p L q -> g_package p L' q.
  Proof.
    intros p L L' q H [D X]. split; [rewrite <- H; [exact D|apply under_refl]|].
    assert (H2 : forall v r, under (v :: p :: ws) r = true -> L r = L' r).
    { intros v r U. apply H. eapply under_trans; [|exact U]. apply under_cons. }
    destruct X as [[v X]|[E [D2 X]]].
    - left. exists v. eapply version_local; [apply (H2 v)|exact X].
    - right. split; [exact E|]. split; [rewrite <- H; [exact D|apply under_refl]|]. intros v Hv.
      eapply version_ext; [apply (H2 v)|]. apply X. rewrite (H2 v); [exact Hv|apply under_refl].
  Qed.
  Lemma package_under : forall p L q, g_package p L q -> under (p :: ws) q = true.
  Proof.
    intros p L q [_ [[a X]|[-> _]]]; [|apply under_refl]. apply version_under in X. eapply under_trans; [|exact X]. apply under_cons.
  Qed.
  Lemma clean_spec : forall f q,
    ((exists p, g_package p (lookup f) q) /\ lookup (fold_left (clean_package used text ws) (children f ws) f) q = None) \/
    (~ (exists p, g_package p (lookup f) q) /\ lookup (fold_left (clean_package used text ws) (children f ws) f) q = lookup f q).
  Proof.
    intros f q. destruct (loop_spec ws (clean_package used text ws) g_package) with (l := children f ws) (f := f) (q := q) as [[(p & _ & X) E]|[X E]].
    - intros. apply package_spec. - intros c L L' q1. apply package_local. - intros c L q1. apply package_under. - apply children_nodup.
    - left. split; [exists p; exact X|exact E].
    - right. split; [|exact E]. intros [p Y]. apply (X p); [|exact Y]. apply children_in. destruct Y as [Y _]. rewrite Y. discriminate.
  Qed.
End Clean.

(** ** what the environments reference *)
Lemma last_split : forall (c : ascii) a b x y, a ++ c :: x = b ++ c :: y -> ~ In c x -> ~ In c y -> a = b /\ x = y.
Proof.
  induction a as [|u a IH]; intros b x y E Hx Hy; destruct b as [|w b]; cbn in E.
  - injection E as ->. auto.
  - injection E as -> ->. exfalso. apply Hx. apply in_or_app. right. left. reflexivity.
  - injection E as -> <-. exfalso. apply Hy. apply in_or_app. right. left. reflexivity.
  - injection E as -> E. destruct (IH b x y E Hx Hy) as [-> ->]. auto.
Qed.
Lemma suffix_from_iff : forall r ext, ~ In "."%char ext ->
  (suffix_from ext r = lit ".dist-info" <-> exists stem, stem <> [] /\ rev r ++ ext = stem ++ lit ".dist-info").
Proof.
  assert (ND : ~ In "."%char (lit "dist-info")) by (cbn; intuition discriminate).
  induction r as [|c r IH]; intros ext H; cbn [suffix_from].
  - split; [discriminate|]. cbn. intros (stem & _ & E). exfalso. apply H. rewrite E. apply in_or_app. right. left. reflexivity.
  - destruct (Ascii.eqb c ".") eqn:C.
    + apply Ascii.eqb_eq in C. subst c. cbn [rev]. rewrite <- app_assoc. change (["."%char] ++ ext) with ("."%char :: ext). split.
      * intro E. destruct ext as [|e ext]; [discriminate|]. destruct r as [|d r]; [discriminate|].
        exists (rev (d :: r)). split; [|f_equal; exact E]. intro X. apply (f_equal (@length ascii)) in X. rewrite rev_length in X. discriminate.
      * intros (stem & N & E). change (lit ".dist-info") with ("."%char :: lit "dist-info") in *. apply last_split in E; try assumption.
        destruct E as [E ->]. destruct r; [cbn in E; congruence|]. reflexivity.
    + cbn [rev]. rewrite <- app_assoc. apply (IH (c :: ext)). intros [->|X]; [discriminate|contradiction].
Qed.
Lemma suffix_iff : forall n, str_eqb (suffix n) ".dist-info" = true <-> exists stem, stem <> [] /\ n = stem ++ lit ".dist-info".
Proof.
  intro n. rewrite str_eqb_eq. unfold suffix. change (lit ".dist-info") with (lit ".dist-info"). rewrite suffix_from_iff by (intros []).
  rewrite rev_involutive, app_nil_r. reflexivity.
Qed.

Definition dist_dir (n : str) : Prop := exists stem, stem <> [] /\ n = stem ++ lit ".dist-info".
Definition pkey (d : path) : res str := package_name_key (hd [] (split_on "-" (hd [] d))).

Lemma dict_set_in : forall V k (v : V) d k2 v2, In (k2, v2) (dict_set k v d) -> (k2 = k /\ v2 = v) \/ In (k2, v2) d.
Proof.
  induction d as [|[k' v'] d IH]; intros k2 v2 H; cbn in H.
  - destruct H as [H|[]]. injection H; auto.
  - destruct (str_eqb k k') eqn:E.
    + apply str_eqb_eq in E. subst. destruct H as [H|H]; [injection H; auto|right; right; exact H].
    + destruct H as [H|H]; [right; left; exact H|]. destruct (IH _ _ H); [auto|right; right; assumption].
Qed.
Lemma dict_set_here : forall V k (v : V) d, In v (map snd (dict_set k v d)).
Proof.
  induction d as [|[k' v'] d IH]; cbn; [auto|]. destruct (str_eqb k k'); cbn; [auto|right; exact IH].
Qed.
Lemma dict_set_keeps : forall V k (v : V) d k2 v2, In (k2, v2) d -> k2 = k \/ In (k2, v2) (dict_set k v d).
Proof.
  induction d as [|[k' v'] d IH]; intros k2 v2 H; [destruct H|]. cbn. destruct (str_eqb k k') eqn:E.
  - apply str_eqb_eq in E. destruct H as [H|H]; [left; injection H as <- _; congruence|right; right; exact H].
  - destruct H as [H|H]; [right; left; exact H|]. destruct (IH _ _ H); [auto|right; right; assumption].
Qed.

Section Scan.
  Variables (f : fs) (P : path -> Prop).
  Hypothesis P_one : forall d e, P d -> P e -> pkey d = pkey e -> d = e.
  Definition good (r : list (str * path)) : Prop := forall k d, In (k, d) r -> P d /\ pkey d = Ok k.

  Lemma scan_names_spec : forall site names r0 r, (forall n, In n names -> dist_dir n -> P (n :: site)) -> good r0 ->
    scan_names f site names r0 = Ok r ->
    good r /\ forall d, In d (map snd r) <-> In d (map snd r0) \/ exists n, In n names /\ dist_dir n /\ d = n :: site.
  Proof.
    intro site. induction names as [|n names IH]; intros r0 r HP G H; cbn [scan_names] in H.
    - injection H as <-. split; [exact G|]. intro d. split; [auto|]. intros [X|(n & [] & _)]. exact X.
    - destruct (str_eqb (suffix n) ".dist-info") eqn:S.
      + destruct (exists_at f (n :: site) && negb (is_dir f (n :: site)))%bool; [discriminate|].
        destruct (package_name_key (hd [] (split_on "-" n))) as [k|] eqn:K; [|discriminate]. cbn [bind] in H.
        assert (Dn : dist_dir n) by (apply suffix_iff, S).
        assert (G2 : good (dict_set k (n :: site) r0)).
        { intros k2 d X. apply dict_set_in in X. destruct X as [[-> ->]|X]; [|apply G, X]. split; [apply HP; [left; reflexivity|exact Dn]|exact K]. }
        destruct (IH _ _ (fun m Im => HP m (or_intror Im)) G2 H) as [G3 E]. split; [exact G3|]. intro d. rewrite E. clear E IH. split.
        * intros [X|(m & Im & Dm & ->)]; [|right; exists m; split; [right; exact Im|auto]].
          apply in_map_iff in X. destruct X as ([k2 d2] & Ed & X). cbn in Ed. subst d2. apply dict_set_in in X.
          destruct X as [[-> ->]|X]; [right; exists n; split; [left; reflexivity|auto]|left; apply in_map_iff; exists (k2, d); auto].
        * intros [X|(m & [->|Im] & Dm & ->)].
          -- apply in_map_iff in X. destruct X as ([k2 d2] & Ed & X). cbn in Ed. subst d2. left.
             destruct (dict_set_keeps _ k (n :: site) _ _ _ X) as [->|Y]; [|apply in_map_iff; exists (k2, d); auto].
             destruct (G _ _ X) as [Pd Kd]. assert (d = n :: site) as ->. { apply P_one; [exact Pd|apply HP; [left; reflexivity|exact Dn]|]. rewrite Kd. symmetry. exact K. }
             apply dict_set_here.
          -- left. apply dict_set_here.
          -- right. exists m. auto.
      + destruct (IH _ _ (fun m Im => HP m (or_intror Im)) G H) as [G3 E]. split; [exact G3|]. intro d. rewrite E. clear E. split.
        * intros [X|(m & Im & Dm)]; [auto|right; exists m; split; [right; exact Im|auto]].
        * intros [X|(m & [->|Im] & Dm & Em)]; [auto| |right; exists m; auto].
          exfalso. apply suffix_iff in Dm. congruence.
  Qed.
  Lemma scan_spec : forall site r0 r, (forall n, lookup f (n :: site) <> None -> dist_dir n -> P (n :: site)) -> wf_fs f -> good r0 ->
    scan_packages f site r0 = Ok r ->
    good r /\ forall d, In d (map snd r) <-> In d (map snd r0) \/ exists n, lookup f (n :: site) <> None /\ dist_dir n /\ d = n :: site.
  Proof.
    intros site r0 r HP W G H. unfold scan_packages in H. destruct (exists_at f site) eqn:E.
    - unfold iterdir in H. destruct (is_dir f site); [|discriminate]. cbn [bind] in H. apply scan_names_spec in H.
      + destruct H as [G2 H]. split; [exact G2|]. intro d. rewrite H. split; (intros [X|(n & In_ & Y)]; [auto|right; exists n; split; [|exact Y]; apply children_in, In_]).
      + intros n In_. apply HP, children_in, In_.
      + exact G.
    - injection H as <-. split; [exact G|]. intro d. split; [auto|]. intros [X|(n & X & _)]; [exact X|]. exfalso.
      apply exists_at_false in E. destruct W as [_ W]. apply W in X. congruence.
  Qed.
End Scan.

Definition one_each (f : fs) (env : path * path) : Prop :=
  forall site site2 n n2, (site = fst env \/ site = snd env) -> (site2 = fst env \/ site2 = snd env) ->
    lookup f (n :: site) <> None -> lookup f (n2 :: site2) <> None -> dist_dir n -> dist_dir n2 ->
    package_name_key (hd [] (split_on "-" n)) = package_name_key (hd [] (split_on "-" n2)) -> n :: site = n2 :: site2.
Definition references (f : fs) (envs : list (path * path)) (t : str) : Prop :=
  exists env site n, In env envs /\ (site = fst env \/ site = snd env) /\ dist_dir n /\ lookup f (lit "SHARED" :: n :: site) = Some (File t).

Lemma installed_spec : forall f env ds, wf_fs f -> one_each f env -> installed_packages f env = Ok ds ->
  forall d, In d ds <-> exists site n, (site = fst env \/ site = snd env) /\ lookup f (n :: site) <> None /\ dist_dir n /\ d = n :: site.
Proof.
  intros f env ds W O H. unfold installed_packages in H.
  destruct (scan_packages f (fst env) []) as [r1|] eqn:R1; [|discriminate]. cbn [bind] in H.
  destruct (scan_packages f (snd env) r1) as [r2|] eqn:R2; [|discriminate]. injection H as <-.
  set (P := fun d : path => exists site n, (site = fst env \/ site = snd env) /\ lookup f (n :: site) <> None /\ dist_dir n /\ d = n :: site).
  assert (P1 : forall d e, P d -> P e -> pkey d = pkey e -> d = e).
  { intros d e (s1 & n1 & A1 & B1 & C1 & ->) (s2 & n2 & A2 & B2 & C2 & ->) K. apply (O s1 s2 n1 n2 A1 A2 B1 B2 C1 C2 K). }
  apply (scan_spec f P P1) in R1; [|intros n A B; exists (fst env), n; auto|exact W|intros k d []].
  destruct R1 as [G1 E1]. apply (scan_spec f P P1) in R2; [|intros n A B; exists (snd env), n; auto|exact W|exact G1].
  destruct R2 as [_ E2]. intro d. rewrite E2, E1. split.
  - intros [[[]|(n & A & B & ->)]|(n & A & B & ->)]; [exists (fst env), n; auto|exists (snd env), n; auto].
  - intros (s & n & [->| ->] & A & B & ->); [left; right|right]; exists n; auto.
Qed.
Lemma markers_spec : forall f ds m, markers_of f ds = Ok m -> forall t, In t m <-> exists d, In d ds /\ lookup f (lit "SHARED" :: d) = Some (File t).
Proof.
  intros f. induction ds as [|d ds IH]; intros m H t.
  - injection H as <-. split; [intros []|]. intros (d & [] & _).
  - cbn [markers_of] in H. destruct (lookup f (lit "SHARED" :: d)) as [[c|]|] eqn:L; [|discriminate|].
    + destruct (markers_of f ds) as [l|] eqn:M; [|discriminate]. injection H as <-. cbn [In]. rewrite (IH l eq_refl t). split.
      * intros [->|(e & X & Y)]; [exists d; split; [left; reflexivity|exact L]|exists e; split; [right; exact X|exact Y]].
      * intros (e & [<-|X] & Y); [left; congruence|right; exists e; auto].
    + rewrite (IH m H t). split; [intros (e & X & Y); exists e; split; [right; exact X|exact Y]|].
      intros (e & [<-|X] & Y); [congruence|exists e; auto].
Qed.
Lemma used_spec : forall f envs used, wf_fs f -> (forall env, In env envs -> one_each f env) -> used_packages f envs = Ok used ->
  forall t, In t used <-> references f envs t.
Proof.
  intros f envs used W. revert used. induction envs as [|e envs IH]; intros used O H t.
  - injection H as <-. split; [intros []|]. intros (env & _ & _ & [] & _).
  - cbn [used_packages] in H. destruct (installed_packages f e) as [ds|] eqn:D; [|discriminate]. cbn [bind] in H.
    destruct (markers_of f ds) as [m|] eqn:M; [|discriminate]. cbn [bind] in H.
    destruct (used_packages f envs) as [l|] eqn:U; [|discriminate]. injection H as <-. rewrite in_app_iff.
    rewrite (markers_spec f ds m M t), (IH l (fun env Ie => O env (or_intror Ie)) eq_refl t). split.
    + intros [(d & Id & L)|(env & s & n & Ie & X)].
      * apply (installed_spec f e ds W (O e (or_introl eq_refl)) D) in Id. destruct Id as (s & n & A & B & C & ->). exists e, s, n. split; [left; reflexivity|auto].
      * exists env, s, n. split; [right; exact Ie|exact X].
    + intros (env & s & n & [->|Ie] & A & B & L); [left|right; exists env, s, n; auto].
      exists (n :: s). split; [|exact L]. apply (installed_spec f env ds W (O env (or_introl eq_refl)) D). exists s, n.
      split; [exact A|]. split; [|auto]. assert (X : lookup f (lit "SHARED" :: n :: s) <> None) by congruence. apply W in X. congruence.
Qed.
