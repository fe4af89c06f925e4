(** What an installation of a conda package that fails leaves behind. *)
From Coq Require Import String Ascii List Bool NArith Arith Lia.
From Verif Require Import Base BaseFacts ParserModel FsModel FsFacts FilesModel FilesProofs CopyTxModel CopyTxSpec CopyTxProofs ArtifactModel
  PthModel RecordFileModel RecordFileProofs InstallModel WheelModel WheelSpec WheelProofs WheelInstallProofs CondaInstallModel CondaInstallSpec CondaInstallProofs.
Import ListNotations.
Open Scope string_scope. Open Scope nat_scope. Open Scope list_scope. Open Scope bool_scope.

(** a state from which [f0] can be had back *)
Record restorable (f0 : fs) (t : tx) : Prop := Restorable {
  r_wf0 : wf_fs f0;
  r_new : forall p, In p (copied t) -> lookup f0 p = None \/ covered t p = true;
  r_old : forall p, ~ In p (copied t) -> lookup (fsys t) p = if covered t p then None else lookup f0 p;
  r_backup : forall b tr, In (b, tr) (backups t) -> b <> [] /\ lookup f0 b <> None /\ forall r, lookup tr r = lookup f0 (r ++ b);
  r_apart : ForallOrdPairs incomparable (bpaths t);
  r_flat : forall x y, In x (copied t) -> In y (copied t) -> under x y = true -> x = y }.
Record steady (f0 : fs) (t : tx) : Prop := Steady {
  s_back : restorable f0 t;
  s_wf : wf_fs (fsys t);
  s_nodir : forall p, In p (copied t) -> lookup (fsys t) p <> Some Dir;
  s_in : forall b, In b (bpaths t) -> In b (copied t) }.
Definition live (t : tx) : Prop := forall p, In p (copied t) -> lookup (fsys t) p <> None.

Lemma restored : forall f0 t order, restorable f0 t -> (forall p, In p order <-> In p (copied t)) -> exists f', rollback order t = Some f' /\ same_fs f' f0.
Proof.
  intros f0 t order R SO. destruct R as [W i_new0 i_old0 i_backup0 i_apart0 FL]. unfold rollback.
  assert (HO : inner_first order).
  { intros a b x y E I U. apply FL; [apply SO; rewrite E; apply in_or_app; right; left; reflexivity|apply SO; rewrite E; apply in_or_app; right; right; exact I|exact U]. }
  apply (restore_all_spec f0); [exact W|exact i_backup0|exact i_apart0|]. intro p.
  set (f1 := unlink_pass order (fsys t)).
  assert (KEY : forall x c, In x (copied t) -> lookup (fsys t) (c :: x) <> None -> In (c :: x) (copied t)).
  { intros x c Hx HL. destruct (in_dec_path (c :: x) (copied t)) as [Y|N]; [exact Y|exfalso]. rewrite (i_old0 _ N) in HL.
    destruct (covered t (c :: x)) eqn:EC; [congruence|]. pose proof (proj2 W c x HL) as D. destruct (i_new0 x Hx) as [Z|Z]; [congruence|].
    apply covered_iff in Z. destruct Z as (b & Ib & Ub).
    assert (covered t (c :: x) = true); [|congruence]. apply covered_iff. exists b. split; [exact Ib|]. exact (under_trans _ _ _ Ub (under_cons c x)). }
  assert (L1 : forall q, lookup f1 q = if path_mem q order && is_file (fsys t) q then None else lookup (fsys t) q) by (intro q; apply lookup_unlink).
  rewrite (rmdir_spec f1 order [] f1).
  - cbn [app]. destruct (path_mem p order) eqn:M.
    + apply path_mem_iff in M. apply SO in M. destruct (i_new0 p M) as [Z|Z].
      * rewrite Z. destruct (cov _ p); reflexivity.
      * change (cov (map fst (backups t)) p) with (covered t p). rewrite Z. reflexivity.
    + assert (N : ~ In p (copied t)) by (intro X; apply SO in X; apply path_mem_iff in X; congruence).
      rewrite L1, M. cbn [andb]. exact (i_old0 p N).
  - cbn [app]. intros x Hx. rewrite L1. apply path_mem_iff in Hx. rewrite Hx. cbn [andb]. unfold is_file. destruct (lookup (fsys t) x) as [[c|]|]; auto.
  - cbn [app]. intros x c Hx HL. apply SO. apply KEY; [apply SO, Hx|]. rewrite L1 in HL. destruct (path_mem _ _ && _); [congruence|exact HL].
  - exact HO.
  - reflexivity.
Qed.
(** a directory that is there was there before *)
Lemma dir_above : forall f0 t p q, steady f0 t -> lookup (fsys t) p = Some Dir -> under q p = true -> ~ In q (copied t).
Proof.
  intros f0 t p q S L U I. apply (s_nodir _ _ S q I). apply under_iff in U. destruct U as ([|c r] & E); [cbn in E; congruence|].
  apply (wf_above (fsys t) (c :: r) q (s_wf _ _ S)); [rewrite <- E, L; discriminate|discriminate].
Qed.
Lemma dir_uncovered : forall f0 t p, steady f0 t -> lookup (fsys t) p = Some Dir -> covered t p = false.
Proof.
  intros f0 t p S L. apply covered_false. intros b I. destruct (under b p) eqn:U; [|reflexivity]. exfalso. exact (dir_above f0 t p b S L U (s_in _ _ S b I)).
Qed.
Lemma dir_old : forall f0 t p, steady f0 t -> lookup (fsys t) p = Some Dir -> lookup f0 p = Some Dir.
Proof.
  intros f0 t p S L. pose proof (r_old _ _ (s_back _ _ S) p (dir_above f0 t p p S L (under_refl p))) as X. rewrite (dir_uncovered _ _ _ S L) in X. congruence.
Qed.
Lemma child_uncovered : forall f0 t c p, steady f0 t -> lookup (fsys t) p = Some Dir -> ~ In (c :: p) (copied t) -> covered t (c :: p) = false.
Proof.
  intros f0 t c p S L N. apply covered_false. intros b I. destruct (under b (c :: p)) eqn:U; [|reflexivity]. exfalso. apply under_iff in U. destruct U as ([|d r] & E).
  - cbn in E. subst b. exact (N (s_in _ _ S _ I)).
  - cbn in E. injection E as _ E. apply (dir_above f0 t p b S L); [apply under_iff; exists r; exact E|exact (s_in _ _ S b I)].
Qed.
Lemma add_node : forall f0 t c p n, steady f0 t -> lookup (fsys t) p = Some Dir -> lookup (fsys t) (c :: p) = None -> ~ In (c :: p) (copied t) ->
  steady (write f0 (c :: p) n) (set_fs t (write (fsys t) (c :: p) n)) /\ lookup f0 (c :: p) = None.
Proof.
  intros f0 t c p n S LP LN NI. pose proof (child_uncovered _ _ c p S LP NI) as NC. pose proof (r_old _ _ (s_back _ _ S) _ NI) as E0. rewrite NC, LN in E0. symmetry in E0.
  split; [|exact E0]. destruct S as [[W0 N O B A FL] W ND IN]. assert (CV : forall x, covered (set_fs t (write (fsys t) (c :: p) n)) x = covered t x) by reflexivity.
  assert (LP0 : lookup f0 p = Some Dir) by (apply (dir_old f0 t p); [constructor; [constructor|..]; assumption|exact LP]).
  constructor; [constructor|..]; cbn [fsys copied backups set_fs].
  - apply wf_write; assumption.
  - intros x X. rewrite lookup_write, CV. destruct (path_eqb x (c :: p)) eqn:E; [apply path_eqb_eq in E; subst; contradiction|]. apply N, X.
  - intros x X. rewrite !lookup_write, CV. destruct (path_eqb x (c :: p)) eqn:E; [apply path_eqb_eq in E; subst; rewrite NC; reflexivity|]. apply O, X.
  - intros b tr X. destruct (B b tr X) as (B1 & B2 & B3). split; [exact B1|]. assert (F : forall r, path_eqb (r ++ b) (c :: p) = false).
    { intro r. apply path_eqb_neq. intro E. assert (Y : covered t (c :: p) = true); [|congruence]. apply covered_iff. exists b. split; [apply in_map_iff; exists (b, tr); auto|]. rewrite <- E. apply under_app. }
    split; [rewrite lookup_write; pose proof (F []) as F0; cbn [app] in F0; rewrite F0; exact B2|]. intro r. rewrite lookup_write, F. apply B3.
  - exact A.
  - exact FL.
  - apply wf_write; assumption.
  - intros x X. rewrite lookup_write. destruct (path_eqb x (c :: p)) eqn:E; [apply path_eqb_eq in E; subst; contradiction|]. apply ND, X.
  - exact IN.
Qed.
(** a file that the transaction has put there is written *)
Lemma set_copied : forall f0 t c p s, steady f0 t -> lookup (fsys t) p = Some Dir -> lookup (fsys t) (c :: p) = None -> In (c :: p) (copied t) -> steady f0 (set_fs t (write (fsys t) (c :: p) (File s))).
Proof.
  intros f0 t c p s S LP LN I. destruct S as [[W0 N O B A FL] W ND IN].
  constructor; [constructor|..]; cbn [fsys copied backups set_fs]; try assumption.
  - intros x X. rewrite lookup_write. destruct (path_eqb x (c :: p)) eqn:E; [apply path_eqb_eq in E; subst; contradiction|]. apply O, X.
  - apply wf_write; assumption.
  - intros x X. rewrite lookup_write. destruct (path_eqb x (c :: p)) eqn:E; [discriminate|]. apply ND, X.
Qed.
Lemma wf_remove_file : forall f p s, wf_fs f -> lookup f p = Some (File s) -> wf_fs (remove_path f p).
Proof.
  intros f p s [W1 W2] L. split.
  - rewrite lookup_remove. destruct (path_eqb [] p) eqn:E; [apply path_eqb_eq in E; subst; congruence|exact W1].
  - intros c q X. rewrite lookup_remove in X |- *. destruct (path_eqb (c :: q) p) eqn:E; [congruence|]. pose proof (W2 c q X) as D. destruct (path_eqb q p) eqn:E2; [apply path_eqb_eq in E2; subst; congruence|exact D].
Qed.
Lemma file_uncovered : forall f0 t p s, steady f0 t -> lookup (fsys t) p = Some (File s) -> ~ In p (copied t) -> covered t p = false /\ lookup f0 p = Some (File s).
Proof.
  intros f0 t p s S L N. pose proof (r_old _ _ (s_back _ _ S) p N) as O. destruct (covered t p); [congruence|]. split; [reflexivity|]. congruence.
Qed.
Lemma drop_file : forall f0 t p s, steady f0 t -> lookup (fsys t) p = Some (File s) ->
  exists f1, steady f1 (set_fs t (remove_path (fsys t) p)) /\ forall q, q <> p -> lookup f1 q = lookup f0 q.
Proof.
  intros f0 t p s S L. destruct (in_dec_path p (copied t)) as [I|NI].
  - exists f0. split; [|auto]. destruct S as [[W0 N O B A FL] W ND IN]. constructor; [constructor|..]; cbn [fsys copied backups set_fs]; try assumption.
    + intros x X. rewrite lookup_remove. destruct (path_eqb x p) eqn:E; [apply path_eqb_eq in E; subst; contradiction|]. apply O, X.
    + exact (wf_remove_file _ _ _ W L).
    + intros x X. rewrite lookup_remove. destruct (path_eqb x p); [discriminate|]. apply ND, X.
  - destruct (file_uncovered _ _ _ _ S L NI) as [NC L0]. exists (remove_path f0 p). split; [|intros q Q; rewrite lookup_remove; apply path_eqb_neq in Q; rewrite Q; reflexivity].
    destruct S as [[W0 N O B A FL] W ND IN]. constructor; [constructor|..]; cbn [fsys copied backups set_fs]; try assumption.
    + exact (wf_remove_file _ _ _ W0 L0).
    + intros x X. rewrite lookup_remove. destruct (path_eqb x p); [left; reflexivity|]. apply N, X.
    + intros x X. rewrite !lookup_remove. change (covered (set_fs t (remove_path (fsys t) p)) x) with (covered t x). destruct (path_eqb x p); [destruct (covered t x); reflexivity|]. apply O, X.
    + intros b tr X. destruct (B b tr X) as (B1 & B2 & B3). split; [exact B1|]. assert (F : forall r, path_eqb (r ++ b) p = false).
      { intro r. apply path_eqb_neq. intro E. assert (Y : covered t p = true); [|congruence]. apply covered_iff. exists b. split; [apply in_map_iff; exists (b, tr); auto|]. rewrite <- E. apply under_app. }
      split; [rewrite lookup_remove; pose proof (F []) as F0; cbn [app] in F0; rewrite F0; exact B2|]. intro r. rewrite lookup_remove, F. apply B3.
    + exact (wf_remove_file _ _ _ W L).
    + intros x X. rewrite lookup_remove. destruct (path_eqb x p); [discriminate|]. apply ND, X.
Qed.

(** ** What is new *)
Definition grown (W : path -> Prop) (f0 f1 : fs) : Prop := forall q, lookup f1 q = lookup f0 q \/ (lookup f0 q = None /\ (lookup f1 q = Some Dir \/ W q)).
Lemma grown_refl : forall W f, grown W f f.
Proof. intros W f q. left. reflexivity. Qed.
Lemma grown_trans : forall W f g h, grown W f g -> grown W g h -> grown W f h.
Proof.
  intros W f g h A B q. destruct (A q) as [E|(N & X)], (B q) as [E'|(N' & X')].
  - left. congruence.
  - right. split; [congruence|exact X'].
  - right. split; [exact N|]. destruct X as [X|X]; [left; congruence|right; exact X].
  - right. split; [exact N|exact X'].
Qed.
Lemma grown_write : forall (W : path -> Prop) f p n, lookup f p = None -> n = Dir \/ W p -> grown W f (write f p n).
Proof.
  intros W f p n L H q. rewrite lookup_write. destruct (path_eqb q p) eqn:E; [|left; reflexivity]. apply path_eqb_eq in E. subst q. right. split; [exact L|]. destruct H as [->|H]; auto.
Qed.
Lemma make_dirs_steady : forall p t f0 g W, steady f0 t -> live t -> make_dirs (fsys t) p = Some g ->
  exists f1, steady f1 (set_fs t g) /\ live (set_fs t g) /\ grown W f0 f1.
Proof.
  induction p as [|c p IH]; intros t f0 g W S LV M; cbn [make_dirs] in M.
  - destruct (lookup (fsys t) []) as [[s|]|]; try discriminate. injection M as <-. exists f0. destruct t. split; [exact S|]. split; [exact LV|]. apply grown_refl.
  - destruct (lookup (fsys t) (c :: p)) as [[s|]|] eqn:L; try discriminate.
    + injection M as <-. exists f0. destruct t. split; [exact S|]. split; [exact LV|]. apply grown_refl.
    + destruct (make_dirs (fsys t) p) as [g1|] eqn:M1; [|discriminate]. injection M as <-. destruct (IH t f0 g1 W S LV M1) as (f1 & S1 & LV1 & G1).
      destruct (make_dirs_spec _ _ _ M1) as (_ & D & NW). assert (N : lookup g1 (c :: p) = None).
      { destruct (lookup g1 (c :: p)) eqn:G; [|reflexivity]. exfalso. assert (U : under (c :: p) p = true) by (apply NW; [exact L|congruence]). apply under_len in U. cbn in U. lia. }
      assert (NI : ~ In (c :: p) (copied t)) by (intro I; exact (LV _ I L)).
      destruct (add_node f1 (set_fs t g1) c p Dir S1 D N NI) as (S2 & E2). exists (write f1 (c :: p) Dir). split; [exact S2|]. split.
      * intros x X. cbn [fsys set_fs]. rewrite lookup_write. destruct (path_eqb x _); [discriminate|]. exact (LV1 x X).
      * eapply grown_trans; [exact G1|]. apply grown_write; [exact E2|left; reflexivity].
Qed.

(** ** Copying one file *)
Lemma steady_inv : forall f0 t, steady f0 t -> live t -> inv f0 t.
Proof. intros f0 t [[W0 N O B A FL] W ND IN] LV. constructor; assumption. Qed.
Lemma inv_restorable : forall f0 t, wf_fs f0 -> inv f0 t -> (forall x y, In x (copied t) -> In y (copied t) -> under x y = true -> x = y) -> restorable f0 t.
Proof. intros f0 t W [] FL. constructor; assumption. Qed.
Lemma copy_steady : forall f0 b t source c par, steady f0 t -> live t -> lookup (fsys t) par = Some Dir -> (forall q, In q (copied t) -> under (c :: par) q = false) ->
  match copy_node b t source (c :: par) with
  | Go _ t' => steady f0 t' /\ live t' /\ copied t' = copied t ++ [c :: par] /\ forall q, lookup (fsys t) q <> None -> under (c :: par) q = false -> lookup (fsys t') q = lookup (fsys t) q
  | Raised t' => restorable f0 t'
  end.
Proof.
  intros f0 b t source c par S LV LP AP. set (dst := c :: par) in *. pose proof (s_back _ _ S) as R0. pose proof (r_wf0 _ _ R0) as W0. pose proof (r_flat _ _ R0) as FL. pose proof (steady_inv _ _ S LV) as I.
  assert (RC : forall q, recorded t q -> under dst q = false) by (intros q [X|X]; [apply AP, X|apply AP, (s_in _ _ S), X]).
  assert (NU : under dst par = false) by (destruct (under dst par) eqn:X; [|reflexivity]; apply under_len in X; cbn in X; lia).
  (* the first step *)
  set (o1 := if exists_at (fsys t) dst then tx_rm b t dst else Go b t).
  assert (S1 : let t' := final o1 in inv f0 t' /\ copied t' = copied t /\ (forall q, In q (bpaths t') -> In q (bpaths t) \/ q = dst) /\
     (forall q, under dst q = false -> lookup (fsys t') q = lookup (fsys t) q) /\ (forall b' t1, o1 = Go b' t1 -> lookup (fsys t') dst = None)).
  { unfold o1. destruct (exists_at (fsys t) dst) eqn:E.
    - destruct (rm_spec f0 b t dst W0 I RC ltac:(discriminate)) as (A1 & _ & A3 & A4 & A5). split; [exact A1|]. split; [exact A3|]. split; [apply rm_bpaths|]. split; assumption.
    - cbn [final]. apply exists_at_false in E. split; [exact I|]. split; [reflexivity|]. split; [auto|]. split; auto. }
  assert (REST : forall t', inv f0 t' -> copied t' = copied t -> restorable f0 t') by (intros t' X Y; apply inv_restorable; [exact W0|exact X|rewrite Y; exact FL]).
  destruct source as [[s|]|]; cbn [copy_node].
  - cbn [tx_copy]. change (match and_then o1 (fun b t => match dst with [] => Raised t | _ :: parent => and_then (if exists_at (fsys t) parent then Go b t else tx_mkdir b t parent) (fun b t => do_copy b t s dst None) end) with
      | Go _ t' => steady f0 t' /\ live t' /\ copied t' = copied t ++ [dst] /\ forall q, lookup (fsys t) q <> None -> under dst q = false -> lookup (fsys t') q = lookup (fsys t) q | Raised t' => restorable f0 t' end).
    clearbody o1. destruct o1 as [b1 t1|t1]; cbn [and_then final] in *; destruct S1 as (I1 & C1 & B1 & F1 & N1); [|apply REST; assumption].
    specialize (N1 _ _ eq_refl). unfold dst at 1. assert (LP1 : lookup (fsys t1) par = Some Dir) by (rewrite (F1 par NU); exact LP).
    rewrite (proj2 (exists_at_true (fsys t1) par)) by congruence. cbn [and_then]. unfold do_copy. unfold dst at 1. rewrite (proj2 (is_dir_true (fsys t1) par) LP1).
    destruct b1 as [|b1]; cbn [syscall]; [apply REST; assumption|].
    pose proof (inv_add f0 t1 c par (File s) I1 LP1 N1) as I2. fold dst in I2. cbn [copied add_copied set_fs]. split; [|split; [|split]].
    + constructor; [apply inv_restorable; [exact W0|exact I2|]|exact (i_wf _ _ I2)|..]; cbn [copied fsys add_copied set_fs].
      * rewrite C1. intros x y X Y U. apply in_app_or in X, Y. destruct X as [X|[<-|[]]], Y as [Y|[<-|[]]].
        -- exact (FL x y X Y U).
        -- exfalso. apply under_iff in U. destruct U as ([|d r] & E).
           ++ cbn in E. subst x. pose proof (under_refl dst) as Q. rewrite (AP dst X) in Q. discriminate.
           ++ unfold dst in E. cbn in E. injection E as _ E. apply (dir_above f0 t par x S LP); [apply under_iff; exists r; exact E|exact X].
        -- rewrite (AP y Y) in U. discriminate.
        -- reflexivity.
      * intros x X. rewrite lookup_write. destruct (path_eqb x dst) eqn:E; [discriminate|]. apply in_app_or in X. destruct X as [X|[<-|[]]]; [|rewrite path_eqb_refl in E; discriminate].
        rewrite C1 in X. rewrite (F1 x (AP x X)). exact (s_nodir _ _ S x X).
      * intros q Q. change (bpaths _) with (bpaths t1) in Q. apply in_or_app. rewrite C1. destruct (B1 q Q) as [X|X]; [left; exact (s_in _ _ S q X)|right; left; symmetry; exact X].
    + exact (i_live _ _ I2).
    + rewrite C1. reflexivity.
    + intros q L U. cbn [fsys add_copied set_fs]. rewrite lookup_write. destruct (path_eqb q dst) eqn:E; [apply path_eqb_eq in E; subst q; rewrite under_refl in U; discriminate|]. exact (F1 q U).
  - cbn [tx_copy]. exact R0.
  - fold o1. clearbody o1. destruct o1 as [b1 t1|t1]; cbn [and_then final] in *; destruct S1 as (I1 & C1 & B1 & F1 & N1); [|apply REST; assumption].
    assert (LP1 : lookup (fsys t1) par = Some Dir) by (rewrite (F1 par NU); exact LP). unfold dst. cbn [tl].
    assert (EM : tx_mkdir b1 t1 par = Go b1 t1) by (destruct par; cbn [tx_mkdir]; rewrite (proj2 (exists_at_true (fsys t1) _)) by congruence; reflexivity). rewrite EM. cbn [and_then]. apply REST; assumption.
Qed.

(** ** Copying all files *)
Section Lines.
  Variables (w : fs) (tmp data site_in : path) (signed : sigs) (reloc : list str -> list str) (W : path -> Prop).
  Definition place (l : str) (p : path) : Prop := is_absolute l = false /\ (exists sig, sig_get (path_parts l) signed = Some sig) /\ p = at_parts data (reloc (path_parts l)).
  Lemma lines_steady : forall lines done pre created b t f0,
    (forall l1 l2 p1 p2, In l1 (done ++ lines) -> In l2 (done ++ lines) -> place l1 p1 -> place l2 p2 -> under p1 p2 = true -> l1 = l2) ->
    (forall l p, In l (done ++ lines) -> place l p -> p <> []) -> NoDup (done ++ lines) ->
    steady f0 t -> live t -> (forall q, In q (copied t) -> exists l, In l done /\ place l q) ->
    (forall d, In d created -> lookup (fsys t) d = Some Dir /\ exists l p, In l done /\ place l p /\ d = tl p) ->
    match fst (copy_lines w tmp data site_in signed reloc lines pre created b t) with
    | Go _ t' => exists f1, steady f1 t' /\ live t' /\ grown W f0 f1
    | Raised t' => exists f1, restorable f1 t' /\ grown W f0 f1
    end.
  Proof.
    induction lines as [|l lines IH]; intros done pre created b t f0 AP NE ND S LV HC HD; cbn [copy_lines].
    - cbn [fst]. exists f0. split; [exact S|]. split; [exact LV|apply grown_refl].
    - assert (STOP : exists f1, restorable f1 t /\ grown W f0 f1) by (exists f0; split; [exact (s_back _ _ S)|apply grown_refl]).
      destruct (is_absolute l) eqn:AB; [exact STOP|]. destruct (sig_get (path_parts l) signed) as [sig|] eqn:SG; [|exact STOP].
      destruct (path_to (length site_in) site_in (at_parts tmp (reloc (path_parts l)))) as [x|]; [|exact STOP].
      assert (PL : place l (at_parts data (reloc (path_parts l)))) by (split; [exact AB|split; [exists sig; exact SG|reflexivity]]).
      set (dst := at_parts data (reloc (path_parts l))) in *. clearbody dst. assert (IL : In l (done ++ l :: lines)) by (apply in_or_app; right; left; reflexivity).
      destruct dst as [|c par] eqn:ED; [exfalso; exact (NE l _ IL PL eq_refl)|]. cbn [tl]. rewrite <- ED in *.
      assert (NL : ~ In l done) by (intro X; apply NoDup_remove_2 in ND; apply ND; apply in_or_app; left; exact X).
      assert (APD : forall l' p, In l' done -> place l' p -> under dst p = false).
      { intros l' p I P. destruct (under dst p) eqn:U; [|reflexivity]. exfalso. apply NL. rewrite (AP l l' dst p IL); [exact I|apply in_or_app; left; exact I|exact PL|exact P|exact U]. }
      (* the directory *)
      destruct (if path_mem par created then Go b t else syscall b t (on_disk t (make_dirs (fsys t) par))) as [b1 t1|t1] eqn:O1.
      2: { cbn [and_then fst]. destruct (path_mem par created); [discriminate|]. unfold syscall in O1. destruct b; [injection O1 as <-; exact STOP|]. destruct (on_disk _ _); [discriminate|]. injection O1 as <-. exact STOP. }
      assert (D1 : exists f1, steady f1 t1 /\ live t1 /\ grown W f0 f1 /\ copied t1 = copied t /\ lookup (fsys t1) par = Some Dir /\ forall q n, lookup (fsys t) q = Some n -> lookup (fsys t1) q = Some n).
      { destruct (path_mem par created) eqn:PM.
        - injection O1 as <- <-. apply path_mem_iff in PM. exists f0. split; [exact S|]. split; [exact LV|]. split; [apply grown_refl|]. split; [reflexivity|]. split; [exact (proj1 (HD par PM))|auto].
        - pose proof (dirs_go _ _ _ _ _ O1) as (F & LP & C & _ & M). destruct (make_dirs_steady par t f0 (fsys t1) W S LV M) as (f1 & S1 & L1 & G1). apply syscall_go in O1. unfold on_disk in O1. rewrite M in O1. injection O1 as E1.
          exists f1. rewrite <- E1. split; [exact S1|]. split; [exact L1|]. split; [exact G1|]. split; [reflexivity|]. split; [exact LP|]. intros q n L. apply (fr_keep _ _ _ F); [exact L|intros p []]. }
      destruct D1 as (f1 & S1 & LV1 & G1 & C1 & LP1 & K1). cbn [and_then].
      assert (AP1 : forall q, In q (copied t1) -> under (c :: par) q = false) by (rewrite C1, <- ED; intros q Q; destruct (HC q Q) as (l' & I & P); exact (APD l' q I P)).
      pose proof (copy_steady f1 b1 t1 (lookup w (at_parts tmp (reloc (path_parts l)))) c par S1 LV1 LP1 AP1) as CS. rewrite <- ED in CS.
      destruct (copy_node b1 t1 (lookup w (at_parts tmp (reloc (path_parts l)))) dst) as [b2 t2|t2]; cbn [fst].
      2: { exists f1. auto. }
      destruct CS as (S2 & LV2 & C2 & K2).
      replace (done ++ l :: lines) with ((done ++ [l]) ++ lines) in * by (rewrite <- app_assoc; reflexivity).
      assert (NP : forall q, lookup (fsys t1) q = Some Dir -> under dst q = false -> lookup (fsys t2) q = Some Dir) by (intros q L U; rewrite (K2 q); [exact L|rewrite L; discriminate|exact U]).
      specialize (IH (done ++ [l]) (dict_set (join "/" x) sig pre) (par :: created) b2 t2 f1 AP NE ND S2 LV2).
      assert (H1 : forall q, In q (copied t2) -> exists l0, In l0 (done ++ [l]) /\ place l0 q).
      { rewrite C2, C1. intros q Q. apply in_app_or in Q. destruct Q as [Q|[<-|[]]]; [destruct (HC q Q) as (l' & I & P); exists l'; split; [apply in_or_app; left; exact I|exact P]|].
        exists l. split; [apply in_or_app; right; left; reflexivity|exact PL]. }
      assert (H2 : forall d, In d (par :: created) -> lookup (fsys t2) d = Some Dir /\ exists l0 p, In l0 (done ++ [l]) /\ place l0 p /\ d = tl p).
      { intros d [<-|I].
        - split; [apply NP; [exact LP1|]|exists l, dst; split; [apply in_or_app; right; left; reflexivity|split; [exact PL|rewrite ED; reflexivity]]].
          rewrite ED. destruct (under (c :: par) par) eqn:U; [|reflexivity]. apply under_len in U. cbn in U. lia.
        - destruct (HD d I) as (L & l' & p & Il & P & ->). split; [|exists l', p; split; [apply in_or_app; left; exact Il|auto]]. apply NP; [apply K1, L|].
          destruct (under dst (tl p)) eqn:U; [|reflexivity]. assert (U2 : under dst p = true) by (destruct p as [|c0 p]; [exact U|apply (under_trans _ p); [exact U|apply under_cons]]). rewrite (APD l' p Il P) in U2. discriminate. }
      specialize (IH H1 H2). destruct (fst (copy_lines w tmp data site_in signed reloc lines (dict_set (join "/" x) sig pre) (par :: created) b2 t2)).
      + destruct IH as (f2 & A & B & C). exists f2. split; [exact A|]. split; [exact B|]. exact (grown_trans _ _ _ _ G1 C).
      + destruct IH as (f2 & A & C). exists f2. split; [exact A|]. exact (grown_trans _ _ _ _ G1 C).
  Qed.
End Lines.

(** ** The end *)
Section End.
  Variables (h : hashlib) (order : list path -> list path) (site info : path) (wheel metadata : str).
  Notation rec := (lit "RECORD" :: info).
  Definition changed (f0 f1 : fs) : Prop := forall q, q <> rec -> lookup f1 q = lookup f0 q \/ (lookup f0 q = None /\ (lookup f1 q = Some Dir \/ generated info q)).
  Lemma changed_trans : forall f g k, changed f g -> changed g k -> changed f k.
  Proof.
    intros f g k A B q Q. destruct (A q Q) as [E|(N & X)], (B q Q) as [E'|(N' & X')].
    - left. congruence.
    - right. split; [congruence|exact X'].
    - right. split; [exact N|]. destruct X as [X|X]; [left; congruence|right; exact X].
    - right. split; [exact N|exact X'].
  Qed.
  Lemma grown_changed : forall f g, grown (generated info) f g -> changed f g.
  Proof. intros f g A q _. apply A. Qed.
  Definition stops (f0 : fs) (o : outcome) : Prop := match o with Go _ _ => True | Raised t => exists f1, restorable f1 t /\ changed f0 f1 end.
  Lemma stops_at : forall f0 f1 t, steady f1 t -> changed f0 f1 -> stops f0 (Raised t).
  Proof. intros f0 f1 t S C. exists f1. split; [exact (s_back _ _ S)|exact C]. Qed.
  Lemma stops_syscall : forall f0 f1 b t t', steady f1 t -> changed f0 f1 -> stops f0 (syscall b t t').
  Proof. intros f0 f1 b t t' S C. unfold syscall. destruct b; [exact (stops_at _ _ _ S C)|]. destruct t'; [exact I|exact (stops_at _ _ _ S C)]. Qed.
  Lemma stops_then : forall f0 o k, stops f0 o -> (forall b t, o = Go b t -> stops f0 (k b t)) -> stops f0 (and_then o k).
  Proof. intros f0 [b t|t] k H K; [exact (K b t eq_refl)|exact H]. Qed.

  Lemma write_new : forall f1 t b c s b' t', steady f1 t -> live t -> lookup (fsys t) info = Some Dir -> lookup (fsys t) (c :: info) = None -> generated info (c :: info) ->
    syscall b t (on_disk t (write_text (fsys t) (c :: info) s)) = Go b' t' -> exists f2, steady f2 t' /\ live t' /\ changed f1 f2 /\ lookup (fsys t') info = Some Dir /\ forall q, q <> c :: info -> lookup (fsys t') q = lookup (fsys t) q.
  Proof.
    intros f1 t b c s b' t' S LV D N G H. apply syscall_go in H. unfold on_disk in H. destruct (write_text (fsys t) (c :: info) s) as [g|] eqn:W; [|discriminate]. injection H as <-.
    apply write_text_spec in W. destruct W as (_ & ->). destruct (add_node f1 t c info (File s) S D N) as (S2 & E2); [intro X; exact (LV _ X N)|].
    exists (write f1 (c :: info) (File s)). split; [exact S2|]. split; [intros x X; cbn [fsys set_fs]; rewrite lookup_write; destruct (path_eqb x _); [discriminate|exact (LV x X)]|].
    split; [apply grown_changed, grown_write; [exact E2|right; exact G]|]. cbn [fsys set_fs]. split.
    - rewrite lookup_write. destruct (path_eqb info _) eqn:E; [apply path_eqb_eq in E; apply (f_equal (@length str)) in E; cbn in E; lia|exact D].
    - intros q Q. rewrite lookup_write. apply path_eqb_neq in Q. rewrite Q. reflexivity.
  Qed.
  Lemma generate_stops : forall f0 f1 b t, steady f1 t -> live t -> changed f0 f1 -> stops f0 (generate_step info wheel metadata b t) /\
    forall b' t', generate_step info wheel metadata b t = Go b' t' -> exists f2, steady f2 t' /\ live t' /\ changed f0 f2 /\ lookup (fsys t') info <> None.
  Proof.
    intros f0 f1 b t S LV C. unfold generate_step. destruct (exists_at (fsys t) info) eqn:E.
    - split; [exact I|]. intros b' t' H. injection H as <- <-. exists f1. split; [exact S|]. split; [exact LV|]. split; [exact C|]. apply exists_at_true. exact E.
    - apply exists_at_false in E.
      assert (D : forall b1 t1, syscall b t (on_disk t (make_dirs (fsys t) info)) = Go b1 t1 -> exists f2, steady f2 t1 /\ live t1 /\ changed f0 f2 /\ lookup (fsys t1) info = Some Dir /\ forall c, lookup (fsys t1) (c :: info) = None).
      { intros b1 t1 H. pose proof (dirs_go _ _ _ _ _ H) as (_ & LI & _ & _ & M). destruct (make_dirs_steady info t f1 (fsys t1) (generated info) S LV M) as (f2 & S2 & L2 & G2).
        apply syscall_go in H. unfold on_disk in H. rewrite M in H. injection H as E1. rewrite E1 in S2, L2. exists f2. split; [exact S2|]. split; [exact L2|]. split; [eapply changed_trans; [exact C|apply grown_changed, G2]|]. split; [exact LI|].
        intro c. destruct (lookup (fsys t1) (c :: info)) eqn:L; [|reflexivity]. exfalso. destruct (make_dirs_spec _ _ _ M) as (_ & _ & NW). assert (U : under (c :: info) info = true).
        { apply NW; [|congruence]. destruct (lookup (fsys t) (c :: info)) eqn:L0; [|reflexivity]. exfalso. pose proof (proj2 (s_wf _ _ S) c info) as X. rewrite L0 in X. specialize (X ltac:(discriminate)). congruence. }
        apply under_len in U. cbn in U. lia. }
      assert (GW : generated info (lit "WHEEL" :: info)) by (left; reflexivity). assert (GM : generated info (lit "METADATA" :: info)) by (right; reflexivity).
      split.
      + apply stops_then; [exact (stops_syscall _ _ _ _ _ S C)|]. intros b1 t1 H1. destruct (D b1 t1 H1) as (f2 & S2 & L2 & C2 & I2 & N2).
        apply stops_then; [exact (stops_syscall _ _ _ _ _ S2 C2)|]. intros b2 t2 H2. destruct (write_new f2 t1 b1 _ wheel b2 t2 S2 L2 I2 (N2 _) GW H2) as (f3 & S3 & L3 & C3 & I3 & K3).
        exact (stops_syscall _ _ _ _ _ S3 (changed_trans _ _ _ C2 C3)).
      + intros b' t' H. apply and_then_go in H. destruct H as (b1 & t1 & H1 & H). destruct (D b1 t1 H1) as (f2 & S2 & L2 & C2 & I2 & N2).
        apply and_then_go in H. destruct H as (b2 & t2 & H2 & H). destruct (write_new f2 t1 b1 _ wheel b2 t2 S2 L2 I2 (N2 _) GW H2) as (f3 & S3 & L3 & C3 & I3 & K3).
        assert (NM : lookup (fsys t2) (lit "METADATA" :: info) = None) by (rewrite K3; [apply N2|discriminate]).
        destruct (write_new f3 t2 b2 _ metadata b' t' S3 L3 I3 NM GM H) as (f4 & S4 & L4 & C4 & I4 & K4). exists f4. split; [exact S4|]. split; [exact L4|]. split; [exact (changed_trans _ _ _ (changed_trans _ _ _ C2 C3) C4)|]. congruence.
  Qed.
  Lemma unlink_stops : forall f0 f1 b t, steady f1 t -> changed f0 f1 -> stops f0 (unlink_step rec b t) /\
    forall b' t', unlink_step rec b t = Go b' t' -> exists f2, steady f2 t' /\ changed f0 f2 /\ lookup (fsys t') rec = None /\ lookup (fsys t') info = lookup (fsys t) info.
  Proof.
    intros f0 f1 b t S C. unfold unlink_step. destruct (lookup (fsys t) rec) as [[s|]|] eqn:L.
    - split; [exact (stops_syscall _ _ _ _ _ S C)|]. intros b' t' H. apply syscall_go in H. assert (X : t' = set_fs t (remove_path (fsys t) rec)) by congruence. clear H. subst t'. destruct (drop_file f1 t rec s S L) as (f2 & S2 & K2). exists f2. split; [exact S2|].
      split; [eapply changed_trans; [exact C|]; intros q Q; left; exact (K2 q Q)|]. cbn [fsys set_fs]. rewrite !lookup_remove, path_eqb_refl. split; [reflexivity|].
      destruct (path_eqb info rec) eqn:E; [apply path_eqb_eq in E; apply (f_equal (@length str)) in E; cbn in E; lia|reflexivity].
    - split; [exact (stops_at _ _ _ S C)|]. intros b' t' H. discriminate.
    - split; [exact I|]. intros b' t' H. injection H as <- <-. exists f1. auto.
  Qed.
  Lemma write_record : forall f0 f1 b t text b' t', steady f1 t -> changed f0 f1 -> lookup (fsys t) info = Some Dir -> lookup (fsys t) rec = None ->
    syscall b t (on_disk t (write_text (fsys t) rec text)) = Go b' t' -> exists f2, steady f2 t' /\ changed f0 f2.
  Proof.
    intros f0 f1 b t text b' t' S C D N H. apply syscall_go in H. unfold on_disk in H. destruct (write_text (fsys t) rec text) as [g|] eqn:W; [|discriminate]. injection H as <-.
    apply write_text_spec in W. destruct W as (_ & ->). destruct (in_dec_path rec (copied t)) as [I|NI].
    - exists f1. split; [exact (set_copied f1 t (lit "RECORD") info text S D N I)|exact C].
    - destruct (add_node f1 t (lit "RECORD") info (File text) S D N NI) as (S2 & E2). eexists. split; [exact S2|]. eapply changed_trans; [exact C|]. intros q Q. left. rewrite lookup_write. apply path_eqb_neq in Q. rewrite Q. reflexivity.
  Qed.
  Lemma finish_stops : forall f0 f1 post pre b t, steady f1 t -> live t -> changed f0 f1 -> stops f0 (finish h order site info wheel metadata post pre b t).
  Proof.
    intros f0 f1 post pre b t S LV C. unfold finish. destruct (generate_stops f0 f1 b t S LV C) as [A1 A2]. apply stops_then; [exact A1|]. intros b1 t1 H1. destruct (A2 b1 t1 H1) as (f2 & S2 & L2 & C2 & N2).
    destruct (is_file (fsys t1) info) eqn:IF; [exact (stops_at _ _ _ S2 C2)|].
    assert (D : lookup (fsys t1) info = Some Dir) by (unfold is_file in IF; destruct (lookup (fsys t1) info) as [[s|]|]; congruence).
    destruct (unlink_stops f0 f2 b1 t1 S2 C2) as [B1 B2]. apply stops_then; [exact B1|]. intros b2 t2 H2. destruct (B2 b2 t2 H2) as (f3 & S3 & C3 & N3 & I3). rewrite D in I3.
    assert (ST : stops f0 (Raised t2)) by exact (stops_at _ _ _ S3 C3). unfold sign_step, record_step.
    assert (MD : make_dirs (fsys t2) info = Some (fsys t2)) by (clear - I3; destruct info; cbn [make_dirs]; rewrite I3; reflexivity). rewrite MD.
    destruct (is_file (fsys t2) info); [exact ST|]. destruct (load_record_file (fsys t2) rec) as [l|]; [|exact ST].
    destruct (sign_all h pre (fsys t2) site (to_sign (fsys t2) (order (copied t2)))) as [new|]; [|exact ST].
    assert (SY : forall b b' t', syscall b t2 (on_disk t2 (Some (fsys t2))) = Go b' t' -> t' = t2) by (intros b0 b0' t' X; apply syscall_go in X; cbn in X; injection X as <-; destruct t2; reflexivity).
    assert (W : stops f0 (and_then (syscall b2 t2 (on_disk t2 (Some (fsys t2)))) (fun b t => let (r, text) := save_records (l ++ new) in
        and_then (syscall b t (on_disk t (write_text (fsys t) rec text))) (fun b t => match r with Ok _ => Go b t | Err _ => Raised t end))) /\
      forall b3 t3, and_then (syscall b2 t2 (on_disk t2 (Some (fsys t2)))) (fun b t => let (r, text) := save_records (l ++ new) in
        and_then (syscall b t (on_disk t (write_text (fsys t) rec text))) (fun b t => match r with Ok _ => Go b t | Err _ => Raised t end)) = Go b3 t3 -> exists f4, steady f4 t3 /\ changed f0 f4).
    { split.
      - apply stops_then; [exact (stops_syscall _ _ _ _ _ S3 C3)|]. intros b3 t3 H3. rewrite (SY _ _ _ H3). destruct (save_records (l ++ new)) as [r text]. apply stops_then; [exact (stops_syscall _ _ _ _ _ S3 C3)|].
        intros b4 t4 H4. destruct (write_record f0 f3 b3 t2 text b4 t4 S3 C3 I3 N3 H4) as (f4 & S4 & C4). destruct r; [exact I|exact (stops_at _ _ _ S4 C4)].
      - intros b3 t3 H3. apply and_then_go in H3. destruct H3 as (b4 & t4 & H4 & H3). rewrite (SY _ _ _ H4) in H3. destruct (save_records (l ++ new)) as [r text]. apply and_then_go in H3. destruct H3 as (b5 & t5 & H5 & H3).
        destruct (write_record f0 f3 b4 t2 text b5 t5 S3 C3 I3 N3 H5) as (f4 & S4 & C4). destruct r; [|discriminate]. injection H3 as <- <-. exists f4. auto. }
    destruct W as [W1 W2]. apply stops_then; [exact W1|]. intros b3 t3 H3. destruct (W2 b3 t3 H3) as (f4 & S4 & C4). destruct post; [exact I|exact (stops_at _ _ _ S4 C4)].
  Qed.
End End.

Section Package.
  Variables (h : hashlib) (hexdigest : str -> str) (read_paths : str -> res (list (str * str))) (read_index : str -> res bool) (run_script : str -> res unit) (order : list path -> list path).
  Variables (w : fs) (tmp : path) (tg : target) (info_name wheel metadata : str) (request mode : option str).
  Notation site := (t_purelib tg).
  Notation data := (t_data tg).
  Notation pylib := (name_of (tl (t_purelib tg))).
  Notation info := (info_name :: t_purelib tg).
  Hypothesis T : tidy_package w tmp pylib.
  Hypothesis OS : forall l p, In p (order l) <-> In p l.
  (** no file is listed twice *)
  Hypothesis ONCE : forall text, lookup w (lit "files" :: lit "info" :: tmp) = Some (File text) -> NoDup (filter (fun l => negb (str_eqb l "")) (split_lines text)).
  Lemma broken_spec : forall b f o, wf_fs f -> install_conda h hexdigest read_paths read_index run_script order w tmp tg info_name wheel metadata request mode b f = Broken o ->
    exists f1 f2, o = Some f1 /\ same_fs f1 f2 /\ changed info f f2.
  Proof.
    intros b f o WF H. unfold install_conda in H. destruct (prepare _ _ _ _ _ _ _ _) as [[[[signed w'] lines] textual]|] eqn:PR; [|discriminate].
    destruct (prepared h hexdigest read_paths read_index run_script w tmp tg T signed w' lines textual PR) as (M & (text & LF & EL) & paths & V & _).
    set (reloc := relocate w tmp pylib) in *.
    assert (PLACE : forall l p, In l lines -> place data signed reloc l p -> exists r s, l = join "/" r /\ r <> [] /\ Forall proper r /\ packaged w tmp r s /\ p = rev (reloc r) ++ data).
    { intros l p I (AB & (sig & SG) & ->). rewrite EL in I. apply filter_In in I. destruct I as [I NE]. apply negb_true_iff, str_eqb_neq in NE. destruct (tp_lines _ _ _ T text l LF I NE) as (r & N & P & ->).
      pose proof (parts_proper r N P) as PP. rewrite PP in *. destruct (verify_spec _ _ _ _ _ _ _ V) as [_ V2]. destruct (V2 r sig SG) as [X|(x & sha & c & g & I2 & K & L & HX & HG & SE)]; [discriminate|].
      rewrite (key_place _ _ _ (tp_tmp _ _ _ T) K) in L. rewrite at_proper in L by exact P. exists r, c. split; [reflexivity|]. split; [exact N|]. split; [exact P|]. split; [exact L|].
      apply at_proper. unfold reloc. destruct (reloc_cases w w' tmp pylib T M) as [(R & _ & _)|(n & PN & LN & NL & NEQ & _ & R1 & R2)]; [rewrite R; exact P|].
      destruct r as [|a [|b0 [|c0 rest]]]; try (rewrite R2; [exact P|intros rest' N' E'; try discriminate; injection E' as _ _ <-; congruence]).
      destruct (str_eqb a "lib") eqn:EA; [|rewrite R2; [exact P|intros rest' N' E'; injection E' as -> _ _; rewrite str_eqb_refl in EA; discriminate]].
      destruct (str_eqb b0 n) eqn:EB; [|rewrite R2; [exact P|intros rest' N' E'; injection E' as _ -> _; rewrite str_eqb_refl in EB; discriminate]].
      apply str_eqb_eq in EA, EB. subst a b0. inversion P as [|? ? PA P1]; subst. inversion P1 as [|? ? PB P2]; subst. rewrite R1; [|discriminate|exact P2| |exact P].
      - constructor; [exact PA|]. constructor; [exact (tp_pylib _ _ _ T)|exact P2].
      - replace (rev (c0 :: rest) ++ n :: lit "lib" :: tmp) with (rev (lit "lib" :: n :: c0 :: rest) ++ tmp) by (cbn [rev]; rewrite <- !app_assoc; reflexivity). intro Z. pose proof (eq_trans (eq_sym Z) L). discriminate. }
    assert (START : steady f (tx_start f)).
    { constructor; [constructor|..]; cbn [tx_start fsys copied backups bpaths map]; try contradiction; try assumption; try reflexivity. constructor. }
    assert (LS : match fst (copy_lines w' tmp data (rel_to data site ++ tmp) signed reloc lines [] [] b (tx_start f)) with
      | Go _ t' => exists f1, steady f1 t' /\ live t' /\ grown (generated info) f f1 | Raised t' => exists f1, restorable f1 t' /\ grown (generated info) f f1 end).
    { apply (lines_steady w' tmp data (rel_to data site ++ tmp) signed reloc (generated info) lines [] [] [] b (tx_start f) f); cbn [app].
      - intros l1 l2 p1 p2 I1 I2 P1 P2 U. destruct (PLACE l1 p1 I1 P1) as (r1 & s1 & -> & N1 & Q1 & K1 & ->). destruct (PLACE l2 p2 I2 P2) as (r2 & s2 & -> & N2 & Q2 & K2 & ->).
        f_equal. exact (reloc_apart w w' tmp data pylib T M r1 r2 s1 s2 Q1 Q2 K1 K2 N1 U).
      - intros l p I P. destruct (PLACE l p I P) as (r & s & _ & N & _ & _ & ->). intro Z. apply app_eq_nil in Z. destruct Z as [Z _]. apply (f_equal (@rev str)) in Z. rewrite rev_involutive in Z. exact (reloc_nonempty w tmp tg r N Z).
      - rewrite EL. exact (ONCE text LF).
      - exact START.
      - intros x [].
      - intros x [].
      - intros x []. }
    assert (ST : stops info f (conda_transaction h order w' tmp data site info_name wheel metadata signed reloc lines (hook run_script w' tmp textual (lit "post-link")) b f)).
    { unfold conda_transaction. destruct (under data site); [|exists f; split; [exact (s_back _ _ START)|intros q _; left; reflexivity]].
      destruct (copy_lines _ _ _ _ _ _ _ _ _ _ _) as [o1 pre]. cbn [fst] in LS. destruct o1 as [b1 t1|t1]; cbn [and_then].
      - destruct LS as (f1 & S1 & L1 & G1). exact (finish_stops h order site info wheel metadata f f1 _ pre b1 t1 S1 L1 (grown_changed info _ _ G1)).
      - destruct LS as (f1 & S1 & G1). exists f1. split; [exact S1|exact (grown_changed info _ _ G1)]. }
    destruct (conda_transaction _ _ _ _ _ _ _ _ _ _ _ _ _ _ _) as [b1 t|t]; [discriminate|]. injection H as <-. destruct ST as (f2 & R & C).
    destruct (restored f2 t (order (copied t)) R (OS (copied t))) as (f1 & E & SF). exists f1, f2. auto.
  Qed.
End Package.
