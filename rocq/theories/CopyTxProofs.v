From Coq Require Import String Ascii List Bool NArith Arith Lia.
From Verif Require Import Base BaseFacts FsModel FsFacts CopyTxModel CopyTxSpec.
Import ListNotations.
Open Scope nat_scope.
Open Scope list_scope.
Open Scope bool_scope.

Definition bpaths (t : tx) : list path := map fst (backups t).
Definition covered (t : tx) (p : path) : bool := existsb (fun b => under b p) (bpaths t).
Lemma covered_iff : forall t p, covered t p = true <-> exists b, In b (bpaths t) /\ under b p = true.
Proof. intros. apply existsb_exists. Qed.
Lemma covered_false : forall t p, covered t p = false <-> forall b, In b (bpaths t) -> under b p = false.
Proof.
  intros t p. split.
  - intros H b I. destruct (under b p) eqn:E; [|reflexivity]. assert (covered t p = true) by (apply covered_iff; eauto). congruence.
  - intro H. destruct (covered t p) eqn:E; [|reflexivity]. apply covered_iff in E. destruct E as (b & I & U). rewrite (H b I) in U. discriminate.
Qed.
Definition incomparable (a b : path) : Prop := under a b = false /\ under b a = false.

Record inv (f0 : fs) (t : tx) : Prop := {
  i_wf : wf_fs (fsys t);
  i_live : forall p, In p (copied t) -> lookup (fsys t) p <> None;
  i_new : forall p, In p (copied t) -> lookup f0 p = None \/ covered t p = true;
  i_old : forall p, ~ In p (copied t) -> lookup (fsys t) p = if covered t p then None else lookup f0 p;
  i_backup : forall b tr, In (b, tr) (backups t) -> b <> [] /\ lookup f0 b <> None /\ forall r, lookup tr r = lookup f0 (r ++ b);
  i_apart : ForallOrdPairs incomparable (bpaths t) }.

(** everything recorded so far *)
Definition recorded (t : tx) (q : path) : Prop := In q (copied t) \/ In q (bpaths t).

Lemma in_dec_path : forall (p : path) l, In p l \/ ~ In p l.
Proof. intros p l. destruct (path_mem p l) eqn:E; [left; apply path_mem_iff, E|right; intro H; apply path_mem_iff in H; congruence]. Qed.

Lemma wf_write : forall f c p n, wf_fs f -> lookup f p = Some Dir -> lookup f (c :: p) = None -> wf_fs (write f (c :: p) n).
Proof.
  intros f c p n [W1 W2] HP HN. split.
  - rewrite lookup_write. exact W1.
  - intros d q H. rewrite lookup_write in *. destruct (path_eqb (d :: q) (c :: p)) eqn:E.
    + apply path_eqb_eq in E. injection E as -> ->. destruct (path_eqb p (c :: p)) eqn:E2; [|exact HP].
      apply path_eqb_eq in E2. apply (f_equal (@length _)) in E2. cbn in E2. lia.
    + apply W2 in H. destruct (path_eqb q (c :: p)) eqn:E2; [|exact H]. apply path_eqb_eq in E2. subst q. congruence.
Qed.
(** adding a new entry *)
Lemma inv_add : forall f0 t c p n, inv f0 t -> lookup (fsys t) p = Some Dir -> lookup (fsys t) (c :: p) = None ->
  inv f0 (add_copied (set_fs t (write (fsys t) (c :: p) n)) (c :: p)).
Proof.
  intros f0 t c p n I HP HN. destruct I. set (q := c :: p) in *.
  assert (NC : ~ In q (copied t)) by (intro H; exact (i_live0 q H HN)).
  constructor; cbn [fsys copied backups add_copied set_fs].
  - apply wf_write; assumption.
  - intros x H. rewrite lookup_write. destruct (path_eqb x q) eqn:E; [discriminate|]. apply in_app_iff in H. destruct H as [H|[<-|[]]]; [apply i_live0, H|].
    rewrite path_eqb_refl in E. discriminate.
  - intros x H. apply in_app_iff in H. destruct H as [H|[<-|[]]]; [apply i_new0, H|]. rewrite (i_old0 q NC) in HN.
    change (covered (add_copied (set_fs t (write (fsys t) q n)) q) q) with (covered t q). destruct (covered t q); auto.
  - intros x H. rewrite in_app_iff in H. rewrite lookup_write. destruct (path_eqb x q) eqn:E.
    + apply path_eqb_eq in E. subst. exfalso. apply H. right. left. reflexivity.
    + apply i_old0. tauto.
  - exact i_backup0.
  - exact i_apart0.
Qed.

Lemma fop_snoc : forall A (R : A -> A -> Prop) l x, ForallOrdPairs R l -> (forall y, In y l -> R y x) -> ForallOrdPairs R (l ++ [x]).
Proof.
  intros A R l x F H. induction F as [|y l F1 F IH]; cbn; [constructor; constructor|]. constructor.
  - apply Forall_app. split; [exact F1|]. constructor; [apply H; left; reflexivity|constructor].
  - apply IH. intros z I. apply H. right. exact I.
Qed.

(** moving a tree aside *)
Lemma inv_rm : forall f0 t p, wf_fs f0 -> inv f0 t -> lookup (fsys t) p <> None -> p <> [] ->
  (forall q, recorded t q -> under p q = false) ->
  inv f0 (TX (remove_tree (fsys t) p) (copied t) (backups t ++ [(p, tree_at (fsys t) p)])).
Proof.
  intros f0 t p W0 I HE HN FR. destruct I.
  assert (PC : ~ In p (copied t)) by (intro H; specialize (FR p (or_introl H)); rewrite under_refl in FR; discriminate).
  assert (PU : covered t p = false).
  { destruct (covered t p) eqn:E; [|reflexivity]. rewrite (i_old0 p PC), E in HE. congruence. }
  assert (SUB : forall q, under p q = true -> lookup (fsys t) q = lookup f0 q).
  { intros q U. assert (NC : ~ In q (copied t)) by (intro H; rewrite (FR q (or_introl H)) in U; discriminate).
    rewrite (i_old0 q NC). destruct (covered t q) eqn:E; [|reflexivity]. exfalso. apply covered_iff in E. destruct E as (b & Ib & Ub).
    destruct (under_linear b p q Ub U) as [X|X].
    - assert (covered t p = true) by (apply covered_iff; eauto). congruence.
    - rewrite (FR b (or_intror Ib)) in X. discriminate. }
  assert (CV : forall x, covered (TX (remove_tree (fsys t) p) (copied t) (backups t ++ [(p, tree_at (fsys t) p)])) x = covered t x || under p x).
  { intro x. unfold covered, bpaths. cbn [backups]. rewrite map_app, existsb_app. cbn. rewrite orb_false_r. reflexivity. }
  constructor; cbn [fsys copied backups].
  - destruct i_wf0 as [W1 W2]. split.
    + rewrite lookup_remove_tree. destruct (under p []) eqn:E; [|exact W1]. apply under_len in E. destruct p; [congruence|cbn in E; lia].
    + intros c q H. rewrite lookup_remove_tree in *. destruct (under p (c :: q)) eqn:E; [congruence|]. destruct (under p q) eqn:E2; [|apply W2 with c, H].
      rewrite (under_trans p q (c :: q) E2 (under_cons c q)) in E. discriminate.
  - intros x H. rewrite lookup_remove_tree. rewrite (FR x (or_introl H)). apply i_live0, H.
  - intros x H. rewrite CV. destruct (i_new0 x H) as [X|X]; [left; exact X|right; rewrite X; reflexivity].
  - intros x H. rewrite lookup_remove_tree, CV. destruct (under p x); [rewrite orb_true_r; reflexivity|]. rewrite orb_false_r. apply i_old0, H.
  - intros b tr H. apply in_app_iff in H. destruct H as [H|[H|[]]]; [apply i_backup0, H|]. injection H as <- <-. split; [exact HN|]. split.
    + rewrite <- SUB; [exact HE|apply under_refl].
    + intro r. rewrite lookup_tree_at. apply SUB, under_app.
  - unfold bpaths. cbn [backups]. rewrite map_app. cbn [map fst]. apply fop_snoc; [exact i_apart0|]. intros b H. split.
    + destruct (under b p) eqn:E; [|reflexivity]. assert (covered t p = true) by (apply covered_iff; eauto). congruence.
    + apply FR. right. exact H.
Qed.

(** ** What the operations do *)
Definition grows (t t' : tx) (target : path) : Prop :=
  (forall q, recorded t' q -> recorded t q \/ under q target = true) /\ (forall q, recorded t q -> recorded t' q).

Lemma mkdir_spec : forall f0 target b t, inv f0 t ->
  let o := tx_mkdir b t target in let t' := final o in
  inv f0 t' /\ grows t t' target /\ backups t' = backups t /\
  (forall q, lookup (fsys t) q <> None \/ under q target = false -> lookup (fsys t') q = lookup (fsys t) q) /\
  (forall q, In q (copied t') -> In q (copied t) \/ (under q target = true /\ lookup (fsys t') q = Some Dir)) /\
  (forall b' t1, o = Go b' t1 -> lookup (fsys t') target <> None).
Proof.
  intros f0 target. induction target as [|c par IH]; intros b t I.
  - cbn [tx_mkdir]. destruct (exists_at (fsys t) []); cbn [final]; (split; [exact I|]); split; [split; auto| |split; auto|]; split; auto; split; auto; split; auto;
    intros ? ? _; destruct I as [[W _] _ _ _ _ _]; rewrite W; discriminate.
  - cbn [tx_mkdir]. destruct (exists_at (fsys t) (c :: par)) eqn:E.
    + cbn [final]. split; [exact I|]. split; [split; auto|]. split; [reflexivity|]. split; [auto|]. split; [auto|]. intros _ _ _. apply exists_at_true, E.
    + apply exists_at_false in E. set (o1 := if exists_at (fsys t) par then Go b t else tx_mkdir b t par).
      assert (S1 : let t' := final o1 in
        inv f0 t' /\ grows t t' par /\ backups t' = backups t /\
        (forall q, lookup (fsys t) q <> None \/ under q par = false -> lookup (fsys t') q = lookup (fsys t) q) /\
        (forall q, In q (copied t') -> In q (copied t) \/ (under q par = true /\ lookup (fsys t') q = Some Dir))).
      { unfold o1. destruct (exists_at (fsys t) par); [|destruct (IH b t I) as (A1 & A2 & A3 & A4 & A5 & _); auto].
        cbn [final]. split; [exact I|]. split; [split; auto|]. auto. }
      clearbody o1. destruct o1 as [b1 t1|t1]; cbn [and_then final] in *; destruct S1 as (I1 & (G1 & G1') & B1 & F1 & D1).
      * assert (UP : forall q, under q par = true -> under q (c :: par) = true) by (intros q H; apply (under_trans q par); [exact H|apply under_cons]).
        assert (NU : under (c :: par) par = false).
        { destruct (under (c :: par) par) eqn:X; [|reflexivity]. apply under_len in X. cbn in X. lia. }
        unfold syscall. destruct b1 as [|b1]; [|destruct (is_dir (fsys t1) par) eqn:EP]; cbn [final].
        -- split; [exact I1|]. split; [split; [intros q H; destruct (G1 q H); auto|exact G1']|]. split; [exact B1|]. split; [|split].
           ++ intros q [H|H]; apply F1; [left; exact H|right]. destruct (under q par) eqn:X; [|reflexivity]. rewrite (UP q X) in H. discriminate.
           ++ intros q H. destruct (D1 q H) as [X|[X Y]]; auto.
           ++ discriminate.
        -- apply is_dir_true in EP. assert (N1 : lookup (fsys t1) (c :: par) = None) by (rewrite F1; [exact E|right; exact NU]).
           split; [apply inv_add; assumption|]. split; [|split; [exact B1|split; [|split]]].
           ++ split.
              ** intros q [H|H]; cbn [copied add_copied set_fs] in H.
                 --- apply in_app_iff in H. destruct H as [H|[<-|[]]]; [destruct (G1 q (or_introl H)); auto|right; apply under_refl].
                 --- destruct (G1 q (or_intror H)); auto.
              ** intros q H. destruct (G1' q H) as [X|X]; [left; cbn; apply in_app_iff; left; exact X|right; exact X].
           ++ intros q H. cbn [fsys add_copied set_fs]. rewrite lookup_write. destruct (path_eqb q (c :: par)) eqn:X.
              ** apply path_eqb_eq in X. subst q. destruct H as [H|H]; [congruence|]. rewrite under_refl in H. discriminate.
              ** apply F1. destruct H as [H|H]; [left; exact H|right]. destruct (under q par) eqn:Y; [|reflexivity]. rewrite (UP q Y) in H. discriminate.
           ++ intros q H. cbn [copied fsys add_copied set_fs] in *. rewrite lookup_write. apply in_app_iff in H. destruct H as [H|[<-|[]]].
              ** destruct (D1 q H) as [X|[X Y]]; [left; exact X|right]. split; [apply UP, X|]. destruct (path_eqb q (c :: par)); [reflexivity|exact Y].
              ** right. split; [apply under_refl|]. rewrite path_eqb_refl. reflexivity.
           ++ intros _ _ _. cbn [fsys add_copied set_fs]. rewrite lookup_write, path_eqb_refl. discriminate.
        -- split; [exact I1|]. split; [split; [intros q H; destruct (G1 q H); auto|exact G1']|]. split; [exact B1|]. split; [|split].
           ++ intros q [H|H]; apply F1; [left; exact H|right]. destruct (under q par) eqn:X; [|reflexivity]. rewrite (UP q X) in H. discriminate.
           ++ intros q H. destruct (D1 q H) as [X|[X Y]]; auto.
           ++ discriminate.
      * assert (UP : forall q, under q par = true -> under q (c :: par) = true) by (intros q H; apply (under_trans q par); [exact H|apply under_cons]).
        split; [exact I1|]. split; [split; [intros q H; destruct (G1 q H); auto|exact G1']|]. split; [exact B1|]. split; [|split].
        -- intros q [H|H]; apply F1; [left; exact H|right]. destruct (under q par) eqn:X; [|reflexivity]. rewrite (UP q X) in H. discriminate.
        -- intros q H. destruct (D1 q H) as [X|[X Y]]; auto.
        -- discriminate.
Qed.

Lemma rm_spec : forall f0 b t p, wf_fs f0 -> inv f0 t -> (forall q, recorded t q -> under p q = false) -> p <> [] ->
  let o := tx_rm b t p in let t' := final o in
  inv f0 t' /\ grows t t' p /\ copied t' = copied t /\
  (forall q, under p q = false -> lookup (fsys t') q = lookup (fsys t) q) /\
  (forall b' t1, o = Go b' t1 -> lookup (fsys t') p = None).
Proof.
  intros f0 b t p W0 I FR NP. unfold tx_rm, syscall.
  assert (Same : inv f0 t /\ grows t t p /\ copied t = copied t /\ (forall q, under p q = false -> lookup (fsys t) q = lookup (fsys t) q))
    by (split; [exact I|split; [split; auto|auto]]).
  destruct b as [|b]; [cbn; split; [apply I|]; destruct Same as (A & B & C & D); repeat split; auto; try apply B; discriminate|].
  destruct (exists_at (fsys t) p) eqn:E; cbn [final].
  - apply exists_at_true in E. split; [apply inv_rm; assumption|]. split; [|split; [reflexivity|split]].
    + split.
      * intros q [H|H]; [left; left; exact H|]. unfold bpaths in H. cbn [backups] in H. rewrite map_app in H. apply in_app_iff in H.
        destruct H as [H|[<-|[]]]; [left; right; exact H|right; apply under_refl].
      * intros q [H|H]; [left; exact H|right]. unfold bpaths. cbn [backups]. rewrite map_app. apply in_app_iff. left. exact H.
    + intros q H. cbn [fsys]. rewrite lookup_remove_tree, H. reflexivity.
    + intros _ _ _. cbn [fsys]. rewrite lookup_remove_tree, under_refl. reflexivity.
  - destruct Same as (A & B & C & D). split; [exact A|]. split; [exact B|]. split; [exact C|]. split; [exact D|discriminate].
Qed.

Lemma docopy_spec : forall f0 b t c target, inv f0 t -> lookup (fsys t) target = None ->
  let o := do_copy b t c target None in let t' := final o in
  inv f0 t' /\ grows t t' target /\
  (forall q, q <> target -> lookup (fsys t') q = lookup (fsys t) q) /\
  (forall q, In q (copied t') -> In q (copied t) \/ q = target) /\
  (forall b' t1, o = Go b' t1 -> lookup (fsys t') target = Some (File c) /\ In target (copied t')).
Proof.
  intros f0 b t c target I HN.
  assert (Same : inv f0 t /\ grows t t target /\ (forall q, q <> target -> lookup (fsys t) q = lookup (fsys t) q) /\ (forall q, In q (copied t) -> In q (copied t) \/ q = target))
    by (split; [exact I|split; [split; auto|auto]]).
  unfold do_copy. destruct target as [|n par].
  - cbn [final]. destruct Same as (A & B & C & D). repeat (split; [assumption|]). discriminate.
  - destruct (is_dir (fsys t) par) eqn:EP; [|cbn [final]; destruct Same as (A & B & C & D); repeat (split; [assumption|]); discriminate].
    apply is_dir_true in EP. destruct b as [|b]; cbn [syscall final].
    + destruct Same as (A & B & C & D); repeat (split; [assumption|]); discriminate.
    + split; [apply inv_add; assumption|]. split; [|split; [|split]].
      * split.
        -- intros q [H|H]; cbn [copied add_copied set_fs] in H; [|left; right; exact H]. apply in_app_iff in H. destruct H as [H|[<-|[]]]; [left; left; exact H|right; apply under_refl].
        -- intros q [H|H]; [left; cbn; apply in_app_iff; left; exact H|right; exact H].
      * intros q N. cbn [fsys add_copied set_fs]. rewrite lookup_write. destruct (path_eqb q (n :: par)) eqn:X; [apply path_eqb_eq in X; contradiction|reflexivity].
      * intros q H. cbn [copied add_copied set_fs] in H. apply in_app_iff in H. destruct H as [H|[<-|[]]]; auto.
      * intros _ _ _. cbn [fsys copied add_copied set_fs]. rewrite lookup_write, path_eqb_refl. split; [reflexivity|]. apply in_app_iff. right. left. reflexivity.
Qed.

Definition frame (t t' : tx) (target : path) : Prop :=
  forall q, lookup (fsys t) q <> None -> under target q = false -> lookup (fsys t') q = lookup (fsys t) q.
(** entries recorded as copied are the target of a copy or directories above the target *)
Definition new_copied (t t' : tx) (o : tx_op) : Prop :=
  forall q, In q (copied t') -> In q (copied t) \/
    (under q (op_target o) = true /\ lookup (fsys t') q = Some Dir) \/
    (exists c, o = OCopy (Some c) q /\ lookup (fsys t') q = Some (File c)).

Lemma copy_spec : forall f0 b t s target, wf_fs f0 -> inv f0 t -> (forall q, recorded t q -> under target q = false) -> target <> [] ->
  let o := tx_copy b t s target None in let t' := final o in
  inv f0 t' /\ grows t t' target /\ frame t t' target /\ new_copied t t' (OCopy s target) /\
  (forall b' t1, o = Go b' t1 -> exists c, s = Some c /\ lookup (fsys t') target = Some (File c) /\ In target (copied t')).
Proof.
  intros f0 b t s target W0 I FR NT. destruct s as [c|].
  2:{ cbn. split; [exact I|]. split; [split; auto|]. split; [intros q _ _; reflexivity|]. split; [intros q H; left; exact H|discriminate]. }
  destruct target as [|n par]; [congruence|]. set (target := n :: par) in *.
  assert (NU : under target par = false).
  { destruct (under target par) eqn:X; [|reflexivity]. apply under_len in X. cbn in X. lia. }
  assert (UP : forall q, under q par = true -> under q target = true) by (intros q H; apply (under_trans q par); [exact H|apply under_cons]).
  assert (EQ : tx_copy b t (Some c) target None = and_then (if exists_at (fsys t) target then tx_rm b t target else Go b t)
    (fun b t => and_then (if exists_at (fsys t) par then Go b t else tx_mkdir b t par) (fun b t => do_copy b t c target None))) by reflexivity.
  cbv zeta. rewrite EQ. clear EQ. set (o1 := if exists_at (fsys t) target then tx_rm b t target else Go b t).
  assert (S1 : let t' := final o1 in inv f0 t' /\ grows t t' target /\ copied t' = copied t /\
     (forall q, under target q = false -> lookup (fsys t') q = lookup (fsys t) q) /\
     (forall b' t1, o1 = Go b' t1 -> lookup (fsys t') target = None)).
  { unfold o1. destruct (exists_at (fsys t) target) eqn:E; [apply (rm_spec f0 b t target W0 I FR NT)|]. cbn [final]. apply exists_at_false in E.
    split; [exact I|]. split; [split; auto|]. split; [reflexivity|]. split; [auto|]. auto. }
  clearbody o1. destruct o1 as [b1 t1|t1]; cbn [and_then final] in *; destruct S1 as (I1 & (G1 & G1') & C1 & F1 & N1).
  2:{ split; [exact I1|]. split; [split; assumption|]. split; [intros q _ H; apply F1, H|]. split; [intros q H; left; rewrite <- C1; exact H|discriminate]. }
  specialize (N1 _ _ eq_refl).
  set (o2 := if exists_at (fsys t1) par then Go b1 t1 else tx_mkdir b1 t1 par).
  assert (S2 : let t' := final o2 in
        inv f0 t' /\ grows t1 t' par /\ backups t' = backups t1 /\
        (forall q, lookup (fsys t1) q <> None \/ under q par = false -> lookup (fsys t') q = lookup (fsys t1) q) /\
        (forall q, In q (copied t') -> In q (copied t1) \/ (under q par = true /\ lookup (fsys t') q = Some Dir))).
  { unfold o2. destruct (exists_at (fsys t1) par); [|destruct (mkdir_spec f0 par b1 t1 I1) as (A1 & A2 & A3 & A4 & A5 & _); auto].
    cbn [final]. split; [exact I1|]. split; [split; auto|]. auto. }
  clearbody o2. destruct o2 as [b2 t2|t2]; cbn [and_then final] in *; destruct S2 as (I2 & (G2 & G2') & B2 & F2 & D2).
  2:{ split; [exact I2|]. split; [split|].
      - intros q H. destruct (G2 q H) as [X|X]; [exact (G1 q X)|right; apply UP, X].
      - intros q H. apply G2', G1', H.
      - split; [|split; [|discriminate]].
        + intros q H U. rewrite F2; [apply F1, U|]. left. rewrite (F1 q U). exact H.
        + intros q H. destruct (D2 q H) as [X|[X Y]]; [left; rewrite <- C1; exact X|right; left; split; [apply UP, X|exact Y]]. }
  assert (N2 : lookup (fsys t2) target = None) by (rewrite F2; [exact N1|right; exact NU]).
  destruct (docopy_spec f0 b2 t2 c target I2 N2) as (I3 & (G3 & G3') & F3 & D3 & K3).
  split; [exact I3|]. split; [split|split; [|split]].
  - intros q H. destruct (G3 q H) as [X|X]; [|right; exact X]. destruct (G2 q X) as [Y|Y]; [exact (G1 q Y)|right; apply UP, Y].
  - intros q H. apply G3', G2', G1', H.
  - intros q H U. rewrite F3; [|intros ->; rewrite under_refl in U; discriminate]. rewrite F2; [apply F1, U|]. left. rewrite (F1 q U). exact H.
  - intros q H. destruct (path_eqb q target) eqn:X.
    + apply path_eqb_eq in X. subst q.
      destruct (do_copy b2 t2 c target None) as [b3 t3|t3] eqn:E3.
      * destruct (K3 _ _ eq_refl) as [K _]. right. right. exists c. split; [reflexivity|exact K].
      * destruct (D3 target H) as [Y|_].
        -- destruct (D2 target Y) as [Z|[Z _]]; [left; rewrite <- C1; exact Z|]. rewrite NU in Z. discriminate.
        -- exfalso. apply i_live with (f0 := f0) in H; [|exact I3]. cbn [final] in H. unfold do_copy in E3. fold target in E3.
           unfold target in E3. destruct (is_dir (fsys t2) par); [|injection E3 as <-; exact (H N2)].
           destruct b2; cbn in E3; [injection E3 as <-; exact (H N2)|discriminate].
    + apply path_eqb_neq in X. destruct (D3 q H) as [Y|Y]; [|contradiction]. destruct (D2 q Y) as [Z|[Z Z2]]; [left; rewrite <- C1; exact Z|].
      right. left. split; [apply UP, Z|]. rewrite F3; assumption.
  - intros b' t' E. destruct (K3 b' t' E) as [K1 K2]. exists c. auto.
Qed.

(** what has been recorded stays recorded *)
Lemma mkdir_mono : forall target b t q, In q (copied t) -> In q (copied (final (tx_mkdir b t target))).
Proof.
  induction target as [|c par IH]; intros b t q H; cbn [tx_mkdir]; destruct (exists_at _ _); try exact H.
  set (o1 := if exists_at (fsys t) par then Go b t else tx_mkdir b t par).
  assert (S1 : In q (copied (final o1))) by (unfold o1; destruct (exists_at (fsys t) par); [exact H|apply IH, H]).
  clearbody o1. destruct o1 as [b1 t1|t1]; cbn [and_then final] in *; [|exact S1]. unfold syscall. destruct b1; [exact S1|].
  destruct (is_dir _ _); [|exact S1]. cbn. apply in_app_iff. left. exact S1.
Qed.
Lemma copy_mono : forall b t s target q, In q (copied t) -> In q (copied (final (tx_copy b t s target None))).
Proof.
  intros b t [c|] target q H; cbn [tx_copy]; [|exact H]. destruct target as [|n par].
  - destruct (exists_at (fsys t) []) eqn:E; cbn [and_then].
    + unfold tx_rm, syscall. destruct b; [exact H|]. rewrite E. cbn. exact H.
    + exact H.
  - set (o1 := if exists_at (fsys t) (n :: par) then tx_rm b t (n :: par) else Go b t).
    assert (S1 : In q (copied (final o1))).
    { unfold o1. destruct (exists_at (fsys t) (n :: par)) eqn:E; [|exact H]. unfold tx_rm, syscall. destruct b; [exact H|]. rewrite E. exact H. }
    clearbody o1. destruct o1 as [b1 t1|t1]; cbn [and_then final] in *; [|exact S1].
    set (o2 := if exists_at (fsys t1) par then Go b1 t1 else tx_mkdir b1 t1 par).
    assert (S2 : In q (copied (final o2))) by (unfold o2; destruct (exists_at (fsys t1) par); [exact S1|apply mkdir_mono, S1]).
    clearbody o2. destruct o2 as [b2 t2|t2]; cbn [and_then final] in *; [|exact S2].
    unfold do_copy. destruct (is_dir _ _); [|exact S2]. unfold syscall. destruct b2; [exact S2|]. cbn. apply in_app_iff. left. exact S2.
Qed.
Lemma rm_mono : forall b t p, copied (final (tx_rm b t p)) = copied t.
Proof. intros b t p. unfold tx_rm, syscall. destruct b; [reflexivity|]. destruct (exists_at _ _); reflexivity. Qed.

Lemma step_spec : forall f0 b t o, wf_fs f0 -> inv f0 t -> tracked o ->
  (replaces o -> op_target o <> [] /\ forall q, recorded t q -> under (op_target o) q = false) ->
  let r := tx_step None b t o in let t' := final r in
  inv f0 t' /\ grows t t' (op_target o) /\
  (forall q, lookup (fsys t) q <> None -> (replaces o -> under (op_target o) q = false) -> lookup (fsys t') q = lookup (fsys t) q) /\
  new_copied t t' o /\
  (forall b' t1 c p, r = Go b' t1 -> o = OCopy (Some c) p -> lookup (fsys t') p = Some (File c) /\ In p (copied t')) /\
  (forall b' t1 p, r = Go b' t1 -> o = ORm p -> lookup (fsys t') p = None) /\
  (forall b' t1 s p, r = Go b' t1 -> o = OCopy s p -> exists c, s = Some c) /\
  (forall q, In q (copied t) -> In q (copied t')).
Proof.
  intros f0 b t o W0 I T FR. destruct o as [p|s p|p|p ft|c p]; try contradiction; cbn [op_target tx_step replaces] in *.
  - destruct (mkdir_spec f0 p b t I) as (A1 & A2 & A3 & A4 & A5 & A6). split; [exact A1|]. split; [exact A2|].
    split; [intros q H _; apply A4; left; exact H|]. split; [intros q H; destruct (A5 q H) as [X|X]; auto|].
    split; [discriminate|]. split; [discriminate|]. split; [discriminate|]. apply mkdir_mono.
  - destruct (FR Logic.I) as [NT FR']. destruct (copy_spec f0 b t s p W0 I FR' NT) as (A1 & A2 & A3 & A4 & A5).
    split; [exact A1|]. split; [exact A2|]. split; [intros q H U; apply A3; auto|]. split; [exact A4|].
    split; [|split; [discriminate|split; [|apply copy_mono]]].
    + intros b' t1 c p' E Eo. injection Eo as -> <-. destruct (A5 b' t1 E) as (c' & Ec & K). injection Ec as <-. exact K.
    + intros b' t1 s' p' E Eo. injection Eo as <- <-. destruct (A5 b' t1 E) as (c' & Ec & K). exists c'. exact Ec.
  - destruct (FR Logic.I) as [NT FR']. destruct (rm_spec f0 b t p W0 I FR' NT) as (A1 & A2 & A3 & A4 & A5).
    split; [exact A1|]. split; [exact A2|]. split; [intros q H U; apply A4; auto|]. split; [intros q H; left; rewrite <- A3; exact H|].
    split; [discriminate|]. split; [intros b' t1 p' E Eo; injection Eo as <-; exact (A5 b' t1 E)|]. split; [discriminate|].
    intros q H. rewrite A3. exact H.
Qed.

Lemma mkdir_bpaths : forall f0 b t p, inv f0 t -> bpaths (final (tx_mkdir b t p)) = bpaths t.
Proof. intros f0 b t p I. destruct (mkdir_spec f0 p b t I) as (_ & _ & E & _). unfold bpaths. rewrite E. reflexivity. Qed.
Lemma rm_bpaths : forall b t p q, In q (bpaths (final (tx_rm b t p))) -> In q (bpaths t) \/ q = p.
Proof.
  intros b t p q. unfold tx_rm, syscall. destruct b; [left; assumption|]. destruct (exists_at _ _); [|left; assumption].
  unfold bpaths. cbn [final backups]. rewrite map_app, in_app_iff. cbn. intros [H|[H|[]]]; auto.
Qed.
Lemma mkdir_backups : forall target b t, backups (final (tx_mkdir b t target)) = backups t.
Proof.
  induction target as [|c par IH]; intros b t; cbn [tx_mkdir]; destruct (exists_at _ _); try reflexivity.
  set (o1 := if exists_at (fsys t) par then Go b t else tx_mkdir b t par).
  assert (S1 : backups (final o1) = backups t) by (unfold o1; destruct (exists_at (fsys t) par); [reflexivity|apply IH]).
  clearbody o1. destruct o1 as [b1 t1|t1]; cbn [and_then final] in *; [|exact S1]. unfold syscall. destruct b1; [exact S1|].
  destruct (is_dir _ _); exact S1.
Qed.
Lemma copy_bpaths : forall b t s p q, In q (bpaths (final (tx_copy b t s p None))) -> In q (bpaths t) \/ q = p.
Proof.
  intros b t [c|] p q; cbn [tx_copy]; [|left; assumption].
  set (o1 := if exists_at (fsys t) p then tx_rm b t p else Go b t).
  assert (S1 : In q (bpaths (final o1)) -> In q (bpaths t) \/ q = p) by (unfold o1; destruct (exists_at (fsys t) p); [apply rm_bpaths|left; assumption]).
  clearbody o1. destruct o1 as [b1 t1|t1]; cbn [and_then final] in *; [|exact S1]. destruct p as [|n par]; [exact S1|].
  set (o2 := if exists_at (fsys t1) par then Go b1 t1 else tx_mkdir b1 t1 par).
  assert (S2 : backups (final o2) = backups t1) by (unfold o2; destruct (exists_at (fsys t1) par); [reflexivity|apply mkdir_backups]).
  clearbody o2. destruct o2 as [b2 t2|t2]; cbn [and_then final] in *.
  - intro H. apply S1. unfold bpaths. rewrite <- S2. revert H. unfold do_copy. destruct (is_dir _ _); [|auto]. unfold syscall. destruct b2; auto.
  - intro H. apply S1. unfold bpaths. rewrite <- S2. exact H.
Qed.
Lemma step_bpaths : forall b t o q, tracked o -> In q (bpaths (final (tx_step None b t o))) -> In q (bpaths t) \/ (replaces o /\ q = op_target o).
Proof.
  intros b t o q T H. destruct o as [p|s p|p|p ft|c p]; try contradiction; cbn [tx_step op_target replaces] in *.
  - left. unfold bpaths in *. rewrite mkdir_backups in H. exact H.
  - destruct (copy_bpaths _ _ _ _ _ H); auto.
  - destruct (rm_bpaths _ _ _ _ H); auto.
Qed.

(** ** Whole runs *)
Record track (f0 : fs) (done : list tx_op) (t : tx) : Prop := {
  k_inv : inv f0 t;
  k_rec : forall q, recorded t q -> exists o, In o done /\ under q (op_target o) = true;
  k_copied : forall p, In p (copied t) -> (exists c, In (OCopy (Some c) p) done) \/ (lookup (fsys t) p = Some Dir /\ exists o, In o done /\ under p (op_target o) = true);
  k_moved : forall q, In q (bpaths t) -> exists o, In o done /\ replaces o /\ q = op_target o }.
Definition complete (done : list tx_op) (t : tx) : Prop :=
  (forall c p, In (OCopy (Some c) p) done -> lookup (fsys t) p = Some (File c) /\ In p (copied t)) /\
  (forall s p, In (OCopy s p) done -> exists c, s = Some c).

Lemma replaces_root : forall o, tracked o -> replaces o -> op_target o <> [].
Proof. destruct o; cbn; tauto. Qed.

Lemma track_step : forall f0 done t o b, wf_fs f0 -> track f0 done t -> complete done t -> tracked o -> Forall (fun d => respects d o) done ->
  track f0 (done ++ [o]) (final (tx_step None b t o)) /\
  (forall b' t', tx_step None b t o = Go b' t' -> complete (done ++ [o]) t').
Proof.
  intros f0 done t o b W0 K C T R. destruct K as [I KR KC KM]. rewrite Forall_forall in R.
  assert (FR : replaces o -> forall q, recorded t q -> under (op_target o) q = false).
  { intros Ro q Rq. destruct (KR q Rq) as (d & Id & Ud). destruct (under (op_target o) q) eqn:E; [|reflexivity].
    rewrite <- (R d Id Ro). rewrite (under_trans _ _ _ E Ud). reflexivity. }
  destruct (step_spec f0 b t o W0 I T (fun Ro => conj (replaces_root o T Ro) (FR Ro))) as (I' & (G & _) & F & NC & CP & _ & CS & MO).
  assert (Keep : forall q, In q (copied t) -> lookup (fsys (final (tx_step None b t o))) q = lookup (fsys t) q).
  { intros q Hq. apply F; [apply (i_live f0 t I), Hq|]. intro Ro. apply (FR Ro). left. exact Hq. }
  split.
  - constructor.
    + exact I'.
    + intros q Rq. destruct (G q Rq) as [H|H].
      * destruct (KR q H) as (d & Id & Ud). exists d. rewrite in_app_iff. auto.
      * exists o. rewrite in_app_iff. cbn. auto.
    + intros p Hp. destruct (NC p Hp) as [H|[[H1 H2]|(c & E & H2)]].
      * destruct (KC p H) as [(c & Hc)|(HD & d & Id & Ud)]; [left; exists c; rewrite in_app_iff; auto|].
        right. rewrite (Keep p H). split; [exact HD|]. exists d. rewrite in_app_iff. auto.
      * right. split; [exact H2|]. exists o. rewrite in_app_iff. cbn. auto.
      * left. exists c. rewrite in_app_iff. cbn. auto.
    + intros q Hq. destruct (step_bpaths b t o q T Hq) as [H|[H1 H2]].
      * destruct (KM q H) as (d & Id & Ud). exists d. rewrite in_app_iff. auto.
      * exists o. rewrite in_app_iff. cbn. auto.
  - intros b' t' E. destruct C as [C1 C2]. rewrite E in Keep, MO. cbn [final] in Keep, MO. split.
    + intros c p H. apply in_app_iff in H. destruct H as [H|[H|[]]].
      * destruct (C1 c p H) as [L Ic]. split; [rewrite (Keep p Ic); exact L|apply MO, Ic].
      * destruct (CP b' t' c p E H) as [X Y]. rewrite E in X, Y. auto.
    + intros s p H. apply in_app_iff in H. destruct H as [H|[H|[]]]; [eauto|]. exact (CS b' t' s p E H).
Qed.

Lemma run_raised : forall ops t, fold_left (fun o op => and_then o (fun b t => tx_step None b t op)) ops (Raised t) = Raised t.
Proof. induction ops as [|o ops IH]; intro t; [reflexivity|]. cbn. apply IH. Qed.

Lemma track_mono : forall f0 done more t, track f0 done t -> track f0 (done ++ more) t.
Proof.
  intros f0 done more t [I KR KC KM]. constructor; [exact I| | |].
  - intros q H. destruct (KR q H) as (d & Id & Ud). exists d. rewrite in_app_iff. auto.
  - intros p H. destruct (KC p H) as [(c & Hc)|(HD & d & Id & Ud)]; [left; exists c; rewrite in_app_iff; auto|right; split; [exact HD|exists d; rewrite in_app_iff; auto]].
  - intros q H. destruct (KM q H) as (d & Id & Ud). exists d. rewrite in_app_iff. auto.
Qed.

Lemma track_run : forall f0 ops done b t, wf_fs f0 -> track f0 done t -> complete done t -> Forall tracked ops ->
  ForallOrdPairs respects ops -> (forall d o, In d done -> In o ops -> respects d o) ->
  track f0 (done ++ ops) (final (tx_run None b t ops)) /\
  (forall b' t', tx_run None b t ops = Go b' t' -> complete (done ++ ops) t').
Proof.
  intros f0 ops. unfold tx_run. induction ops as [|o ops IH]; intros done b t W0 K C T P D.
  - rewrite app_nil_r. cbn. split; [exact K|]. intros b' t' E. injection E as <- <-. exact C.
  - inversion T as [|? ? T1 T2]; subst. inversion P as [|? ? P1 P2]; subst. cbn [fold_left and_then].
    destruct (track_step f0 done t o b W0 K C T1) as [K1 C1].
    { apply Forall_forall. intros d Id. apply D; [exact Id|left; reflexivity]. }
    replace (done ++ o :: ops) with ((done ++ [o]) ++ ops) by (rewrite <- app_assoc; reflexivity).
    destruct (tx_step None b t o) as [b1 t1|t1] eqn:E.
    + apply IH; [exact W0|exact K1|exact (C1 b1 t1 eq_refl)|exact T2|exact P2|].
      intros d o2 Hd Ho. apply in_app_iff in Hd. destruct Hd as [Hd|[<-|[]]]; [apply D; [exact Hd|right; exact Ho]|].
      rewrite Forall_forall in P1. apply P1, Ho.
    + rewrite run_raised. split; [apply track_mono, K1|discriminate].
Qed.

Lemma inv_start : forall f0, wf_fs f0 -> inv f0 (tx_start f0).
Proof.
  intros f0 W. constructor; cbn.
  - exact W.
  - contradiction.
  - contradiction.
  - reflexivity.
  - contradiction.
  - constructor.
Qed.
Lemma track_start : forall f0, wf_fs f0 -> track f0 [] (tx_start f0).
Proof. intros f0 W. constructor; [apply inv_start, W| | |]; cbn; try contradiction. intros q [H|H]; contradiction. Qed.
Lemma run_track : forall f0 b ops, wf_fs f0 -> orderly ops ->
  track f0 ops (final (tx_run None b (tx_start f0) ops)) /\
  (forall b' t', tx_run None b (tx_start f0) ops = Go b' t' -> complete ops t').
Proof.
  intros f0 b ops W [T P]. apply (track_run f0 ops [] b (tx_start f0) W (track_start f0 W)); auto.
  - split; intros; contradiction.
  - intros d o [].
Qed.

(** ** Rollback *)
Lemma lookup_unlink : forall order f p, lookup (unlink_pass order f) p = if path_mem p order && is_file f p then None else lookup f p.
Proof.
  induction order as [|x order IH]; intros f p; [reflexivity|].
  change (unlink_pass (x :: order) f) with (unlink_pass order (if is_file f x then remove_path f x else f)). rewrite IH.
  assert (M : path_mem p (x :: order) = path_eqb p x || path_mem p order) by reflexivity. rewrite M. clear M.
  destruct (is_file f x) eqn:Ex.
  - unfold is_file. rewrite lookup_remove. destruct (path_eqb p x) eqn:E; [|reflexivity]. apply path_eqb_eq in E. subst x. rewrite andb_false_r.
    unfold is_file in Ex. cbn [orb andb]. rewrite Ex. reflexivity.
  - destruct (path_eqb p x) eqn:E; [|reflexivity]. apply path_eqb_eq in E. subst x. rewrite Ex, andb_false_r. cbn. reflexivity.
Qed.

Lemma rmdir_spec : forall f b a g, 
  (forall x, In x (a ++ b) -> lookup f x = None \/ lookup f x = Some Dir) ->
  (forall x c, In x (a ++ b) -> lookup f (c :: x) <> None -> In (c :: x) (a ++ b)) ->
  inner_first (a ++ b) ->
  (forall p, lookup g p = if path_mem p a then None else lookup f p) ->
  forall p, lookup (rmdir_pass b g) p = if path_mem p (a ++ b) then None else lookup f p.
Proof.
  intros f b. induction b as [|x b IH]; intros a g HD HC HO HG p.
  - rewrite app_nil_r. apply HG.
  - change (rmdir_pass (x :: b) g) with (rmdir_pass b (if is_empty_directory g x then remove_path g x else g)).
    replace (a ++ x :: b) with ((a ++ [x]) ++ b) in * by (rewrite <- app_assoc; reflexivity).
    apply IH; [exact HD|exact HC|exact HO|]. intro q.
    assert (PM : path_mem q (a ++ [x]) = path_mem q a || path_eqb q x).
    { unfold path_mem. rewrite existsb_app. cbn. rewrite orb_false_r. reflexivity. }
    rewrite PM. clear PM.
    destruct (is_empty_directory g x) eqn:E.
    + rewrite lookup_remove, HG. destruct (path_eqb q x); destruct (path_mem q a); reflexivity.
    + rewrite HG. destruct (path_mem q a) eqn:Ma; [reflexivity|]. cbn [orb]. destruct (path_eqb q x) eqn:Eq; [|reflexivity].
      apply path_eqb_eq in Eq. subst q. destruct (HD x) as [H|H]; [rewrite !in_app_iff; cbn; auto|exact H|].
      exfalso. assert (is_empty_directory g x = true); [|congruence]. apply is_empty_directory_true. rewrite HG, Ma. split; [exact H|]. intro c.
      rewrite HG. destruct (path_mem (c :: x) a) eqn:Mc; [reflexivity|]. destruct (lookup f (c :: x)) eqn:L; [exfalso|reflexivity].
      assert (In (c :: x) ((a ++ [x]) ++ b)) as IN by (apply HC; [rewrite !in_app_iff; cbn; auto|rewrite L; discriminate]).
      assert (NEQ : x <> c :: x) by (intro X; apply (f_equal (@length _)) in X; cbn in X; lia).
      rewrite !in_app_iff in IN. destruct IN as [[IN|[IN|[]]]|IN].
      * apply path_mem_iff in IN. congruence.
      * exact (NEQ IN).
      * apply NEQ. apply (HO a b x (c :: x)); [rewrite <- app_assoc; reflexivity|exact IN|apply under_cons].
Qed.

Definition cov (bs : list path) (p : path) : bool := existsb (fun b => under b p) bs.
Lemma cov_false : forall bs p, (forall b, In b bs -> under b p = false) -> cov bs p = false.
Proof.
  intros bs p H. unfold cov. destruct (existsb _ bs) eqn:E; [|reflexivity]. apply existsb_exists in E. destruct E as (b & I & U). rewrite (H b I) in U. discriminate.
Qed.
Lemma restore_all_spec : forall f0 bs i f, wf_fs f0 ->
  (forall b tr, In (b, tr) bs -> b <> [] /\ lookup f0 b <> None /\ forall r, lookup tr r = lookup f0 (r ++ b)) ->
  ForallOrdPairs incomparable (map fst bs) ->
  (forall p, lookup f p = if cov (map fst bs) p then None else lookup f0 p) ->
  exists f', restore_all f i bs = Some f' /\ same_fs f' f0.
Proof.
  intros f0 bs. induction bs as [|[b tr] bs IH]; intros i f W HB HI HF.
  - exists f. split; [reflexivity|]. intro p. rewrite HF. reflexivity.
  - destruct (HB b tr (or_introl eq_refl)) as (NB & EB & TB). cbn [map fst] in *. inversion HI as [|? ? HI1 HI2]; subst. rewrite Forall_forall in HI1.
    destruct b as [|c par]; [congruence|].
    assert (L : lookup f (c :: par) = None).
    { rewrite HF. unfold cov. cbn [existsb]. rewrite under_refl. reflexivity. }
    assert (P : is_dir f par = true).
    { apply is_dir_true. rewrite HF. rewrite cov_false; [exact (proj2 W c par EB)|]. intros b [<-|Hb].
      - destruct (under (c :: par) par) eqn:X; [|reflexivity]. apply under_len in X. cbn in X. lia.
      - destruct (under b par) eqn:X; [|reflexivity]. destruct (HI1 b Hb) as [_ Y]. rewrite (under_trans _ _ _ X (under_cons c par)) in Y. discriminate. }
    cbn [restore_all]. unfold restore. rewrite L, P. apply IH; [exact W|intros; apply HB; right; assumption|exact HI2|].
    intro p. rewrite lookup_graft. destruct (under (c :: par) p) eqn:U.
    + rewrite TB. apply under_iff in U. destruct U as [r ->]. rewrite rel_to_app.
      rewrite cov_false.
      * destruct (lookup f0 (r ++ c :: par)) eqn:E0; [reflexivity|]. rewrite HF. unfold cov. cbn [existsb]. rewrite under_app. reflexivity.
      * intros b Hb. destruct (under b (r ++ c :: par)) eqn:X; [|reflexivity]. destruct (HI1 b Hb) as [Y1 Y2].
        destruct (under_linear b (c :: par) _ X (under_app r (c :: par))) as [Z|Z]; congruence.
    + rewrite HF. unfold cov. cbn [existsb]. rewrite U. reflexivity.
Qed.

Lemma rollback_inv : forall f0 t order, wf_fs f0 -> inv f0 t -> (forall p, In p order <-> In p (copied t)) -> inner_first order ->
  exists f', rollback order t = Some f' /\ same_fs f' f0.
Proof.
  intros f0 t order W I SO HO. destruct I. unfold rollback.
  apply (restore_all_spec f0); [exact W|exact i_backup0|exact i_apart0|]. intro p.
  set (f1 := unlink_pass order (fsys t)).
  assert (KEY : forall x c, In x (copied t) -> lookup (fsys t) (c :: x) <> None -> In (c :: x) (copied t)).
  { intros x c Hx HL. destruct (in_dec_path (c :: x) (copied t)) as [Y|N]; [exact Y|exfalso]. rewrite (i_old0 _ N) in HL.
    destruct (covered t (c :: x)) eqn:EC; [congruence|]. pose proof (proj2 W c x HL) as D. destruct (i_new0 x Hx) as [Z|Z]; [congruence|].
    apply covered_iff in Z. destruct Z as (b & Ib & Ub).
    assert (covered t (c :: x) = true); [|congruence]. apply covered_iff. exists b. split; [exact Ib|]. exact (under_trans _ _ _ Ub (under_cons c x)). }
  assert (L1 : forall q, lookup f1 q = if path_mem q order && is_file (fsys t) q then None else lookup (fsys t) q) by (intro q; apply lookup_unlink).
  rewrite (rmdir_spec f1 order [] f1).
  - cbn [app]. destruct (path_mem p order) eqn:M.
    + apply path_mem_iff in M. apply SO in M. destruct (i_new0 p M) as [Z|Z].
      * rewrite Z. destruct (cov _ p); reflexivity.
      * change (cov (map fst (backups t)) p) with (covered t p). rewrite Z. reflexivity.
    + assert (N : ~ In p (copied t)) by (intro X; apply SO in X; apply path_mem_iff in X; congruence).
      rewrite L1, M. cbn [andb]. exact (i_old0 p N).
  - cbn [app]. intros x Hx. rewrite L1. apply path_mem_iff in Hx. rewrite Hx. cbn [andb]. unfold is_file. destruct (lookup (fsys t) x) as [[c|]|]; auto.
  - cbn [app]. intros x c Hx HL. apply SO. apply KEY; [apply SO, Hx|]. rewrite L1 in HL. destruct (path_mem _ _ && _); [congruence|exact HL].
  - exact HO.
  - reflexivity.
Qed.

(** ** Copying a tree *)
Definition children_ops (accept : path -> bool) (src target : path) : list (str * tree) -> list tx_op :=
  fix go (l : list (str * tree)) : list tx_op :=
         match l with
         | [] => []
         | (n, c) :: r =>
             (if accept (n :: src) then
                match c with
                | TDir _ => copy_tree_ops false accept (n :: src) (n :: target) c
                | TFile x => [OCopy (Some x) (n :: target)]
                end
              else []) ++ go r
         end.
Lemma copy_tree_dir : forall accept src target cs,
  copy_tree_ops false accept src target (TDir cs) = OMkdir target :: children_ops accept src target cs.
Proof. reflexivity. Qed.

Fixpoint tree_ind' (P : tree -> Prop) (HF : forall c, P (TFile c)) (HD : forall cs, Forall (fun e => P (snd e)) cs -> P (TDir cs)) (t : tree) : P t :=
  match t with
  | TFile c => HF c
  | TDir cs => HD cs ((fix all (l : list (str * tree)) : Forall (fun e => P (snd e)) l :=
      match l with [] => Forall_nil _ | e :: r => Forall_cons e (tree_ind' P HF HD (snd e)) (all r) end) cs)
  end.

Lemma fop_app : forall A (R : A -> A -> Prop) l m, ForallOrdPairs R l -> ForallOrdPairs R m -> (forall x y, In x l -> In y m -> R x y) -> ForallOrdPairs R (l ++ m).
Proof.
  intros A R l m F G H. induction F as [|x l F1 F IH]; [exact G|]. cbn. constructor.
  - apply Forall_app. split; [exact F1|]. apply Forall_forall. intros y I. apply H; [left; reflexivity|exact I].
  - apply IH. intros y z Iy Iz. apply H; [right; exact Iy|exact Iz].
Qed.

Lemma copy_tree_under : forall accept t src target o, In o (copy_tree_ops false accept src target t) -> under target (op_target o) = true /\ tracked o.
Proof.
  intros accept t. induction t as [c|cs IH] using tree_ind'; intros src target o H; [contradiction|]. rewrite copy_tree_dir in H.
  destruct H as [<-|H]; [split; [apply under_refl|exact Logic.I]|]. induction cs as [|[n c] cs IHl]; [contradiction|]. inversion IH as [|? ? IH1 IH2]; subst.
  cbn [children_ops] in H. apply in_app_iff in H. destruct H as [H|H]; [|apply IHl; assumption].
  destruct (accept (n :: src)); [|contradiction]. destruct c as [x|ds].
  - destruct H as [<-|[]]. cbn. split; [apply under_cons|discriminate].
  - destruct (IH1 _ _ _ H) as [U T]. split; [exact (under_trans _ _ _ (under_cons n target) U)|exact T].
Qed.
Lemma children_under : forall accept src target cs o, In o (children_ops accept src target cs) ->
  exists n, In n (map fst cs) /\ under (n :: target) (op_target o) = true.
Proof.
  intros accept src target cs o. induction cs as [|[n c] cs IHl]; [contradiction|]. cbn [children_ops map fst]. intro H. apply in_app_iff in H.
  destruct H as [H|H]; [|destruct (IHl H) as (m & I & U); exists m; split; [right; exact I|exact U]].
  exists n. split; [left; reflexivity|]. destruct (accept (n :: src)); [|contradiction]. destruct c as [x|ds].
  - destruct H as [<-|[]]. apply under_refl.
  - apply copy_tree_under in H. apply H.
Qed.
Lemma siblings_apart : forall n m (p : path) x y, n <> m -> under (n :: p) x = true -> under (m :: p) y = true -> under y x = false.
Proof.
  intros n m p x y N Ux Uy. destruct (under y x) eqn:E; [|reflexivity]. exfalso. pose proof (under_trans _ _ _ Uy E) as H.
  destruct (under_linear _ _ _ H Ux) as [Z|Z]; apply under_iff in Z; destruct Z as [[|? r] Z].
  - injection Z as Z. congruence.
  - apply (f_equal (@length _)) in Z. cbn in Z. rewrite app_length in Z. cbn in Z. lia.
  - injection Z as Z. congruence.
  - apply (f_equal (@length _)) in Z. cbn in Z. rewrite app_length in Z. cbn in Z. lia.
Qed.
Lemma copy_tree_orderly : forall accept t src target, names_differ t -> orderly (copy_tree_ops false accept src target t).
Proof.
  intros accept t src target ND. split; [apply Forall_forall; intros o H; apply copy_tree_under in H; apply H|].
  revert src target ND. induction t as [c|cs IH] using tree_ind'; intros src target ND; [constructor|]. rewrite copy_tree_dir. constructor.
  - apply Forall_forall. intros o H _. apply children_under in H. destruct H as (n & _ & U). cbn. destruct (under (op_target o) target) eqn:E; [|reflexivity].
    pose proof (under_trans _ _ _ U E) as X. apply under_len in X. cbn in X. lia.
  - destruct ND as [NN ND]. induction cs as [|[n c] cs IHl]; [constructor|]. inversion IH as [|? ? IH1 IH2]; subst. cbn [map fst] in NN. inversion NN as [|? ? NN1 NN2]; subst.
    cbn [children_ops]. destruct ND as [ND1 ND2]. apply fop_app.
    + destruct (accept (n :: src)); [|constructor]. destruct c as [x|ds]; [constructor; constructor|]. apply (IH1 (n :: src) (n :: target) ND1).
    + apply (IHl IH2 NN2 ND2).
    + intros x y Hx Hy _. apply children_under in Hy. destruct Hy as (m & Im & Um).
      assert (Ux : under (n :: target) (op_target x) = true).
      { destruct (accept (n :: src)); [|contradiction]. destruct c as [z|ds]; [destruct Hx as [<-|[]]; apply under_refl|apply copy_tree_under in Hx; apply Hx]. }
      apply (siblings_apart n m target); [intros ->; contradiction|exact Ux|exact Um].
Qed.
