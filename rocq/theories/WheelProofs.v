(** Proofs about the installation of wheels. *)
From Coq Require Import String Ascii List Bool NArith Arith Lia.
From Verif Require Import Base BaseFacts ParserModel FsModel FsFacts FilesModel FilesProofs CopyTxModel CopyTxSpec CopyTxProofs VersionModel VersionParse ArtifactModel
  RecordFileModel InstallModel RemovalProofs WheelModel WheelSpec.
Import ListNotations.
Open Scope string_scope.
Open Scope nat_scope.
Open Scope list_scope.
Open Scope bool_scope.

(** ** What a step does to the file system *)
(** files are only written at the paths of [W], and what is neither one of them nor below one stays *)
Record frame (W : path -> Prop) (f f' : fs) : Prop := Frame {
  fr_wf : wf_fs f -> wf_fs f';
  fr_keep : forall q n, lookup f q = Some n -> (forall p, W p -> under p q = false) -> lookup f' q = Some n;
  fr_files : forall q c, lookup f' q = Some (File c) -> lookup f q = Some (File c) \/ W q }.
Lemma frame_refl : forall W f, frame W f f.
Proof. intros W f. constructor; auto. Qed.
Lemma frame_trans : forall W f g k, frame W f g -> frame W g k -> frame W f k.
Proof.
  intros W f g k [A1 A2 A3] [B1 B2 B3]. constructor; auto.
  intros q c H. apply B3 in H. destruct H as [H|H]; [|auto]. apply A3 in H. exact H.
Qed.
Lemma frame_weaken : forall (W V : path -> Prop) f g, (forall p, W p -> V p) -> frame W f g -> frame V f g.
Proof.
  intros W V f g H [A B C]. constructor; auto.
  intros q c X. apply C in X. destruct X; auto.
Qed.
Lemma frame_dir : forall W f c p, lookup f (c :: p) = None -> lookup f p = Some Dir -> frame W f (write f (c :: p) Dir).
Proof.
  intros W f c p N D. constructor.
  - intros [R H]. split.
    + rewrite lookup_write. cbn. exact R.
    + intros x q. rewrite !lookup_write. destruct (path_eqb (x :: q) (c :: p)) eqn:E.
      * intros _. apply path_eqb_eq in E. injection E as -> ->. rewrite D. destruct (path_eqb p (c :: p)); reflexivity.
      * intro X. rewrite (H _ _ X). destruct (path_eqb q (c :: p)); reflexivity.
  - intros q n H _. rewrite lookup_write. destruct (path_eqb q (c :: p)) eqn:E; [apply path_eqb_eq in E; subst; congruence|exact H].
  - intros q s. rewrite lookup_write. destruct (path_eqb q (c :: p)); [discriminate|auto].
Qed.
Lemma frame_file : forall f c p s, lookup f p = Some Dir -> lookup f (c :: p) <> Some Dir -> frame (eq (c :: p)) f (write f (c :: p) (File s)).
Proof.
  intros f c p s D N. constructor.
  - intros [R H]. split.
    + rewrite lookup_write. cbn. exact R.
    + intros x q. rewrite !lookup_write. destruct (path_eqb (x :: q) (c :: p)) eqn:E.
      * intros _. apply path_eqb_eq in E. injection E as -> ->. destruct (path_eqb p (c :: p)) eqn:E; [|exact D].
        apply path_eqb_eq in E. exfalso. assert (L : length p = length (c :: p)) by congruence. cbn in L. lia.
      * intro X. destruct (path_eqb q (c :: p)) eqn:Q; [|apply (H _ _ X)]. apply path_eqb_eq in Q. subst q. exfalso. apply N. apply (H _ _ X).
  - intros q n H U. rewrite lookup_write. destruct (path_eqb q (c :: p)) eqn:E; [|exact H].
    apply path_eqb_eq in E. subst q. specialize (U _ eq_refl). rewrite under_refl in U. discriminate.
  - intros q x. rewrite lookup_write. destruct (path_eqb q (c :: p)) eqn:E; [apply path_eqb_eq in E; auto|auto].
Qed.
Lemma wf_sub : forall f f', lookup f' [] = Some Dir -> (forall p n, lookup f' p = Some n -> lookup f p = Some n) ->
  (forall c p, lookup f (c :: p) <> None -> lookup f' p = None -> lookup f' (c :: p) = None) -> wf_fs f -> wf_fs f'.
Proof.
  intros f f' R S D [_ H]. split; [exact R|]. intros c p X. destruct (lookup f' (c :: p)) as [n|] eqn:E; [|congruence].
  pose proof (S _ _ E) as Y. assert (lookup f (c :: p) <> None) as Z by congruence. specialize (H _ _ Z).
  destruct (lookup f' p) as [m|] eqn:P; [|rewrite (D c p Z P) in E; discriminate]. pose proof (S _ _ P). congruence.
Qed.
Lemma frame_rm : forall f p, p <> [] -> frame (eq p) f (remove_tree f p).
Proof.
  intros f p N. constructor.
  - intro W. pose proof W as [R H]. split.
    + rewrite lookup_remove_tree. destruct (under p []) eqn:U; [|exact R]. apply under_len in U. destruct p; [congruence|cbn in U; lia].
    + intros c q. rewrite !lookup_remove_tree. destruct (under p (c :: q)) eqn:U; [congruence|]. intro X. destruct (under p q) eqn:V; [|apply (H _ _ X)].
      apply (under_trans _ _ (c :: q)) in V; [congruence|apply under_cons].
  - intros q n H U. rewrite lookup_remove_tree, (U p eq_refl). exact H.
  - intros q c. rewrite lookup_remove_tree. destruct (under p q); [discriminate|auto].
Qed.

(** ** The operations of the transaction *)
Definition same_tx (W : path -> Prop) (t t' : tx) : Prop := frame W (fsys t) (fsys t') /\ incl (copied t) (copied t').
Lemma same_trans : forall W a b c, same_tx W a b -> same_tx W b c -> same_tx W a c.
Proof. intros W a b c [A B] [C D]. split; [eapply frame_trans; eauto|eapply incl_tran; eauto]. Qed.
Lemma same_refl : forall W t, same_tx W t t.
Proof. intros. split; [apply frame_refl|apply incl_refl]. Qed.
Lemma same_weaken : forall (W V : path -> Prop) t t', (forall p, W p -> V p) -> same_tx W t t' -> same_tx V t t'.
Proof. intros W V t t' H [A B]. split; [eapply frame_weaken; eauto|exact B]. Qed.
Definition no_path : path -> Prop := fun _ => False.
(** what is in the set afterwards: what was, and new directories above the path *)
Definition adds (p : path) (t t' : tx) : Prop := forall q, In q (copied t') -> In q (copied t) \/ under q p = true /\ lookup (fsys t') q = Some Dir.
Definition adds_file (p : path) (t t' : tx) : Prop := forall q, In q (copied t') -> In q (copied t) \/ q = p \/ under q p = true /\ lookup (fsys t') q = Some Dir.
Lemma syscall_go : forall b t o b' t', syscall b t o = Go b' t' -> o = Some t'.
Proof. intros [|b] t [x|] b' t' H; cbn in H; congruence. Qed.
Lemma and_then_go : forall o k b t, and_then o k = Go b t -> exists b' t', o = Go b' t' /\ k b' t' = Go b t.
Proof. intros [b' t'|t'] k b t H; cbn in H; [eauto|discriminate]. Qed.
Lemma mkdir_new : forall p b t b1 t1, tx_mkdir b t p = Go b1 t1 -> forall q, lookup (fsys t) q = None -> lookup (fsys t1) q <> None -> under q p = true.
Proof.
  induction p as [|c p IH]; intros b t b1 t1 H q N X; cbn [tx_mkdir] in H.
  - destruct (exists_at (fsys t) []); injection H as <- <-; congruence.
  - destruct (exists_at (fsys t) (c :: p)); [injection H as <- <-; congruence|]. apply and_then_go in H. destruct H as (b2 & t2 & A & B).
    apply syscall_go in B. destruct (is_dir (fsys t2) p); [|discriminate]. injection B as <-. cbn [fsys add_copied set_fs] in X. rewrite lookup_write in X.
    destruct (path_eqb q (c :: p)) eqn:E; [apply path_eqb_eq in E; subst; apply under_refl|].
    apply (under_trans _ p); [|apply under_cons]. destruct (exists_at (fsys t) p); [injection A as <- <-; congruence|]. eapply IH; eauto.
Qed.
Lemma mkdir_frame : forall p b t b' t', tx_mkdir b t p = Go b' t' -> same_tx no_path t t' /\ adds p t t'.
Proof.
  induction p as [|c p IH]; intros b t b' t' H; cbn [tx_mkdir] in H.
  - destruct (exists_at (fsys t) []); injection H as <- <-; (split; [apply same_refl|intros q X; left; exact X]).
  - destruct (exists_at (fsys t) (c :: p)) eqn:E; [injection H as <- <-; (split; [apply same_refl|intros q X; left; exact X])|].
    apply and_then_go in H. destruct H as (b1 & t1 & A & B). apply syscall_go in B. destruct (is_dir (fsys t1) p) eqn:D; [|discriminate].
    assert (X : same_tx no_path t t1 /\ adds p t t1).
    { destruct (exists_at (fsys t) p); [injection A as <- <-; split; [apply same_refl|intros q X; left; exact X]|apply IH in A; exact A]. }
    destruct X as [S1 S2]. injection B as <-. split.
    + eapply same_trans; [exact S1|]. split; cbn.
      * apply is_dir_true in D. destruct (lookup (fsys t1) (c :: p)) as [n|] eqn:L; [|apply frame_dir; assumption].
        exfalso. destruct n as [s|].
        -- destruct (fr_files _ _ _ (proj1 S1) _ _ L) as [Y|[]]. apply exists_at_false in E. congruence.
        -- apply exists_at_false in E. destruct (exists_at (fsys t) p) eqn:F.
           ++ injection A as <- <-. congruence.
           ++ apply exists_at_false in F. (* a directory below one that is missing *)
              assert (U : under (c :: p) p = true) by (eapply mkdir_new; [exact A|exact E|congruence]). apply under_len in U. cbn in U. lia.
      * intros x X. apply in_or_app. left. exact X.
    + intros q X. cbn [copied fsys add_copied set_fs] in *. apply in_app_or in X. destruct X as [X|[<-|[]]].
      * destruct (S2 _ X) as [Y|[Y Z]]; [left; exact Y|right]. split; [apply (under_trans _ p); [exact Y|apply under_cons]|].
        rewrite lookup_write. destruct (path_eqb q (c :: p)); [reflexivity|exact Z].
      * right. split; [apply under_refl|]. rewrite lookup_write, path_eqb_refl. reflexivity.
Qed.
Lemma copy_frame : forall b t s p b' t', tx_copy b t (Some s) p None = Go b' t' ->
  same_tx (eq p) t t' /\ adds_file p t t' /\ In p (copied t') /\ lookup (fsys t') p = Some (File s).
Proof.
  intros b t s p b' t' H. unfold tx_copy in H. apply and_then_go in H. destruct H as (b1 & t1 & A & H).
  destruct p as [|c p]; [discriminate|].
  assert (A' : same_tx (eq (c :: p)) t t1 /\ copied t1 = copied t /\ lookup (fsys t1) (c :: p) = None).
  { destruct (exists_at (fsys t) (c :: p)) eqn:E.
    - apply syscall_go in A. rewrite E in A. injection A as <-. split; [|split].
      + split; cbn; [apply frame_rm; discriminate|apply incl_refl].
      + reflexivity.
      + cbn. rewrite lookup_remove_tree, under_refl. reflexivity.
    - injection A as <- <-. split; [apply same_refl|]. split; [reflexivity|]. apply exists_at_false in E. exact E. }
  destruct A' as (S1 & C1 & L1). apply and_then_go in H. destruct H as (b2 & t2 & B & H).
  assert (B' : same_tx no_path t1 t2 /\ adds p t1 t2).
  { destruct (exists_at (fsys t1) p); [injection B as <- <-; split; [apply same_refl|intros q X; left; exact X]|apply mkdir_frame in B; exact B]. }
  destruct B' as (S2 & A2). cbn [do_copy] in H. destruct (is_dir (fsys t2) p) eqn:D; [|discriminate].
  assert (G : syscall b2 t2 (Some (add_copied (set_fs t2 (write (fsys t2) (c :: p) (File s))) (c :: p))) = Go b' t') by (destruct b2; exact H).
  apply syscall_go in G. injection G as <-. cbn [fsys copied add_copied set_fs].
  assert (L2 : lookup (fsys t2) (c :: p) <> Some Dir).
  { intro X. destruct (exists_at (fsys t1) p) eqn:F; [injection B as <- <-; congruence|].
    assert (U : under (c :: p) p = true) by (eapply mkdir_new; [exact B|exact L1|congruence]). apply under_len in U. cbn in U. lia. }
  apply is_dir_true in D. split; [|split; [|split]].
  - eapply same_trans; [exact S1|]. eapply same_trans; [eapply same_weaken; [|exact S2]; intros q []|].
    split; cbn; [apply frame_file; assumption|]. intros x X. apply in_or_app. left. exact X.
  - intros q X. cbn [copied fsys add_copied set_fs] in *. apply in_app_or in X. destruct X as [X|[<-|[]]]; [|right; left; reflexivity].
    destruct (A2 _ X) as [Y|[Y Z]]; [rewrite C1 in Y; left; exact Y|right; right]. split; [apply (under_trans _ p); [exact Y|apply under_cons]|].
    rewrite lookup_write. destruct (path_eqb q (c :: p)) eqn:E; [|exact Z]. exfalso. apply path_eqb_eq in E. subst q. apply under_len in Y. cbn in Y. lia.
  - apply in_or_app. right. left. reflexivity.
  - rewrite lookup_write, path_eqb_refl. reflexivity.
Qed.
Lemma custom_frame : forall b t s p b' t', tx_custom_copy b t s p = Go b' t' ->
  same_tx (eq p) t t' /\ adds_file p t t' /\ In p (copied t') /\ lookup (fsys t') p = Some (File s).
Proof.
  intros b t s p b' t' H. unfold tx_custom_copy in H. destruct p as [|c p]; [discriminate|]. apply and_then_go in H. destruct H as (b1 & t1 & A & H).
  apply syscall_go in A. destruct (is_dir (fsys t) p && negb (is_dir (fsys t) (c :: p))) eqn:E; [|discriminate]. injection A as <-.
  apply andb_true_iff in E. destruct E as [D N]. apply is_dir_true in D. apply negb_true_iff in N.
  unfold tx_touch in H. cbn [negb orb] in H. injection H as <- <-. cbn [fsys copied add_copied set_fs]. split; [|split; [|split]].
  - split; cbn; [|intros x X; apply in_or_app; left; exact X]. apply frame_file; [exact D|]. intro X. apply is_dir_true in X. congruence.
  - intros q X. cbn [copied add_copied set_fs] in X. apply in_app_or in X. destruct X as [X|[<-|[]]]; [left; exact X|right; left; reflexivity].
  - apply in_or_app. right. left. reflexivity.
  - rewrite lookup_write, path_eqb_refl. reflexivity.
Qed.

(** ** The copying *)
Definition writes (a : action) : option (path * str) :=
  match a with Do (OCopy (Some s) p) | Do (OCustom s p) => Some (p, s) | _ => None end.
(** the operations that occur *)
Definition usual (a : action) : Prop :=
  match a with Do (OMkdir _) | Do (OCopy (Some _) _) | Do (OCustom _ _) | Stop _ => True | _ => False end.
Definition written (l : list action) (p : path) : Prop := exists a s, In a l /\ writes a = Some (p, s).
Definition step_action (a : action) (b : nat) (t : tx) : outcome := match a with Do o => tx_step None b t o | Stop _ => Raised t end.
Lemma action_frame : forall a b t b' t', usual a -> step_action a b t = Go b' t' ->
  same_tx (fun p => exists s, writes a = Some (p, s)) t t' /\
  (forall p s, writes a = Some (p, s) -> In p (copied t') /\ lookup (fsys t') p = Some (File s)) /\
  (exists o, a = Do o) /\
  (forall q, In q (copied t') -> In q (copied t) \/ (exists s, writes a = Some (q, s)) \/ lookup (fsys t') q = Some Dir).
Proof.
  intros [o|e] b t b' t' U H; [|discriminate]. destruct o as [p|[s|] p|p|p ft|s p]; try destruct U; cbn [step_action tx_step] in H.
  - apply mkdir_frame in H. destruct H as [A B]. split; [eapply same_weaken; [|exact A]; intros q []|]. split; [intros q s X; discriminate|]. split; [eauto|]. intros q Q. destruct (B q Q) as [X|[_ X]]; auto.
  - apply copy_frame in H. destruct H as (A & B & C & D). split; [eapply same_weaken; [|exact A]; intros q <-; exists s; reflexivity|].
    split; [intros q x X; injection X as <- <-; auto|]. split; [eauto|]. intros q Q. destruct (B q Q) as [X|[->|[_ X]]]; [auto| |auto]. right. left. exists s. reflexivity.
  - apply custom_frame in H. destruct H as (A & B & C & D). split; [eapply same_weaken; [|exact A]; intros q <-; exists s; reflexivity|].
    split; [intros q x X; injection X as <- <-; auto|]. split; [eauto|]. intros q Q. destruct (B q Q) as [X|[->|[_ X]]]; [auto| |auto]. right. left. exists s. reflexivity.
Qed.
Lemma run_fold : forall l o b' t', fold_left (fun o a => and_then o (step_action a)) l o = Go b' t' -> exists b t, o = Go b t.
Proof.
  induction l as [|a l IH]; intros o b' t' H; [eauto|]. cbn in H. apply IH in H. destruct H as (b & t & H). apply and_then_go in H.
  destruct H as (b1 & t1 & H & _). eauto.
Qed.
Lemma run_unfold : forall b t l, run_actions b t l = fold_left (fun o a => and_then o (step_action a)) l (Go b t).
Proof. reflexivity. Qed.
Lemma run_cons : forall b t a l b' t', run_actions b t (a :: l) = Go b' t' -> exists b1 t1, step_action a b t = Go b1 t1 /\ run_actions b1 t1 l = Go b' t'.
Proof.
  intros b t a l b' t' H. rewrite run_unfold in H. cbn [fold_left and_then] in H. pose proof H as X. apply run_fold in X. destruct X as (b1 & t1 & X). rewrite X in H.
  exists b1, t1. split; [exact X|exact H].
Qed.
Lemma run_frame : forall l b t b' t', Forall usual l -> run_actions b t l = Go b' t' ->
  same_tx (written l) t t' /\ (forall p, written l p -> In p (copied t')) /\
  (forall q s, In q (copied t') -> lookup (fsys t') q = Some (File s) -> In q (copied t) \/ written l q).
Proof.
  induction l as [|a l IH]; intros b t b' t' U H.
  - injection H as <- <-. split; [apply same_refl|]. split; [intros p (a & s & [] & _)|auto].
  - apply run_cons in H. destruct H as (b1 & t1 & A & H). inversion U as [|x y U1 U2]; subst.
    apply action_frame in A; [|exact U1]. destruct A as (A1 & A2 & (o & ->) & A3). apply IH in H; [|exact U2]. destruct H as (H1 & H2 & H3). split; [|split].
    + eapply same_trans; [eapply same_weaken; [|exact A1]|eapply same_weaken; [|exact H1]].
      * intros p (s & X). exists (Do o), s. split; [left; reflexivity|exact X].
      * intros p (x & s & X & Y). exists x, s. split; [right; exact X|exact Y].
    + intros p (x & s & [<-|X] & Y).
      * apply (proj2 H1). apply (A2 _ _ Y).
      * apply H2. exists x, s. auto.
    + intros q s X L. assert (V : forall p, written l p -> written (Do o :: l) p) by (intros p (x & y & Y & Z); exists x, y; split; [right; exact Y|exact Z]).
      destruct (H3 q s X L) as [Y|Y]; [|right; exact (V q Y)]. destruct (A3 q Y) as [Z|[(x & Z)|Z]]; [left; exact Z|right; exists (Do o), x; split; [left; reflexivity|exact Z]|right].
      destruct (fr_files _ _ _ (proj1 H1) q s L) as [T|T]; [congruence|exact (V q T)].
Qed.
(** a file that nothing else is written over *)
Lemma run_placed : forall l b t b' t' p s, Forall usual l -> run_actions b t l = Go b' t' ->
  (forall a q x, In a l -> writes a = Some (q, x) -> under q p = true -> q = p /\ x = s) ->
  lookup (fsys t) p = Some (File s) \/ (exists a, In a l /\ writes a = Some (p, s)) -> lookup (fsys t') p = Some (File s).
Proof.
  induction l as [|a l IH]; intros b t b' t' p s U H N X.
  - injection H as <- <-. destruct X as [X|(a & [] & _)]. exact X.
  - apply run_cons in H. destruct H as (b1 & t1 & A & H). inversion U as [|x y U1 U2]; subst.
    apply action_frame in A; [|exact U1]. destruct A as (A1 & A2 & _ & _).
    eapply IH; [exact U2|exact H|intros; eapply N; eauto; right; assumption|].
    destruct X as [X|(x & [<-|X] & Y)].
    + left. destruct (writes a) as [[q x]|] eqn:E.
      * destruct (under q p) eqn:Q.
        -- destruct (N a q x (or_introl eq_refl) E Q) as [-> ->]. apply (A2 _ _ eq_refl).
        -- apply (fr_keep _ _ _ (proj1 A1)); [exact X|]. intros r (y & Z). injection Z as <- <-. exact Q.
      * apply (fr_keep _ _ _ (proj1 A1)); [exact X|]. intros r (y & Z). discriminate.
    + left. apply (A2 _ _ Y).
    + right. eauto.
Qed.
Lemma run_no_stop : forall l b t b' t' e, run_actions b t l = Go b' t' -> ~ In (Stop e) l.
Proof.
  induction l as [|a l IH]; intros b t b' t' e H X; [destruct X|]. apply run_cons in H. destruct H as (b1 & t1 & A & H).
  destruct X as [->|X]; [discriminate|]. eapply IH; eauto.
Qed.

(** ** The operations for a wheel *)
Lemma ops_in : forall custom accept src dst cs o, In o (copy_tree_ops custom accept src dst (TDir cs)) <->
  o = OMkdir dst \/ exists n c, In (n, c) cs /\ accept (n :: src) = true /\
    match c with
    | TDir _ => In o (copy_tree_ops false accept (n :: src) (n :: dst) c)
    | TFile x => o = if custom then OCustom x (n :: dst) else OCopy (Some x) (n :: dst)
    end.
Proof.
  intros custom accept src dst cs o. cbn [copy_tree_ops In]. split; intros [H|H]; [left; auto|right|left; auto|right].
  - induction cs as [|[n c] cs IH]; [destruct H|]. apply in_app_iff in H. destruct H as [H|H].
    + exists n, c. split; [left; reflexivity|]. destruct (accept (n :: src)) eqn:A; [|destruct H]. split; [reflexivity|].
      destruct c as [x|ds]; [|exact H]. destruct custom; destruct H as [H|[]]; auto.
    + destruct (IH H) as (m & d & I & X). exists m, d. split; [right; exact I|exact X].
  - induction cs as [|[n c] cs IH]; destruct H as (m & d & I & A & X); [destruct I|]. apply in_app_iff. destruct I as [I|I].
    + left. injection I as -> ->. rewrite A. destruct d as [x|ds]; [|exact X]. destruct custom; left; auto.
    + right. apply IH. exists m, d. auto.
Qed.
Lemma ops_sound : forall t custom accept src dst o, In o (copy_tree_ops custom accept src dst t) ->
  under dst (op_target o) = true /\ usual (Do o) /\
  forall p s, writes (Do o) = Some (p, s) -> exists r, r <> [] /\ has_file t r s /\ p = rev r ++ dst /\
    forall a b, r = a ++ b -> a <> [] -> accept (rev a ++ src) = true.
Proof.
  induction t as [c|cs IH] using tree_ind'; intros custom accept src dst o H; [destruct H|]. apply ops_in in H.
  destruct H as [->|(n & c & I & A & H)]; [split; [apply under_refl|split; [exact Logic.I|discriminate]]|].
  rewrite Forall_forall in IH. specialize (IH _ I). cbn [snd] in IH. destruct c as [x|ds].
  - subst o. split; [destruct custom; apply under_cons|]. split; [destruct custom; exact Logic.I|].
    intros p s W. assert (p = n :: dst /\ s = x) as [-> ->] by (destruct custom; injection W as <- <-; auto).
    exists [n]. split; [discriminate|]. split; [econstructor; [exact I|constructor]|]. split; [reflexivity|].
    intros [|a1 [|a2 a3]] b E NE; [congruence|injection E as <- _; exact A|discriminate].
  - destruct (IH _ _ _ _ _ H) as (U & V & W). split; [eapply under_trans; [apply under_cons|exact U]|]. split; [exact V|].
    intros p s X. destruct (W p s X) as (r & N & F & -> & P). exists (n :: r). split; [discriminate|]. split; [econstructor; [exact I|exact F]|].
    split; [cbn [rev]; rewrite <- app_assoc; reflexivity|]. intros [|a1 a] b E NE; [congruence|]. injection E as <- E. cbn [rev]. rewrite <- app_assoc. cbn [app].
    destruct a as [|a2 a]; [exact A|]. apply (P (a2 :: a) b E). discriminate.
Qed.
Lemma ops_complete : forall t custom accept src dst r s, has_file t r s -> r <> [] ->
  (forall a b, r = a ++ b -> a <> [] -> accept (rev a ++ src) = true) ->
  exists o, In o (copy_tree_ops custom accept src dst t) /\ writes (Do o) = Some (rev r ++ dst, s).
Proof.
  induction t as [c|cs IH] using tree_ind'; intros custom accept src dst r s H N A; [inversion H; subst; congruence|].
  inversion H as [|n cs' c r' s' I F]; subst. rewrite Forall_forall in IH. specialize (IH _ I). cbn [snd] in IH.
  assert (A0 : accept (n :: src) = true) by (apply (A [n] r'); [reflexivity|discriminate]).
  destruct c as [x|ds].
  - inversion F; subst. exists (if custom then OCustom s (n :: dst) else OCopy (Some s) (n :: dst)). split.
    + apply ops_in. right. exists n, (TFile s). auto.
    + destruct custom; reflexivity.
  - destruct (IH false accept (n :: src) (n :: dst) r' s F) as (o & O & W).
    + inversion F; discriminate.
    + intros a b E NE. specialize (A (n :: a) b). cbn [app rev] in A. rewrite <- app_assoc in A. apply A; [rewrite E; reflexivity|discriminate].
    + exists o. split; [apply ops_in; right; exists n, (TDir ds); auto|]. rewrite W. cbn [rev]. rewrite <- app_assoc. reflexivity.
Qed.
Lemma get_place_iff : forall tg key p, get_place tg key = Ok p <-> In (key, p) (parts tg).
Proof.
  intros tg key p. unfold get_place, parts. split.
  - repeat (match goal with |- context [str_eqb key ?x] => destruct (str_eqb key x) eqn:? end;
            [match goal with E : str_eqb key _ = true |- _ => apply str_eqb_eq in E; subst end; intro X; injection X as <-; cbn; tauto|]).
    match goal with |- context [existsb ?g ?l] => destruct (existsb g l) end; discriminate.
  - cbn [In]. intros [X|[X|[X|[X|[X|[X|[X|[X|[]]]]]]]]]; injection X as <- <-; reflexivity.
Qed.
(** the text that is written for a script *)
Definition shown (tg : target) (data : str) (r : list str) (s : str) : str :=
  match r with
  | [a; b; _] => if str_eqb a data && str_eqb b "scripts" then patch_script (t_interpreter tg) s else s
  | _ => s
  end.
Lemma patched_file : forall i cs r s, has_file (TDir (patch_top i cs)) r s ->
  exists x, has_file (TDir cs) r x /\ s = match r with [_] => patch_script i x | _ => x end.
Proof.
  intros i cs r s H. inversion H as [|n cs' c r' s' I F]; subst. unfold patch_top in I. apply in_map_iff in I. destruct I as ([m d] & E & I).
  destruct d as [x|ds]; cbn [fst snd] in E; injection E as <- <-.
  - inversion F; subst. exists x. split; [econstructor; [exact I|constructor]|reflexivity].
  - exists s. split; [econstructor; eauto|]. inversion F; subst. reflexivity.
Qed.
Lemma file_patched : forall i cs r x, has_file (TDir cs) r x -> has_file (TDir (patch_top i cs)) r (match r with [_] => patch_script i x | _ => x end).
Proof.
  intros i cs r x H. inversion H as [|n cs' c r' s' I F]; subst. destruct c as [y|ds].
  - inversion F; subst. econstructor; [|constructor]. apply in_map_iff. exists (n, TFile x). auto.
  - inversion F; subst. econstructor; [|exact F]. apply in_map_iff. exists (n, TDir ds). auto.
Qed.
Section Actions.
  Variables (tg : target) (site : path) (info : str) (c : content).
  Notation data := (data_name info).
  Lemma data_sound : forall key t a, In a (data_actions tg (key, t)) -> usual a /\
    (forall p s, writes a = Some (p, s) -> exists r x, has_file t r x /\ belongs tg site data (data :: key :: r) p /\ s = shown tg data (data :: key :: r) x) /\
    (forall o, a = Do o -> exists dir, In (key, dir) (parts tg) /\ under dir (op_target o) = true).
  Proof.
    intros key t a H. unfold data_actions in H. cbn [fst snd] in H. destruct (get_place tg key) as [dir|e] eqn:G.
    2:{ destruct H as [<-|[]]. split; [exact I|]. split; [discriminate|intros o X; discriminate]. }
    apply get_place_iff in G.
    assert (K : exists custom t', a = Stop IOErr \/ (exists cs, t' = TDir cs /\ exists o, a = Do o /\ In o (copy_tree_ops custom (fun _ => true) [] dir t') /\
       forall r s, has_file t' r s -> exists x, has_file t r x /\ s = shown tg data (data :: key :: r) x) \/ a = Do (OMkdir dir)).
    { unfold tree_actions in H. destruct (str_eqb key "scripts") eqn:E.
      - destruct t as [x|cs]; [destruct H as [H|[H|[]]]; exists true, (TFile x); auto|].
        exists true, (TDir (patch_top (t_interpreter tg) cs)). right. left. exists (patch_top (t_interpreter tg) cs). split; [reflexivity|].
        apply in_map_iff in H. destruct H as (o & <- & H). exists o. split; [reflexivity|]. split; [exact H|]. intros r s F.
        apply patched_file in F. destruct F as (x & F & ->). exists x. split; [exact F|]. destruct r as [|r1 [|r2 r3]]; [inversion F|cbn [shown]|reflexivity].
        rewrite str_eqb_refl, E. reflexivity.
      - destruct t as [x|cs]; [destruct H as [H|[H|[]]]; exists false, (TFile x); auto|].
        exists false, (TDir cs). right. left. exists cs. split; [reflexivity|]. apply in_map_iff in H. destruct H as (o & <- & H). exists o. split; [reflexivity|].
        split; [exact H|]. intros r s F. exists s. split; [exact F|]. destruct r as [|r1 [|r2 r3]]; cbn [shown]; [reflexivity|rewrite E, andb_false_r; reflexivity|reflexivity]. }
    destruct K as (custom & t' & [->|[(cs & -> & o & -> & H' & T)| ->]]).
    - split; [exact I|]. split; [discriminate|intros o X; discriminate].
    - apply ops_sound in H'. destruct H' as (U & V & W). split; [exact V|]. split.
      + intros p s X. destruct (W p s X) as (r & N & F & -> & _). destruct (T r s F) as (x & Fx & ->). exists r, x. split; [exact Fx|]. split; [|reflexivity].
        apply in_part; assumption.
      + intros o' X. injection X as <-. exists dir. auto.
    - split; [exact I|]. split; [discriminate|]. intros o' X. injection X as <-. exists dir. split; [exact G|apply under_refl].
  Qed.
  Lemma data_complete : forall key t dir r s, has_file t r s -> r <> [] -> In (key, dir) (parts tg) ->
    exists a, In a (data_actions tg (key, t)) /\ writes a = Some (rev r ++ dir, shown tg data (data :: key :: r) s).
  Proof.
    intros key t dir r s F N G. unfold data_actions. cbn [fst snd]. apply get_place_iff in G. rewrite G.
    destruct t as [x|cs]; [inversion F; congruence|]. destruct (str_eqb key "scripts") eqn:E; unfold tree_actions.
    - apply (file_patched (t_interpreter tg)) in F. destruct (ops_complete _ true (fun _ => true) [] dir r _ F N) as (o & O & W); [reflexivity|].
      exists (Do o). split; [apply in_map; exact O|]. rewrite W. f_equal. f_equal. destruct r as [|r1 [|r2 r3]]; [congruence|cbn [shown]|reflexivity].
      rewrite str_eqb_refl, E. reflexivity.
    - destruct (ops_complete _ false (fun _ => true) [] dir r _ F N) as (o & O & W); [reflexivity|].
      exists (Do o). split; [apply in_map; exact O|]. rewrite W. f_equal. f_equal. destruct r as [|r1 [|r2 r3]]; cbn [shown]; [reflexivity|rewrite E, andb_false_r; reflexivity|reflexivity].
  Qed.
  Lemma copy_sound : forall a, In a (copy_actions tg site info c) -> usual a /\
    (forall p s, writes a = Some (p, s) -> exists r x, has_file (TDir c) r x /\ belongs tg site data r p /\ s = shown tg data r x /\ (info <> data -> ~ (exists q, r = info :: lit "RECORD" :: q))) /\
    (forall o, a = Do o -> (exists n, In n (map fst c) /\ under (n :: site) (op_target o) = true) \/
       exists key dir, In (key, dir) (parts tg) /\ under dir (op_target o) = true).
  Proof.
    intros a H. unfold copy_actions in H. apply in_flat_map in H. destruct H as ([n t] & I & H). cbn [fst snd] in H. destruct t as [x|cs].
    - destruct H as [<-|[]]. split; [exact Logic.I|]. split.
      + intros p s X. injection X as <- <-. exists [n], x. split; [econstructor; [exact I|constructor]|]. split; [apply (in_site tg site data n []); right; reflexivity|]. split; [reflexivity|]. intros _ (q & Q). discriminate.
      + intros o X. injection X as <-. left. exists n. split; [change n with (fst (n, TFile x)); apply in_map; exact I|apply under_refl].
    - destruct (str_eqb n data) eqn:E.
      + apply str_eqb_eq in E. subst n. apply in_flat_map in H. destruct H as ([key t] & J & H). apply data_sound in H. destruct H as (A & B & C). split; [exact A|]. split.
        * intros p s X. destruct (B p s X) as (r & y & F & G & ->). exists (data :: key :: r), y. split; [econstructor; [exact I|econstructor; [exact J|exact F]]|]. split; [exact G|]. split; [reflexivity|]. intros NE (q & Q). injection Q as Q _ _. congruence.
        * intros o X. right. exists key. exact (C o X).
      + unfold tree_actions in H. apply in_map_iff in H. destruct H as (o & <- & H). apply ops_sound in H. destruct H as (U & V & W). split; [exact V|]. split.
        * intros p s X. destruct (W p s X) as (r & N & F & -> & P). exists (n :: r), s. split; [econstructor; [exact I|exact F]|]. split; [|split].
          -- replace (rev r ++ n :: site) with (rev (n :: r) ++ site) by (cbn [rev]; rewrite <- app_assoc; reflexivity). apply in_site. left. intros ->. rewrite str_eqb_refl in E. discriminate.
          -- destruct r as [|r1 [|r2 [|r3 r4]]]; cbn [shown]; try reflexivity. rewrite E. reflexivity.
          -- intros _ (q & Q). injection Q as -> ->. specialize (P [lit "RECORD"] q eq_refl). cbn [rev app] in P. rewrite path_eqb_refl in P. assert (T : negb true = true) by (apply P; discriminate). discriminate T.
        * intros o' X. injection X as <-. left. exists n. split; [change n with (fst (n, TDir cs)); apply in_map; exact I|exact U].
  Qed.
  Lemma copy_complete : forall r s, has_file (TDir c) r s -> ~ (exists q, r = info :: lit "RECORD" :: q) ->
    (exists e, In (Stop e) (copy_actions tg site info c)) \/
    (exists a p, In a (copy_actions tg site info c) /\ belongs tg site data r p /\ writes a = Some (p, shown tg data r s)).
  Proof.
    intros r s H N. inversion H as [|n cs t r' s' I F]; subst. unfold copy_actions. destruct t as [x|cs].
    - inversion F; subst. right. exists (Do (OCopy (Some s) (n :: site))), (n :: site). split; [apply in_flat_map; exists (n, TFile s); split; [exact I|left; reflexivity]|].
      split; [apply (in_site tg site data n []); right; reflexivity|reflexivity].
    - destruct (str_eqb n data) eqn:E.
      + apply str_eqb_eq in E. subst n. inversion F as [|key cs' t r2 s2 J F2]; subst. destruct (get_place tg key) as [dir|e] eqn:G.
        * destruct r2 as [|r3 r4].
          -- left. inversion F2; subst. exists IOErr. apply in_flat_map. exists (data, TDir cs). split; [exact I|]. cbn [fst snd]. rewrite str_eqb_refl. apply in_flat_map.
             exists (key, TFile s). split; [exact J|]. unfold data_actions. cbn [fst snd]. rewrite G. destruct (str_eqb key "scripts"); right; left; reflexivity.
          -- right. apply get_place_iff in G. destruct (data_complete key t dir (r3 :: r4) s F2) as (a & A & W); [discriminate|exact G|].
             exists a, (rev (r3 :: r4) ++ dir). split; [|split; [apply in_part; [discriminate|exact G]|exact W]].
             apply in_flat_map. exists (data, TDir cs). split; [exact I|]. cbn [fst snd]. rewrite str_eqb_refl. apply in_flat_map. exists (key, t). auto.
        * left. exists e. apply in_flat_map. exists (data, TDir cs). split; [exact I|]. cbn [fst snd]. rewrite str_eqb_refl. apply in_flat_map.
          exists (key, t). split; [exact J|]. unfold data_actions. cbn [fst snd]. rewrite G. left. reflexivity.
      + right. destruct (ops_complete (TDir cs) false (fun p => negb (path_eqb p [lit "RECORD"; info])) [n] (n :: site) r' s F) as (o & O & W).
        * inversion F; discriminate.
        * intros a b -> NA. apply negb_true_iff. apply path_eqb_neq. intro X. apply N. assert (Y : rev (rev a ++ [n]) = rev [lit "RECORD"; info]) by (rewrite X; reflexivity).
          rewrite rev_app_distr, rev_involutive in Y. cbn [rev app] in Y. injection Y as -> ->. exists b. reflexivity.
        * exists (Do o), (rev r' ++ n :: site). split; [|split].
          -- apply in_flat_map. exists (n, TDir cs). split; [exact I|]. cbn [fst snd]. rewrite E. unfold tree_actions. apply in_map. exact O.
          -- replace (rev r' ++ n :: site) with (rev (n :: r') ++ site) by (cbn [rev]; rewrite <- app_assoc; reflexivity). apply in_site. left. intros ->. rewrite str_eqb_refl in E. discriminate.
          -- rewrite W. f_equal. f_equal. destruct r' as [|r1 [|r2 [|r3 r4]]]; cbn [shown]; try reflexivity. rewrite E. reflexivity.
  Qed.
  Lemma copy_usual : Forall usual (copy_actions tg site info c).
  Proof. apply Forall_forall. intros a H. apply copy_sound in H. apply H. Qed.
End Actions.

(** ** Removing empty directories keeps the files *)
Lemma prune_children : forall cs, exists cs', prune (TDir cs) = TDir cs' /\
  forall n c', In (n, c') cs' <-> exists c, In (n, c) cs /\ c <> TDir [] /\ c' = prune c.
Proof.
  induction cs as [|[n c] cs (cs' & E & H)]; [exists []; split; [reflexivity|]; intros n c; split; [intros []|intros (x & [] & _)]|].
  cbn [prune] in E. injection E as E. destruct c as [s|[|d ds]].
  - exists ((n, prune (TFile s)) :: cs'). split; [cbn [prune]; rewrite E; reflexivity|]. intros m x. cbn [In]. rewrite H. split.
    + intros [X|(y & X & Y)]; [injection X as <- <-; exists (TFile s); split; [left; reflexivity|]; split; [discriminate|reflexivity]|exists y; tauto].
    + intros (y & [X|X] & Y & ->); [injection X as <- <-; left; reflexivity|right; exists y; auto].
  - exists cs'. split; [cbn [prune]; rewrite E; reflexivity|]. intros m x. cbn [In]. rewrite H. split.
    + intros (y & X & Y). exists y. tauto.
    + intros (y & [X|X] & Y & ->); [injection X as <- <-; congruence|exists y; auto].
  - exists ((n, prune (TDir (d :: ds))) :: cs'). split.
    + change (TDir ((n, prune (TDir (d :: ds))) :: (fix go (l : list (str * tree)) : list (str * tree) :=
        match l with [] => [] | (n, TDir []) :: r => go r | (n, c) :: r => (n, prune c) :: go r end) cs) = TDir ((n, prune (TDir (d :: ds))) :: cs')). rewrite E. reflexivity.
    + intros m x. cbn [In]. rewrite H. split.
      * intros [X|(y & X & Y)]; [injection X as <- <-; exists (TDir (d :: ds)); split; [left; reflexivity|]; split; [discriminate|reflexivity]|exists y; tauto].
      * intros (y & [X|X] & Y & ->); [injection X as <- <-; left; reflexivity|right; exists y; auto].
Qed.
Lemma prune_files : forall t r s, has_file (prune t) r s <-> has_file t r s.
Proof.
  induction t as [x|cs IH] using tree_ind'; intros r s; [reflexivity|]. rewrite Forall_forall in IH. destruct (prune_children cs) as (cs' & E & H). rewrite E. split.
  - intro F. inversion F as [|n l c r' s' I G]; subst. apply H in I. destruct I as (d & I & _ & ->). econstructor; [exact I|]. apply (IH _ I). exact G.
  - intro F. inversion F as [|n l c r' s' I G]; subst. econstructor; [|apply (IH _ I); exact G]. apply H. exists c. split; [exact I|]. split; [|reflexivity].
    intros ->. inversion G as [|? ? ? ? ? X]; subst. destruct X.
Qed.
Lemma prune_content_files : forall c r s, has_file (TDir (prune_content c)) r s <-> has_file (TDir c) r s.
Proof.
  intros c r s. unfold prune_content. destruct (prune_children c) as (cs' & E & _). rewrite E. rewrite <- (prune_files (TDir c)), E. reflexivity.
Qed.
Lemma has_file_fun : forall t r s s', names_differ t -> has_file t r s -> has_file t r s' -> s = s'.
Proof.
  induction t as [x|cs IH] using tree_ind'; intros r s s' N F G; [inversion F; inversion G; congruence|].
  inversion F as [|n l c r' y I F1]; subst. inversion G as [|n' l' c' r'' y' J G1]; subst. cbn [names_differ] in N. destruct N as [N1 N2].
  assert (c = c').
  { clear - N1 I J. induction cs as [|[m d] cs IHl]; [destruct I|]. cbn [map fst] in N1. inversion N1 as [|? ? A B]; subst.
    destruct I as [I|I], J as [J|J].
    - congruence.
    - injection I as -> ->. exfalso. apply A. change n with (fst (n, c')). apply in_map. exact J.
    - injection J as -> ->. exfalso. apply A. change n with (fst (n, c)). apply in_map. exact I.
    - apply IHl; assumption. }
  subst c'. rewrite Forall_forall in IH. eapply (IH _ I); [|exact F1|exact G1]. cbn [snd]. clear - N2 I. induction cs as [|[m d] cs IHl]; [destruct I|].
  destruct N2 as [A B]. destruct I as [I|I]; [injection I as -> ->; exact A|apply IHl; assumption].
Qed.

(** ** The steps behind the copying *)
Lemma make_dirs_spec : forall p f f', make_dirs f p = Some f' -> frame no_path f f' /\ lookup f' p = Some Dir /\
  (forall q, lookup f q = None -> lookup f' q <> None -> under q p = true).
Proof.
  induction p as [|c p IH]; intros f f' H; cbn [make_dirs] in H.
  - destruct (lookup f []) as [[s|]|] eqn:L; [discriminate|injection H as <-; split; [apply frame_refl|split; [exact L|congruence]]|discriminate].
  - destruct (lookup f (c :: p)) as [[s|]|] eqn:L; [discriminate|injection H as <-; split; [apply frame_refl|split; [exact L|congruence]]|].
    destruct (make_dirs f p) as [g|] eqn:M; [|discriminate]. injection H as <-. destruct (IH _ _ M) as (A & B & C).
    assert (N : lookup g (c :: p) = None).
    { destruct (lookup g (c :: p)) eqn:G; [|reflexivity]. exfalso. assert (U : under (c :: p) p = true) by (apply C; [exact L|congruence]).
      apply under_len in U. cbn in U. lia. }
    split; [eapply frame_trans; [exact A|apply frame_dir; assumption]|]. split; [rewrite lookup_write, path_eqb_refl; reflexivity|].
    intros q Q X. rewrite lookup_write in X. destruct (path_eqb q (c :: p)) eqn:E; [apply path_eqb_eq in E; subst; apply under_refl|].
    apply (under_trans _ p); [apply C; assumption|apply under_cons].
Qed.
Lemma write_text_spec : forall f p s f', write_text f p s = Some f' -> frame (eq p) f f' /\ f' = write f p (File s).
Proof.
  intros f [|c p] s f' H; [discriminate|]. cbn [write_text] in H. destruct (is_dir f p && negb (is_dir f (c :: p))) eqn:E; [|discriminate].
  injection H as <-. apply andb_true_iff in E. destruct E as [D N]. apply is_dir_true in D. apply negb_true_iff in N. split; [|reflexivity].
  apply frame_file; [exact D|]. intro X. apply is_dir_true in X. congruence.
Qed.
Definition launched (tg : target) (l : list entry) (p : path) : Prop :=
  exists e, In e l /\ is_script e = true /\ p = resolve_record (t_scripts tg) (e_name e).
Lemma launcher_frame : forall tg e b t b' t', launcher_step tg e b t = Go b' t' ->
  same_tx (launched tg [e]) t t' /\ (forall p, launched tg [e] p -> In p (copied t')) /\ (forall q, In q (copied t') -> In q (copied t) \/ launched tg [e] q) /\
  (is_script e = true -> exists body, snippet (e_ref e) = Ok body /\
     lookup (fsys t') (resolve_record (t_scripts tg) (e_name e)) = Some (File (launcher (t_interpreter tg) body))).
Proof.
  intros tg e b t b' t' H. unfold launcher_step in H. destruct (is_script e) eqn:S.
  2:{ injection H as <- <-. split; [apply same_refl|]. split; [intros p (x & [<-|[]] & X & _); congruence|]. split; [auto|discriminate]. }
  destruct (snippet (e_ref e)) as [body|] eqn:B; [|discriminate]. apply and_then_go in H. destruct H as (b1 & t1 & A & H). apply syscall_go in A.
  apply and_then_go in H. destruct H as (b2 & t2 & C & H). apply syscall_go in C. unfold on_disk in A, C.
  destruct (make_dirs (fsys t) (t_scripts tg)) as [f1|] eqn:M; [|discriminate]. injection A as <-.
  destruct (write_text _ _ _) as [f2|] eqn:W in C; [|discriminate]. injection C as <-. unfold tx_touch in H. cbn [negb orb] in H. injection H as <- <-.
  apply make_dirs_spec in M. destruct M as (M & _). apply write_text_spec in W. destruct W as (W & ->). cbn [fsys set_fs add_copied copied] in *.
  set (p := resolve_record (t_scripts tg) (e_name e)) in *. assert (L : forall q, launched tg [e] q <-> q = p).
  { intro q. split; [intros (x & [<-|[]] & _ & X); exact X|]. intros ->. exists e. split; [left; reflexivity|]. auto. }
  split; [split|split; [|split]].
  - eapply frame_trans; [eapply frame_weaken; [|exact M]; intros q []|eapply frame_weaken; [|exact W]; intros q <-; apply L; reflexivity].
  - intros q X. apply in_or_app. left. exact X.
  - intros q X. apply L in X. subst q. apply in_or_app. right. left. reflexivity.
  - intros q X. apply in_app_or in X. destruct X as [X|[<-|[]]]; [left; exact X|right; apply L; reflexivity].
  - intros _. exists body. split; [reflexivity|]. rewrite lookup_write, path_eqb_refl. reflexivity.
Qed.
Lemma launchers_frame : forall tg l b t b' t', launcher_steps tg l b t = Go b' t' ->
  same_tx (launched tg l) t t' /\ (forall p, launched tg l p -> In p (copied t')) /\ (forall q, In q (copied t') -> In q (copied t) \/ launched tg l q).
Proof.
  intros tg l. induction l as [|e l IH]; intros b t b' t' H.
  - injection H as <- <-. split; [apply same_refl|]. split; [intros p (x & [] & _)|auto].
  - unfold launcher_steps in H. cbn [fold_left] in H.
    assert (X : exists b1 t1, launcher_step tg e b t = Go b1 t1).
    { clear - H. cbn [and_then] in H. revert H. generalize (launcher_step tg e b t). induction l as [|x l IH]; intros o H; [cbn in H; eauto|]. cbn [fold_left] in H. apply IH in H.
      destruct H as (b1 & t1 & H). apply and_then_go in H. destruct H as (b2 & t2 & H & _). eauto. }
    destruct X as (b1 & t1 & X). cbn [and_then] in H. rewrite X in H. apply launcher_frame in X. destruct X as (A1 & A2 & A3 & _). destruct (IH b1 t1 b' t' H) as (B1 & B2 & B3).
    assert (I1 : forall p, launched tg [e] p -> launched tg (e :: l) p) by (intros p (x & [<-|[]] & Y); exists e; split; [left; reflexivity|exact Y]).
    assert (I2 : forall p, launched tg l p -> launched tg (e :: l) p) by (intros p (x & I & Y); exists x; split; [right; exact I|exact Y]).
    split; [exact (same_trans _ _ _ _ (same_weaken _ _ _ _ I1 A1) (same_weaken _ _ _ _ I2 B1))|]. split.
    + intros p (x & [<-|I] & Y); [apply (proj2 B1), A2; exists e; split; [left; reflexivity|exact Y]|apply B2; exists x; auto].
    + intros q Q. apply B3 in Q. destruct Q as [Q|Q]; [|auto]. apply A3 in Q. destruct Q; auto.
Qed.
Section Steps.
  Variable h : hashlib.
  Variable compile : path -> str -> option str.
  Variable cache_tag : str.
  Variable order : list path -> list path.
  Notation cache := (cache_of cache_tag).
  Lemma compile_one_frame : forall f p, wf_fs f -> is_python p = true -> frame (eq (cache p)) f (compile_one compile cache_tag f p).
  Proof.
    intros f p W P. unfold compile_one. destruct (lookup f p) as [[s|]|] eqn:L; try apply frame_refl. destruct (compile p s) as [code|]; [|apply frame_refl].
    destruct p as [|n d]; [discriminate|]. cbn [cache_of tl].
    assert (D : lookup f d = Some Dir) by (apply (proj2 W n d); congruence).
    set (g := if exists_at f (lit "__pycache__" :: d) then f else write f (lit "__pycache__" :: d) Dir).
    assert (G : frame no_path f g).
    { unfold g. destruct (exists_at f (lit "__pycache__" :: d)) eqn:E; [apply frame_refl|]. apply exists_at_false in E. apply frame_dir; assumption. }
    destruct (write_text g _ code) as [k|] eqn:T; cbn [opt_or].
    - apply write_text_spec in T. destruct T as [T _]. eapply frame_trans; [eapply frame_weaken; [|exact G]; intros q []|exact T].
    - eapply frame_weaken; [|exact G]. intros q [].
  Qed.
  Lemma cache_no_source : forall p q, cache p = q -> is_python q = true -> p = [].
  Proof.
    intros [|n d] q E P; [reflexivity|]. exfalso. subst q. cbn [cache_of is_python] in P. apply andb_true_iff in P. destruct P as [P _].
    unfold ends_with in P. rewrite !rev_app_distr in P. cbn in P. discriminate.
  Qed.
  Lemma compile_one_idle : forall f p, (forall s, lookup f p <> Some (File s)) -> compile_one compile cache_tag f p = f.
  Proof. intros f p H. unfold compile_one. destruct (lookup f p) as [[s|]|]; [exfalso; exact (H s eq_refl)|reflexivity|reflexivity]. Qed.
  Lemma compile_frame : forall l f, wf_fs f -> Forall (fun p => is_python p = true) l ->
    frame (fun q => exists p s, In p l /\ lookup f p = Some (File s) /\ q = cache p) f (fold_left (compile_one compile cache_tag) l f).
  Proof.
    induction l as [|p l IH]; intros f W F; [apply frame_refl|]. inversion F as [|? ? P F']; subst. cbn [fold_left].
    assert (A : frame (fun q => exists s, lookup f p = Some (File s) /\ q = cache p) f (compile_one compile cache_tag f p)).
    { destruct (lookup f p) as [[s|]|] eqn:L.
      - eapply frame_weaken; [|exact (compile_one_frame f p W P)]. intros q <-. eauto.
      - rewrite compile_one_idle by (intro; congruence). apply frame_refl.
      - rewrite compile_one_idle by (intro; congruence). apply frame_refl. }
    eapply frame_trans; [eapply frame_weaken; [|exact A]; intros q (s & L & ->); exists p, s; split; [left; reflexivity|auto]|].
    eapply frame_weaken; [|apply IH; [apply (fr_wf _ _ _ A); exact W|exact F']]. intros q (r & s & I & L & ->). exists r, s. split; [right; exact I|]. split; [|reflexivity].
    destruct (fr_files _ _ _ A r s L) as [X|(x & X & Y)]; [exact X|]. exfalso. rewrite Forall_forall in F'. symmetry in Y. apply cache_no_source in Y; [|apply F'; exact I]. subst p. discriminate P.
  Qed.
  Definition special (info q : path) : Prop :=
    q = lit "RECORD" :: info \/ q = lit "INSTALLER" :: info \/ q = lit "REQUESTED" :: info \/ q = lit "INSTALLATION_MODE" :: info.
  Lemma record_frame : forall pre site info b t b' t', record_step h order pre site info b t = Go b' t' ->
    frame (eq (lit "RECORD" :: info)) (fsys t) (fsys t') /\ copied t' = copied t /\
    exists old new text, load_record_file (fsys t) (lit "RECORD" :: info) = Ok old /\ sign_all h pre (fsys t) site (order (copied t)) = Ok new /\
      save_records (old ++ new) = (Ok tt, text) /\ lookup (fsys t') (lit "RECORD" :: info) = Some (File text).
  Proof.
    intros pre site info b t b' t' H. unfold record_step in H. destruct (is_file (fsys t) info); [discriminate|].
    destruct (load_record_file _ _) as [old|] eqn:L; [|discriminate]. destruct (sign_all _ _ _ _ _) as [new|] eqn:S; [|discriminate].
    apply and_then_go in H. destruct H as (b1 & t1 & A & H). apply syscall_go in A. unfold on_disk in *.
    destruct (make_dirs (fsys t) info) as [f1|] eqn:M; [|discriminate]. injection A as <-. apply make_dirs_spec in M. destruct M as (M & _).
    destruct (save_records (old ++ new)) as [r text] eqn:V. apply and_then_go in H. destruct H as (b2 & t2 & C & H). apply syscall_go in C.
    cbn [fsys set_fs] in C. destruct (write_text f1 _ text) as [f2|] eqn:W; [|discriminate]. injection C as <-. apply write_text_spec in W. destruct W as (W & ->).
    destruct r as [[]|]; [|discriminate]. injection H as <- <-. cbn [fsys set_fs copied]. split; [|split; [reflexivity|]].
    - eapply frame_trans; [eapply frame_weaken; [|exact M]; intros q []|exact W].
    - exists old, new, text. repeat split; auto. rewrite lookup_write, path_eqb_refl. reflexivity.
  Qed.
  Lemma put_frame : forall info name s o b' t', and_then o (fun b t => syscall b t (on_disk t (write_text (fsys t) (name :: info) s))) = Go b' t' ->
    exists b t, o = Go b t /\ frame (eq (name :: info)) (fsys t) (fsys t') /\ copied t' = copied t /\ lookup (fsys t') (name :: info) = Some (File s).
  Proof.
    intros info name s o b' t' H. apply and_then_go in H. destruct H as (b & t & A & H). apply syscall_go in H. unfold on_disk in H.
    destruct (write_text _ _ s) as [f|] eqn:W; [|discriminate]. injection H as <-. apply write_text_spec in W. destruct W as (W & ->).
    exists b, t. split; [exact A|]. split; [exact W|]. split; [reflexivity|]. cbn [fsys set_fs]. rewrite lookup_write, path_eqb_refl. reflexivity.
  Qed.
  Definition mark (info q : path) : Prop := q = lit "INSTALLER" :: info \/ q = lit "REQUESTED" :: info \/ q = lit "INSTALLATION_MODE" :: info.
  Lemma mark_frame : forall info request mode b t b' t', mark_step info request mode b t = Go b' t' ->
    frame (mark info) (fsys t) (fsys t') /\ copied t' = copied t.
  Proof.
    intros info request mode b t b' t' H. unfold mark_step in H.
    assert (S1 : exists b1 t1, match request with
       | Some s => and_then (and_then (Go b t) (fun b t => syscall b t (on_disk t (write_text (fsys t) (lit "INSTALLER" :: info) (lit "pkm"))))) (fun b t => syscall b t (on_disk t (write_text (fsys t) (lit "REQUESTED" :: info) s)))
       | None => and_then (Go b t) (fun b t => syscall b t (on_disk t (write_text (fsys t) (lit "INSTALLER" :: info) (lit "pkm")))) end = Go b1 t1 /\
       frame (mark info) (fsys t1) (fsys t') /\ copied t' = copied t1).
    { destruct mode as [m|].
      - apply put_frame in H. destruct H as (b1 & t1 & A & B & C & _). exists b1, t1. split; [exact A|]. split; [|exact C].
        eapply frame_weaken; [|exact B]. intros q <-. right. right. reflexivity.
      - exists b', t'. split; [exact H|]. split; [apply frame_refl|reflexivity]. }
    destruct S1 as (b1 & t1 & A & B & C).
    assert (S2 : exists b2 t2, and_then (Go b t) (fun b t => syscall b t (on_disk t (write_text (fsys t) (lit "INSTALLER" :: info) (lit "pkm")))) = Go b2 t2 /\
       frame (mark info) (fsys t2) (fsys t') /\ copied t' = copied t2).
    { destruct request as [m|].
      - apply put_frame in A. destruct A as (b2 & t2 & A & D & E & _). exists b2, t2. split; [exact A|]. split; [|congruence].
        eapply frame_trans; [|exact B]. eapply frame_weaken; [|exact D]. intros q <-. right. left. reflexivity.
      - exists b1, t1. split; [exact A|]. split; [exact B|exact C]. }
    destruct S2 as (b2 & t2 & D & E & F). apply put_frame in D. destruct D as (b3 & t3 & D & G & I & _). injection D as <- <-. split; [|congruence].
    eapply frame_trans; [|exact E]. eapply frame_weaken; [|exact G]. intros q <-. left. reflexivity.
  Qed.

  (** ** The whole transaction *)
  Variables (tg : target) (name : str) (purelib : bool) (entries : list entry) (c : content) (pre : list (str * signature)) (request mode : option str).
  Definition site_of : path := if purelib then t_purelib tg else t_platlib tg.
  Notation site := site_of.
  Notation info := (name :: site_of).
  Definition placed (p : path) : Prop := written (copy_actions tg site name c) p.
  Hypothesis order_same : forall l p, In p (order l) <-> In p l.
  (** what a transaction writes besides the files of dist-info: the files of the wheel, launchers and compiled files *)
  Definition source (p : path) : Prop := (placed p \/ launched tg entries p) /\ is_python p = true.
  Definition compiled (q : path) : Prop := exists p, source p /\ q = cache p.
  Lemma transaction_spec : forall b f b' t', wf_fs f -> transaction h compile cache_tag order tg name purelib entries c pre request mode b f = Go b' t' ->
    exists b1 t1 b2 t2 t3 old new text,
      run_actions b (tx_start f) (copy_actions tg site name c) = Go b1 t1 /\ launcher_steps tg entries b1 t1 = Go b2 t2 /\
      frame (launched tg entries) (fsys t1) (fsys t2) /\
      frame compiled (fsys t2) (fsys t3) /\
      frame (special info) (fsys t3) (fsys t') /\
      (forall q, placed q \/ launched tg entries q \/ compiled q -> In q (copied t3)) /\
      load_record_file (fsys t3) (lit "RECORD" :: info) = Ok old /\ sign_all h pre (fsys t3) site (order (copied t3)) = Ok new /\
      save_records (old ++ new) = (Ok tt, text) /\ lookup (fsys t') (lit "RECORD" :: info) = Some (File text).
  Proof.
    intros b f b' t' W H. unfold transaction in H. fold site_of in H. apply and_then_go in H. destruct H as (b1 & t1 & A & H).
    apply and_then_go in H. destruct H as (b2 & t2 & B & H). apply and_then_go in H. destruct H as (b3 & t3 & C & H). apply and_then_go in H. destruct H as (b4 & t4 & D & H).
    pose proof (run_frame _ _ _ _ _ (copy_usual tg site name c) A) as (A1 & A2 & A3). pose proof B as B0. apply launchers_frame in B. destruct B as (B1 & B2 & B3).
    unfold compile_step in C. injection C as <- <-. cbn [fsys copied] in *. apply record_frame in D. cbn [fsys copied] in D. destruct D as (D1 & D2 & old & new & text & D3 & D4 & D5 & D6).
    apply mark_frame in H. destruct H as (E1 & E2).
    assert (W2 : wf_fs (fsys t2)) by (apply (fr_wf _ _ _ (proj1 B1)), (fr_wf _ _ _ (proj1 A1)); exact W).
    set (sources := filter is_python (order (copied t2))) in *.
    assert (IS : forall p, source p -> In p sources).
    { intros p [X Y]. unfold sources. rewrite filter_In, order_same. split; [|exact Y]. destruct X as [X|X]; [apply (proj2 B1), A2; exact X|apply B2; exact X]. }
    assert (SI : forall p s, In p sources -> lookup (fsys t2) p = Some (File s) -> source p).
    { intros p s I L. unfold sources in I. rewrite filter_In, order_same in I. destruct I as [I P]. split; [|exact P].
      destruct (B3 p I) as [X|X]; [|right; exact X]. destruct (fr_files _ _ _ (proj1 B1) p s L) as [Y|Y]; [|right; exact Y]. left.
      destruct (A3 p s X Y) as [[]|Z]. exact Z. }
    exists b1, t1, b2, t2, (TX (fold_left (compile_one compile cache_tag) sources (fsys t2)) (copied t2 ++ map cache sources) (backups t2)), old, new, text.
    split; [exact A|]. split; [exact B0|]. split; [exact (proj1 B1)|]. split; [|split; [|split; [|split; [|split; [|split]]]]].
    - cbn [fsys]. eapply frame_weaken; [|apply compile_frame; [exact W2|]].
      + intros q (p & s & I & L & ->). exists p. split; [exact (SI p s I L)|reflexivity].
      + apply Forall_forall. intros p X. apply filter_In in X. apply X.
    - eapply frame_trans; [eapply frame_weaken; [|exact D1]; intros q <-; left; reflexivity|]. eapply frame_weaken; [|exact E1]. intros q X. right. exact X.
    - intros q X. cbn [copied]. apply in_or_app. destruct X as [X|[X|(p & X & ->)]]; [left; apply (proj2 B1), A2; exact X|left; apply B2; exact X|right]. apply in_map, IS, X.
    - exact D3.
    - exact D4.
    - exact D5.
    - assert (X : forall p, mark info p -> under p (lit "RECORD" :: info) = false).
      { intros p M. destruct (under p (lit "RECORD" :: info)) eqn:U; [|reflexivity]. exfalso. apply under_cons_cases in U.
        destruct M as [-> | [-> | ->]]; destruct U as [U|U]; try discriminate; apply under_len in U; cbn in U; lia. }
      apply (fr_keep _ _ _ E1); [exact D6|exact X].
  Qed.
End Steps.
