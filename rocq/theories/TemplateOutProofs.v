(** What a template without preserved directories puts in the target. *)
From Coq Require Import String Ascii List Bool NArith Arith Lia FinFun.
From Verif Require Import Base BaseFacts FsModel FsFacts TemplateModel TemplateProofs.
Import ListNotations.
Open Scope string_scope.
Open Scope nat_scope.
Open Scope list_scope.
Open Scope bool_scope.

(** The files and directories that a template stands for: [output at target t l], the entry [t] of the template
    directory at [at] gives the entries [l] below [target]. Said without the functions of the model. *)
Inductive output (names texts : str -> res str) (ignored : path -> bool) : path -> path -> tree -> fs -> Prop :=
| out_ignored : forall at_ target t, ignored (tname t :: at_) = true -> output names texts ignored at_ target t []
| out_unnamed : forall at_ target t, ignored (tname t :: at_) = false -> names (tname t) = Ok [] ->
    output names texts ignored at_ target t []
| out_template : forall at_ target n c stem x, ignored (n :: at_) = false -> names n = Ok (stem ++ lit ".tmpl") ->
    plain_name stem -> texts c = Ok x -> output names texts ignored at_ target (TFile n c) [(stem :: target, File x)]
| out_copy : forall at_ target n c m, ignored (n :: at_) = false -> names n = Ok m -> plain_name m ->
    (forall stem, stem <> [] -> m <> stem ++ lit ".tmpl") ->
    output names texts ignored at_ target (TFile n c) [(m :: target, File c)]
| out_dir : forall at_ target n cs m l, ignored (n :: at_) = false -> names n = Ok m -> plain_name m ->
    ~ In (lit ".templatepreserve") (map tname cs) ->
    outputs names texts ignored (n :: at_) (m :: target) cs l ->
    output names texts ignored at_ target (TDir n cs) ((m :: target, Dir) :: l)
with outputs (names texts : str -> res str) (ignored : path -> bool) : path -> path -> list tree -> fs -> Prop :=
| outs_nil : forall at_ target, outputs names texts ignored at_ target [] []
| outs_cons : forall at_ target t ts l ls, output names texts ignored at_ target t l ->
    outputs names texts ignored at_ target ts ls -> outputs names texts ignored at_ target (t :: ts) (l ++ ls).
Scheme output_mut := Minimality for output Sort Prop
  with outputs_mut := Minimality for outputs Sort Prop.

(** the entries below [b] are what is there *)
Definition functional (b : path) (f : fs) : Prop := forall p n, In (p, n) f -> under b p = true -> lookup f p = Some n.
Lemma functional_write : forall b f p n, functional b f -> functional b (write f p n).
Proof.
  intros b f p n H q m I U. rewrite lookup_write. unfold write in I. destruct I as [E|I].
  - injection E as <- <-. rewrite path_eqb_refl. reflexivity.
  - unfold remove_path, keep in I. apply filter_In in I. destruct I as [I E]. cbn [fst] in E. apply negb_true_iff in E. rewrite E. auto.
Qed.
(** the target after adding [l] *)
Definition adds (l f f' : fs) : Prop :=
  (forall p, lookup f' p = match lookup l p with Some n => Some n | None => lookup f p end) /\
  (forall b, functional b f -> functional b f').
Lemma adds_nil : forall f, adds [] f f.
Proof. intros f. split; [intro p; reflexivity | auto]. Qed.
Lemma adds_app : forall a b f g h, NoDup (map fst (a ++ b)) -> adds a f g -> adds b g h -> adds (a ++ b) f h.
Proof.
  intros a b f g h N [A A'] [B B']. split; [|auto]. intro p. rewrite B, A, lookup_app.
  destruct (lookup b p) as [n|] eqn:Lb; destruct (lookup a p) as [m|] eqn:La; auto.
  exfalso. apply lookup_in in La, Lb. rewrite map_app in N.
  assert (In p (map fst a)) by (apply in_map_iff; exists (p, m); auto).
  assert (In p (map fst b)) by (apply in_map_iff; exists (p, n); auto).
  revert N H H0. generalize (map fst a) (map fst b). intros l1 l2 N I1 I2. induction l1 as [|x l1 IH]; [destruct I1|].
  cbn in N. inversion N as [|? ? N1 N2]. subst. destruct I1 as [->|I1]; [apply N1, in_or_app; right; exact I2 | auto].
Qed.
Lemma not_in_lookup : forall (l : fs) p, ~ In p (map fst l) -> lookup l p = None.
Proof.
  intros l p H. destruct (lookup l p) as [n|] eqn:E; auto. apply lookup_in in E. exfalso. apply H. apply in_map_iff. exists (p, n). auto.
Qed.
Lemma adds_write : forall p n f, adds [(p, n)] f (write f p n).
Proof.
  intros p n f. split; [|intros b; apply functional_write].
  intro q. rewrite lookup_write. cbn [lookup]. destruct (path_eqb q p); reflexivity.
Qed.

Lemma put_new : forall f n par c, lookup f par = Some Dir -> lookup f (n :: par) = None -> put f (n :: par) c = Ok (write f (n :: par) (File c)).
Proof. intros f n par c D N. unfold put, is_dir. rewrite N, D. reflexivity. Qed.

Lemma put_again : forall f n par c d, lookup f par = Some Dir ->
  put (write f (n :: par) (File c)) (n :: par) d = Ok (write (write f (n :: par) (File c)) (n :: par) (File d)).
Proof.
  intros f n par c d D. unfold put. unfold is_dir at 1. rewrite lookup_write, path_eqb_refl. unfold is_dir. rewrite lookup_write.
  replace (path_eqb par (n :: par)) with false; [rewrite D; reflexivity|].
  symmetry. apply path_eqb_neq. intro X. apply (f_equal (@length str)) in X. cbn [length] in X. lia.
Qed.
Lemma tmpl_stem_yes : forall stem par, stem <> [] -> tmpl_stem ((stem ++ lit ".tmpl") :: par) = Some (stem, par).
Proof.
  intros stem par N. unfold tmpl_stem. rewrite app_length. change (length (lit ".tmpl")) with 5.
  replace (length stem + 5 - 5) with (length stem) by lia.
  replace (5 <? length stem + 5) with true by (symmetry; apply Nat.ltb_lt; destruct stem; [congruence|cbn [length]; lia]).
  rewrite skipn_app, skipn_all, Nat.sub_diag, app_nil_l. change (skipn 0 (lit ".tmpl")) with (lit ".tmpl").
  rewrite str_eqb_refl. cbn [andb]. f_equal. f_equal. rewrite firstn_app, firstn_all, Nat.sub_diag. cbn [firstn]. apply app_nil_r.
Qed.
Lemma tmpl_stem_no : forall m par, (forall stem, stem <> [] -> m <> stem ++ lit ".tmpl") -> tmpl_stem (m :: par) = None.
Proof.
  intros m par H. unfold tmpl_stem. destruct (5 <? length m) eqn:L; auto. cbn [andb].
  destruct (str_eqb _ _) eqn:E; auto. apply str_eqb_eq in E. apply Nat.ltb_lt in L. exfalso.
  apply (H (firstn (length m - 5) m)).
  - intro X. apply (f_equal (@length ascii)) in X. rewrite firstn_length in X. cbn [length] in X. lia.
  - rewrite <- E. symmetry. apply firstn_skipn.
Qed.
Lemma plain_stem : forall stem, plain_name stem -> plain_name (stem ++ lit ".tmpl").
Proof.
  intros stem (N & S & D & DD).
  assert (5 < length (stem ++ lit ".tmpl")) as L by (rewrite app_length; change (length (lit ".tmpl")) with 5; destruct stem; [congruence|cbn [length]; lia]).
  split; [|split; [|split]].
  - intro X. rewrite X in L. cbn in L. lia.
  - intro X. apply in_app_or in X. destruct X as [X|X]; [auto|]. repeat (destruct X as [X|X]; [discriminate X|]). destruct X.
  - intro X. rewrite X in L. vm_compute in L. lia.
  - intro X. rewrite X in L. vm_compute in L. lia.
Qed.
Lemma preserved_false : forall cs, ~ In (lit ".templatepreserve") (map tname cs) -> preserved cs = false.
Proof.
  intros cs H. unfold preserved. rewrite <- not_true_iff_false, existsb_exists. intros (t & I & E). apply str_eqb_eq in E.
  apply H. rewrite <- E. apply in_map. exact I.
Qed.
Section Out.
  Variables (names texts : str -> res str) (ignored : path -> bool).
  (** a template whose outputs do not get into each other's way is rendered to exactly these outputs *)
  Lemma render_outputs : forall at_ target children l, outputs names texts ignored at_ target children l ->
    forall f, lookup f target = Some Dir -> NoDup (map fst l) -> (forall p, In p (map fst l) -> lookup f p = None) ->
    exists f', render names texts ignored f at_ target children = (f', Ok tt) /\ adds l f f'.
  Proof.
    unfold render.
    apply (outputs_mut names texts ignored
      (fun at_ target t l => forall f, lookup f target = Some Dir -> NoDup (map fst l) -> (forall p, In p (map fst l) -> lookup f p = None) ->
         exists f', render_entry names texts ignored at_ target t f = (f', Ok true) /\ adds l f f')
      (fun at_ target children l => forall f, lookup f target = Some Dir -> NoDup (map fst l) -> (forall p, In p (map fst l) -> lookup f p = None) ->
         exists f', loop (render_entry names texts ignored at_ target) children f = (f', Ok tt) /\ adds l f f')).
    - intros at_ target t I f D N F. exists f. split; [|apply adds_nil]. destruct t; cbn [render_entry tname] in *; rewrite I; reflexivity.
    - intros at_ target t I M f D N F. exists f. split; [|apply adds_nil].
      destruct t; cbn [render_entry tname] in *; rewrite I, M; reflexivity.
    - intros at_ target n c stem x I M P T f D N F. exists (write (write f (stem :: target) (File [])) (stem :: target) (File x)). split.
      2:{ split; [|intros b Hb; apply functional_write, functional_write, Hb]. intro q. rewrite !lookup_write. cbn [lookup]. destruct (path_eqb q (stem :: target)); reflexivity. }
      assert (lookup f (stem :: target) = None) as Z by (apply F; left; reflexivity).
      pose proof (plain_stem _ P) as P2. cbn [render_entry tname]. rewrite I, M.
      remember (stem ++ lit ".tmpl") as m eqn:Em. destruct m as [|a b] eqn:M0; [destruct P2 as [P2 _]; congruence|]. rewrite <- M0 in *. clear M0 a b.
      cbv zeta. rewrite (resolve_plain _ _ P2).
      unfold ensure_parent. cbn [tl]. replace (exists_at f target) with true by (unfold exists_at; rewrite D; reflexivity).
      unfold render_file. rewrite Em, tmpl_stem_yes by apply P.
      destruct P as (Q1 & Q2 & Q3 & Q4). rewrite (proj2 (str_eqb_neq _ _) Q3), (proj2 (str_eqb_neq _ _) Q4). cbn [orb].
      rewrite (put_new f stem target []) by auto. rewrite T.
      rewrite put_again by auto. cbn [continue]. reflexivity.
    - intros at_ target n c m I M P S f D N F. exists (write f (m :: target) (File c)). split; [|apply adds_write].
      assert (lookup f (m :: target) = None) as Z by (apply F; left; reflexivity).
      cbn [render_entry tname]. rewrite I, M. destruct m as [|a b] eqn:M0; [destruct P as [P _]; congruence|]. rewrite <- M0 in *. clear M0 a b. cbv zeta. rewrite (resolve_plain _ _ P).
      unfold ensure_parent. cbn [tl]. replace (exists_at f target) with true by (unfold exists_at; rewrite D; reflexivity).
      unfold render_file. rewrite tmpl_stem_no by exact S. unfold copy_to. unfold is_dir at 1. rewrite Z.
      rewrite put_new by auto. reflexivity.
    - intros at_ target n cs m l I M P NP _ IH f D N F.
      assert (lookup f (m :: target) = None) as Z by (apply F; left; reflexivity).
      inversion N as [|? ? N1 N2]. subst.
      destruct (IH (write f (m :: target) Dir)) as (f' & E & A).
      + rewrite lookup_write, path_eqb_refl. reflexivity.
      + exact N2.
      + intros p Ip. rewrite lookup_write. destruct (path_eqb p (m :: target)) eqn:X; [apply path_eqb_eq in X; subst; contradiction|].
        apply F. right. exact Ip.
      + exists f'. split.
        * cbn [render_entry tname]. rewrite I, M. destruct m as [|a b] eqn:M0; [destruct P as [P _]; congruence|]. rewrite <- M0 in *. clear M0 a b. cbv zeta. rewrite (resolve_plain _ _ P).
          unfold ensure_parent. cbn [tl]. replace (exists_at f target) with true by (unfold exists_at; rewrite D; reflexivity).
          rewrite preserved_false by exact NP. unfold ensure_dir. rewrite Z. cbn [tl]. rewrite (proj2 (is_dir_true f target) D).
          rewrite E. reflexivity.
        * change ((m :: target, Dir) :: l) with ([(m :: target, Dir)] ++ l). eapply adds_app; [exact N | apply adds_write | exact A].
    - intros at_ target f D N F. exists f. split; [reflexivity | apply adds_nil].
    - intros at_ target t ts l ls _ IH1 _ IH2 f D N F. rewrite map_app in N.
      assert (NoDup (map fst l) /\ NoDup (map fst ls) /\ forall p, In p (map fst l) -> ~ In p (map fst ls)) as (N1 & N2 & N3).
      { revert N. generalize (map fst l) (map fst ls). intros l1 l2. induction l1 as [|x l1 IH]; cbn [app]; intro N.
        - split; [constructor|]. split; [exact N|]. intros p [].
        - inversion N as [|? ? Nx Nr]. subst. destruct (IH Nr) as (A & B & C). split; [constructor; auto; intro Y; apply Nx, in_or_app; auto|].
          split; auto. intros p [->|Ip]; [intro Y; apply Nx, in_or_app; auto | auto]. }
      destruct (IH1 f D N1) as (f1 & E1 & A1); [intros p Ip; apply F; rewrite map_app; apply in_or_app; auto|].
      destruct (IH2 f1) as (f2 & E2 & A2).
      + rewrite (proj1 A1). destruct (lookup l target) as [nd|] eqn:L; [|exact D]. exfalso. apply lookup_in in L.
        assert (In target (map fst l)) as X by (apply in_map_iff; exists (target, nd); auto).
        rewrite (F target) in D; [discriminate|]. rewrite map_app. apply in_or_app. left. exact X.
      + exact N2.
      + intros p Ip. rewrite (proj1 A1). rewrite (not_in_lookup l p); [apply F; rewrite map_app; apply in_or_app; auto|].
        intro X. exact (N3 p X Ip).
      + exists f2. split; [cbn [loop]; rewrite E1; exact E2|]. eapply adds_app; eauto. rewrite map_app. exact N.
  Qed.
End Out.

(** ** From the temporary directory to the target *)
Definition moved (b : path) (l : fs) : fs := map (fun e => (fst e ++ b, snd e)) l.
Lemma moved_app : forall b k l, moved b (k ++ l) = moved b k ++ moved b l.
Proof. intros. apply map_app. Qed.
Lemma moved_keys : forall b l, map fst (moved b l) = map (fun r => r ++ b) (map fst l).
Proof. intros. unfold moved. rewrite !map_map. reflexivity. Qed.
Lemma lookup_moved : forall b l r, lookup (moved b l) (r ++ b) = lookup l r.
Proof.
  intros b l r. unfold moved. induction l as [|[k n] l IH]; [reflexivity|]. cbn [map lookup fst snd]. rewrite IH.
  replace (path_eqb (r ++ b) (k ++ b)) with (path_eqb r k); [reflexivity|].
  destruct (path_eqb r k) eqn:E; symmetry.
  - apply path_eqb_eq in E. subst. apply path_eqb_refl.
  - apply path_eqb_neq in E. apply path_eqb_neq. intro X. apply app_inv_tail in X. contradiction.
Qed.
Lemma lookup_moved_out : forall b l p, under b p = false -> lookup (moved b l) p = None.
Proof.
  intros b l p U. unfold moved. induction l as [|[k n] l IH]; [reflexivity|]. cbn [map lookup fst snd].
  destruct (path_eqb p (k ++ b)) eqn:E; [|exact IH]. apply path_eqb_eq in E. subst. rewrite under_app in U. discriminate.
Qed.
Lemma moved_nodup : forall b l, NoDup (map fst l) -> NoDup (map fst (moved b l)).
Proof.
  intros b l N. rewrite moved_keys. apply Injective_map_NoDup; auto. intros x y E. apply app_inv_tail in E. exact E.
Qed.
Section Moving.
  Variables (names texts : str -> res str) (ignored : path -> bool).
  Lemma outputs_moved : forall at_ target cs l b, outputs names texts ignored at_ target cs l ->
    outputs names texts ignored at_ (target ++ b) cs (moved b l).
  Proof.
    intros at_ target cs l b. revert at_ target cs l.
    apply (outputs_mut names texts ignored
      (fun at_ target t l => output names texts ignored at_ (target ++ b) t (moved b l))
      (fun at_ target cs l => outputs names texts ignored at_ (target ++ b) cs (moved b l))); intros.
    - apply out_ignored; auto.
    - apply out_unnamed; auto.
    - apply (out_template names texts ignored at_ (target ++ b) n c stem x); auto.
    - apply (out_copy names texts ignored at_ (target ++ b) n c m); auto.
    - apply (out_dir names texts ignored at_ (target ++ b) n cs m (moved b l)); auto.
    - constructor.
    - rewrite moved_app. constructor; auto.
  Qed.
  (** what is there sits in a directory that is there *)
  Lemma outputs_parents : forall at_ target cs l, outputs names texts ignored at_ target cs l ->
    forall p n, In (p, n) l -> exists a q, p = a :: q /\ (q = target \/ In (q, Dir) l).
  Proof.
    apply (outputs_mut names texts ignored
      (fun at_ target t l => forall p n, In (p, n) l -> exists a q, p = a :: q /\ (q = target \/ In (q, Dir) l))
      (fun at_ target cs l => forall p n, In (p, n) l -> exists a q, p = a :: q /\ (q = target \/ In (q, Dir) l))).
    - intros at_ target t _ p n [].
    - intros at_ target t _ _ p n [].
    - intros at_ target n c stem x _ _ _ _ p nd [E|[]]. injection E as <- <-. eauto.
    - intros at_ target n c m _ _ _ _ p nd [E|[]]. injection E as <- <-. eauto.
    - intros at_ target n cs m l _ _ _ _ _ IH p nd [E|I]; [injection E as <- <-; eauto|].
      destruct (IH p nd I) as (a & q & -> & [->|D]); exists a; eexists; (split; [reflexivity|]); right; [left; reflexivity | right; exact D].
    - intros at_ target p n [].
    - intros at_ target t ts l ls _ IH1 _ IH2 p n I. apply in_app_or in I.
      destruct I as [I|I]; [destruct (IH1 p n I) as (a & q & -> & [->|D]) | destruct (IH2 p n I) as (a & q & -> & [->|D])];
        exists a; eexists; (split; [reflexivity|]); auto; right; apply in_or_app; auto.
  Qed.
End Moving.

Lemma graft_moved : forall f b l, graft f b l = moved b l ++ f.
Proof. reflexivity. Qed.
(** the state of the target in the middle of copying *)
Definition midway (f g : fs) (target : path) (done : fs) : Prop := forall q, lookup g q = lookup (graft f target done) q.
Lemma lookup_graft_at : forall f b l r, lookup (graft f b l) (r ++ b) = match lookup l r with Some n => Some n | None => lookup f (r ++ b) end.
Proof. intros. rewrite graft_moved, lookup_app, lookup_moved. reflexivity. Qed.
Lemma midway_step : forall f g target done r n g' ,
  midway f g target done -> (forall q, lookup g' q = if path_eqb q (r ++ target) then Some n else lookup g q) ->
  midway f g' target ((r, n) :: done).
Proof.
  intros f g target done r n g' M H q. rewrite H. change (graft f target ((r, n) :: done)) with ((r ++ target, n) :: graft f target done).
  cbn [lookup]. destruct (path_eqb q (r ++ target)); auto.
Qed.
Lemma copy_entry_midway : forall f target done g a r n,
  lookup (graft f target done) (r ++ target) = Some Dir ->
  (match n with Dir => forall c, lookup (graft f target done) ((a :: r) ++ target) <> Some (File c)
              | File _ => lookup (graft f target done) ((a :: r) ++ target) <> Some Dir end) ->
  midway f g target done ->
  exists g', copy_entry target (g, true) (a :: r, n) = (g', true) /\ midway f g' target ((a :: r, n) :: done).
Proof.
  intros f target done g a r n P C M. rewrite <- !M in *. unfold copy_entry. cbn [fst snd hd]. destruct n as [c|].
  - assert (is_dir g ((a :: r) ++ target) = false) as D.
    { rewrite <- not_true_iff_false, is_dir_true. exact C. }
    unfold copy_to. rewrite D. cbn [app] in *. unfold put. rewrite D, (proj2 (is_dir_true g (r ++ target)) P). cbn [orb negb].
    eexists. split; [reflexivity|]. eapply midway_step; [exact M|]. intro q. apply lookup_write.
  - destruct (ensure_dir g ((a :: r) ++ target)) as [g'|e] eqn:E.
    + exists g'. split; [reflexivity|]. eapply midway_step; [exact M|]. apply ensure_dir_lookup. exact E.
    + exfalso. unfold ensure_dir in E. destruct (lookup g ((a :: r) ++ target)) as [[c|]|] eqn:L; [congruence|discriminate|].
      cbn [app tl] in E. rewrite (proj2 (is_dir_true g (r ++ target)) P) in E. discriminate.
Qed.

Section Copying.
  Variables (f : fs) (target : path) (l : fs).
  Hypothesis at_target : lookup f target = Some Dir.
  Hypothesis parents : forall p n, lookup l p = Some n -> exists a q, p = a :: q /\ (q = [] \/ lookup l q = Some Dir).
  Hypothesis room : forall r n, lookup l r = Some n ->
    lookup f (r ++ target) = None \/ n = Dir /\ lookup f (r ++ target) = Some Dir.
  Definition sub (done : fs) : Prop := forall r n, lookup done r = Some n -> lookup l r = Some n.

  Lemma copy_list : forall es done g, midway f g target done -> sub done ->
    (forall r n, In (r, n) es -> lookup l r = Some n /\ (tl r = [] \/ lookup done (tl r) = Some Dir)) ->
    exists g' done', fold_left (copy_entry target) es (g, true) = (g', true) /\ midway f g' target done' /\ sub done' /\
      (forall r n, lookup done r = Some n -> lookup done' r = Some n) /\ (forall r n, In (r, n) es -> lookup done' r = Some n).
  Proof.
    induction es as [|[r n] es IH]; intros done g M S H.
    - exists g, done. repeat split; auto. intros r n [].
    - destruct (H r n (or_introl eq_refl)) as [Lr Pr]. destruct (parents r n Lr) as (a & q & -> & _). cbn [tl] in Pr.
      assert (lookup (graft f target done) (q ++ target) = Some Dir) as P.
      { rewrite lookup_graft_at. destruct Pr as [->|Pr]; [|rewrite Pr; reflexivity].
        destruct (lookup done []) as [m|] eqn:E; [|exact at_target]. apply S in E. destruct (parents _ _ E) as (x & y & Z & _). discriminate. }
      assert (match n with Dir => forall c, lookup (graft f target done) ((a :: q) ++ target) <> Some (File c)
                         | File _ => lookup (graft f target done) ((a :: q) ++ target) <> Some Dir end) as C.
      { rewrite lookup_graft_at. destruct (lookup done (a :: q)) as [m|] eqn:E.
        - apply S in E. rewrite Lr in E. injection E as <-. destruct n; [discriminate | intro c; discriminate].
        - destruct (room _ _ Lr) as [Z|[-> Z]]; [|rewrite Z; intro; discriminate].
          rewrite Z. destruct n; [discriminate | intro c; discriminate]. }
      destruct (copy_entry_midway f target done g a q n P C M) as (g1 & E1 & M1).
      assert (forall r' n', lookup done r' = Some n' -> lookup ((a :: q, n) :: done) r' = Some n') as K.
      { intros r' n' L. cbn [lookup]. destruct (path_eqb r' (a :: q)) eqn:E; auto. apply path_eqb_eq in E. subst.
        apply S in L. congruence. }
      destruct (IH ((a :: q, n) :: done) g1 M1) as (g' & done' & E2 & M2 & S2 & K2 & I2).
      + intros r' n' L. cbn [lookup] in L. destruct (path_eqb r' (a :: q)) eqn:E; auto. apply path_eqb_eq in E. subst. congruence.
      + intros r' n' I. destruct (H r' n' (or_intror I)) as [L' [P'|P']]; auto.
      + exists g', done'. split; [etransitivity; [|exact E2]; cbn [fold_left]; f_equal; exact E1|]. split; auto. split; auto. split; auto.
        intros r' n' [X|I]; auto. injection X as <- <-. apply K2. cbn [lookup]. rewrite path_eqb_refl. reflexivity.
  Qed.
  Lemma copy_levels : forall es, (forall r n, In (r, n) es -> r <> [] -> lookup l r = Some n) ->
    (forall r n, lookup l r = Some n -> In (r, n) es) ->
    forall k d done g, 1 <= d -> midway f g target done -> sub done ->
    (forall r n, lookup l r = Some n -> length r < d -> lookup done r = Some n) ->
    exists g' done', fold_left (copy_entry target) (flat_map (fun d => filter (fun e => length (fst e) =? d) es) (seq d k)) (g, true) = (g', true) /\
      midway f g' target done' /\ sub done' /\ (forall r n, lookup l r = Some n -> length r < d + k -> lookup done' r = Some n).
  Proof.
    intros es H1 H2. induction k as [|k IH]; intros d done g D M S L.
    - exists g, done. cbn [seq flat_map fold_left]. split; [reflexivity|]. split; auto. split; auto. intros r n Lr X. apply L; [exact Lr|lia].
    - cbn [seq flat_map]. rewrite fold_left_app.
      destruct (copy_list (filter (fun e => length (fst e) =? d) es) done g M S) as (g1 & done1 & E1 & M1 & S1 & K1 & I1).
      + intros r n I. apply filter_In in I. destruct I as [I E]. apply Nat.eqb_eq in E. cbn [fst] in E.
        assert (r <> []) as NE by (destruct r; [cbn in E; lia | discriminate]).
        pose proof (H1 r n I NE) as Lr. split; auto.
        destruct (parents r n Lr) as (a & q & -> & [->|P]); [left; reflexivity|]. right. cbn [tl]. apply L; auto. cbn [length] in E. lia.
      + destruct (IH (Datatypes.S d) done1 g1) as (g' & done' & E2 & M2 & S2 & L2); auto.
        * intros r n Lr X. destruct (Nat.eq_dec (length r) d) as [Y|Y]; [|apply K1, L; auto; lia].
          apply I1. apply filter_In. split; [auto | apply Nat.eqb_eq; exact Y].
        * exists g', done'. split; [etransitivity; [|exact E2]; f_equal; exact E1|]. split; auto. split; auto. intros r n Lr X. apply L2; auto. lia.
  Qed.
  Lemma copy_all : forall es, (forall r n, In (r, n) es -> r <> [] -> lookup l r = Some n) ->
    (forall r n, lookup l r = Some n -> In (r, n) es) ->
    exists g, fold_left (copy_entry target) (by_depth es) (f, true) = (g, true) /\
      forall q, lookup g q = lookup (graft f target l) q.
  Proof.
    intros es H1 H2. unfold by_depth.
    destruct (copy_levels es H1 H2 (list_max (map (fun e => length (fst e)) es)) 1 [] f) as (g & done & E & M & S & L); auto.
    - intro q. reflexivity.
    - intros r n X. discriminate.
    - intros r n Lr X. destruct (parents r n Lr) as (a & q & -> & _). cbn [length] in X. lia.
    - exists g. split; [exact E|]. intro q. rewrite M, !graft_moved, !lookup_app.
      destruct (under target q) eqn:U; [|rewrite !lookup_moved_out by exact U; reflexivity].
      apply under_iff in U. destruct U as [r ->]. rewrite !lookup_moved.
      destruct (lookup l r) as [n|] eqn:Lr.
      + rewrite (L r n Lr); auto. apply H2 in Lr as I.
        pose proof (proj1 (list_max_le (map (fun e => length (fst e)) es) _) (le_n _)) as F. rewrite Forall_forall in F.
        assert (length r <= list_max (map (fun e => length (fst e)) es)); [|lia]. apply F. apply in_map_iff. exists (r, n). auto.
      + destruct (lookup done r) as [m|] eqn:X; auto. apply S in X. congruence.
  Qed.
End Copying.

Lemma nodup_lookup : forall (l : fs) p n, NoDup (map fst l) -> In (p, n) l -> lookup l p = Some n.
Proof.
  induction l as [|[k m] l IH]; intros p n N I; [destruct I|]. cbn [map fst] in N. inversion N as [|? ? N1 N2]. subst. cbn [lookup].
  destruct I as [E|I]; [injection E as -> ->; rewrite path_eqb_refl; reflexivity|].
  destruct (path_eqb p k) eqn:E; auto. apply path_eqb_eq in E. subst. exfalso. apply N1. apply in_map_iff. exists (k, n). auto.
Qed.

(** a template that fits is put in place exactly *)
Lemma execute_outputs : forall names texts ignored template tdir target f l,
  outputs names texts ignored [] [] template l -> NoDup (map fst l) ->
  (forall p, under tdir p = true -> lookup f p = None) -> under tdir target = false -> under target tdir = false ->
  lookup f target = Some Dir ->
  (forall r n, lookup l r = Some n -> lookup f (r ++ target) = None \/ n = Dir /\ lookup f (r ++ target) = Some Dir) ->
  exists f', execute names texts ignored template false tdir target f = (f', Ok tt) /\
    (forall r, lookup f' (r ++ target) = match lookup l r with Some n => Some n | None => lookup f (r ++ target) end) /\
    (forall p, under target p = false -> lookup f' p = lookup f p).
Proof.
  intros names texts ignored template tdir target f l O N fresh A1 A2 T R.
  assert (forall p n, lookup l p = Some n -> exists a q, p = a :: q /\ (q = [] \/ lookup l q = Some Dir)) as PA.
  { intros p n L. apply lookup_in in L. destruct (outputs_parents _ _ _ _ _ _ _ O p n L) as (a & q & -> & [->|D]); exists a; eexists; (split; [reflexivity|]); auto.
    right. apply nodup_lookup; auto. }
  pose proof (outputs_moved _ _ _ _ _ _ _ tdir O) as OM. rewrite app_nil_l in OM.
  destruct (render_outputs _ _ _ _ _ _ _ OM (write f tdir Dir)) as (f2 & E & A & F).
  - rewrite lookup_write, path_eqb_refl. reflexivity.
  - apply moved_nodup. exact N.
  - intros p I. rewrite moved_keys in I. apply in_map_iff in I. destruct I as (r & <- & I). apply in_map_iff in I. destruct I as ([r' n] & X & I).
    cbn [fst] in X. subst r'. rewrite lookup_write. destruct (path_eqb (r ++ tdir) tdir) eqn:X; [|apply fresh, under_app].
    apply path_eqb_eq in X. destruct (PA r n (nodup_lookup _ _ _ N I)) as (a & q & -> & _). apply (f_equal (@length str)) in X. rewrite app_length in X. cbn [length] in X. lia.
  - assert (forall p, under tdir p = false -> lookup f2 p = lookup f p) as OUT.
    { intros p U. rewrite A, lookup_moved_out by exact U. rewrite lookup_write. destruct (path_eqb p tdir) eqn:X; auto.
      apply path_eqb_eq in X. subst. rewrite under_refl in U. discriminate. }
    assert (forall r, r <> [] -> lookup f2 (r ++ tdir) = lookup l r) as INN.
    { intros r NE. rewrite A, lookup_moved. destruct (lookup l r) as [n|]; auto. rewrite lookup_write.
      destruct (path_eqb (r ++ tdir) tdir) eqn:X; [|apply fresh, under_app]. apply path_eqb_eq in X.
      apply (f_equal (@length str)) in X. rewrite app_length in X. destruct r; [congruence|cbn [length] in X; lia]. }
    assert (functional tdir f2) as FU.
    { apply F. apply functional_write. intros p n I U. exfalso. apply in_lookup in I. apply I, fresh, U. }
    destruct (copy_all f2 target l) with (es := tree_at f2 tdir) as (f4 & EC & LC).
    + rewrite OUT; auto.
    + exact PA.
    + intros r n L. rewrite OUT by (apply apart_app; auto). auto.
    + intros r n I NE. rewrite <- INN by exact NE. unfold tree_at in I. apply in_map_iff in I. destruct I as ([p m] & X & I).
      cbn [fst snd] in X. injection X as <- <-. unfold keep in I. apply filter_In in I. destruct I as [I U]. cbn [fst] in U.
      pose proof (FU p m I U) as L. apply under_iff in U. destruct U as [s ->]. rewrite rel_to_app. exact L.
    + intros r n L. apply lookup_in. rewrite lookup_tree_at, INN; auto. destruct (PA r n L) as (a & q & -> & _). discriminate.
    + exists (remove_tree f4 tdir). split; [|split].
      * unfold execute. rewrite E. destruct (existsb _ _) eqn:X.
        { exfalso. apply existsb_exists in X. destruct X as ([r n] & I & X). apply in_by_depth in I. destruct I as [I NE]. cbn [fst] in *.
          apply in_tree_at in I. rewrite INN in I by exact NE. destruct (lookup l r) as [m|] eqn:L; [|congruence].
          apply andb_true_iff in X. destruct X as [X1 X2]. apply exists_at_true in X1.
          unfold is_dir in X2. rewrite OUT in X1, X2 by (apply apart_app; auto).
          destruct (R r m L) as [Z|[_ Z]]; [congruence|]. rewrite Z in X2. discriminate. }
        assert (mkdirs f2 target = Ok f2) as MK by (destruct target; cbn [mkdirs]; rewrite OUT, T by exact A1; reflexivity).
        rewrite MK, EC. reflexivity.
      * intro r. rewrite lookup_remove_tree, (apart_app tdir target r A1 A2), LC, lookup_graft_at.
        rewrite OUT by (apply apart_app; auto). reflexivity.
      * intros p U. rewrite lookup_remove_tree. destruct (under tdir p) eqn:V; [symmetry; apply fresh, V|].
        rewrite LC, graft_moved, lookup_app, lookup_moved_out by exact U. apply OUT, V.
Qed.
