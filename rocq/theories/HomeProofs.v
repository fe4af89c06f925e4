(** Lemmas about the directory of pkm. *)
From Coq Require Import String Ascii List Bool NArith Arith Lia.
From Verif Require Import Base BaseFacts ParserModel FsModel FsFacts HomeModel.
Import ListNotations.
Open Scope string_scope.
Open Scope nat_scope.
Open Scope list_scope.
Open Scope bool_scope.

(** what [mkdirs] does: directories at [p] and above it are added, nothing else is changed *)
Lemma mkdirs_spec : forall p f f', mkdirs f p = Ok f' ->
  lookup f' p = Some Dir /\ forall q, lookup f' q = lookup f q \/ (lookup f q = None /\ lookup f' q = Some Dir /\ under q p = true).
Proof.
  intros p. induction p as [|c p IH]; intros f f' H; cbn [mkdirs] in H.
  - destruct (lookup f []) as [[s|]|] eqn:L; [discriminate|injection H as <-; auto|injection H as <-]. split; [rewrite lookup_write, path_eqb_refl; reflexivity|]. intro q. rewrite lookup_write.
    destruct (path_eqb q []) eqn:E; [|left; reflexivity]. apply path_eqb_eq in E. subst q. right. auto using under_refl.
  - destruct (lookup f (c :: p)) as [[s|]|] eqn:L; [discriminate|injection H as <-; auto|]. destruct (mkdirs f p) as [f1|e] eqn:M; [|discriminate]. cbn [bind] in H. injection H as <-.
    destruct (IH f f1 M) as [A B]. split; [rewrite lookup_write, path_eqb_refl; reflexivity|]. intro q. rewrite lookup_write. destruct (path_eqb q (c :: p)) eqn:E.
    + apply path_eqb_eq in E. subst q. right. auto using under_refl.
    + destruct (B q) as [X|(X & Y & Z)]; [left; exact X|right]. split; [exact X|]. split; [exact Y|]. apply under_trans with p; [exact Z|apply under_cons].
Qed.
Lemma mkdirs_ok : forall p f, (forall q s, under q p = true -> lookup f q <> Some (File s)) -> exists f', mkdirs f p = Ok f'.
Proof.
  intros p. induction p as [|c p IH]; intros f H; cbn [mkdirs].
  - destruct (lookup f []) as [[s|]|] eqn:L; eauto. exfalso. apply (H [] s (under_refl _) L).
  - destruct (lookup f (c :: p)) as [[s|]|] eqn:L; [exfalso; apply (H _ s (under_refl _) L)|eauto|]. destruct (IH f) as [f1 E]; [intros q s U; apply H; apply under_trans with p; [exact U|apply under_cons]|]. rewrite E. cbn [bind]. eauto.
Qed.
Definition caches (p q : path) : bool := under (repos_dir p) q || under (builds_dir p) q || under (http_dir p) q.
Definition frame (p q : path) : Prop := under q (config_dir p) = true \/ q = lit "resources" :: p.
Lemma clean_spec : forall initial p f f', clean_cache initial (HPath p) f = Ok f' ->
  (forall q, caches p q = true -> lookup f' q = None) /\
  (forall q, caches p q = false -> lookup f q <> None -> lookup f' q = lookup f q) /\
  (forall q, lookup f q = None -> lookup f' q <> None -> (lookup f' q = Some Dir /\ frame p q) \/ (q = repos_config p /\ lookup f' q = Some (File initial))) /\
  lookup f' (repos_config p) <> None.
Proof.
  intros initial p f f' H. unfold clean_cache, use_home in H.
  destruct (mkdirs f p) as [f0|e] eqn:M0; [|discriminate]. cbn [bind fst snd] in H. destruct (open_loader initial p f0) as [f1|e] eqn:OL; [|discriminate]. cbn [bind] in H.
  destruct (mkdirs (remove_tree f1 (repos_dir p)) (builds_dir p)) as [f2|e] eqn:M2; [|discriminate]. cbn [bind] in H.
  destruct (mkdirs (remove_tree f2 (builds_dir p)) (http_dir p)) as [f3|e] eqn:M3; [|discriminate]. cbn [bind] in H. injection H as <-.
  assert (NE : forall a b, str_eqb a b = false -> a <> b) by (intros a b E ->; rewrite str_eqb_refl in E; discriminate).
  assert (HD : forall r, under (repos_dir p) (builds_dir p) = false /\ under (repos_dir p) (http_dir p) = false /\ under (builds_dir p) (http_dir p) = false /\ (under r p = true -> caches p r = false)).
  { intro r. assert (X : forall (x y : str), x <> y -> under (x :: p) (y :: p) = false).
    { intros x y N. destruct (under (x :: p) (y :: p)) eqn:E; [|reflexivity]. apply under_cons_cases in E. destruct E as [E|E]; [injection E as E; contradiction|]. apply under_len in E. cbn in E. lia. }
    assert (Y : forall (x : str), under (x :: p) p = false) by (intro x; destruct (under (x :: p) p) eqn:E; [apply under_len in E; cbn in E; lia|reflexivity]).
    split; [apply X; discriminate|]. split; [|split].
    - destruct (under (repos_dir p) (http_dir p)) eqn:E; [|reflexivity]. apply under_cons_cases in E. destruct E as [E|E]; [apply (f_equal (@length str)) in E; cbn in E; lia|]. unfold repos_dir, builds_dir in E. rewrite X in E by discriminate. discriminate.
    - destruct (under (builds_dir p) (http_dir p)) eqn:E; [|reflexivity]. apply under_cons_cases in E. destruct E as [E|E]; [apply (f_equal (@length str)) in E; cbn in E; lia|]. unfold repos_dir, builds_dir in E. rewrite X in E by discriminate. discriminate.
    - intro U. unfold caches, repos_dir, builds_dir, http_dir. apply under_len in U. rewrite !orb_false_iff. repeat split; (destruct (under _ r) eqn:E; [apply under_len in E; cbn [length] in E; lia|reflexivity]). }
  assert (CF : forall q, frame p q \/ q = repos_config p \/ under q p = true -> caches p q = false).
  { intros q Q. assert (Z : forall (x : str) q, x <> lit "etc" -> under q (config_dir p) = true -> under (x :: p) q = false).
    { intros x r N U. destruct (under (x :: p) r) eqn:E; [|reflexivity]. pose proof (under_trans _ _ _ E U) as V. apply under_cons_cases in V. destruct V as [V|V]; [apply (f_equal (@length str)) in V; cbn in V; lia|]. apply under_cons_cases in V. destruct V as [V|V]; [injection V as V; contradiction|]. apply under_len in V. cbn in V. lia. }
    assert (ZH : forall q, under q (config_dir p) = true -> under (http_dir p) q = false).
    { intros r U. destruct (under (http_dir p) r) eqn:E; [|reflexivity]. assert (V : under (lit "resources" :: p) r = true) by (apply under_trans with (http_dir p); [apply under_cons|exact E]). rewrite Z in V; [discriminate|discriminate|exact U]. }
    assert (ZR : forall x : str, x <> lit "etc" -> under (x :: p) (repos_config p) = false).
    { intros x N. destruct (under (x :: p) (repos_config p)) eqn:E; [|reflexivity]. apply under_cons_cases in E. destruct E as [E|E]; [apply (f_equal (@length str)) in E; cbn in E; lia|]. rewrite Z in E; [discriminate|exact N|apply under_refl]. }
    destruct Q as [[U| ->]|[->|U]].
    - unfold caches, repos_dir, builds_dir. rewrite (Z (lit "repos") q), (Z (lit "build-cache") q), ZH; auto; discriminate.
    - unfold caches. rewrite !orb_false_iff. repeat split.
      + destruct (under (repos_dir p) (lit "resources" :: p)) eqn:E; [|reflexivity]. apply under_cons_cases in E. destruct E as [E|E]; [discriminate|apply under_len in E; cbn in E; lia].
      + destruct (under (builds_dir p) (lit "resources" :: p)) eqn:E; [|reflexivity]. apply under_cons_cases in E. destruct E as [E|E]; [discriminate|apply under_len in E; cbn in E; lia].
      + destruct (under (http_dir p) (lit "resources" :: p)) eqn:E; [|reflexivity]. apply under_len in E. cbn in E. lia.
    - unfold caches. unfold repos_dir, builds_dir. rewrite !ZR by discriminate. cbn [orb]. destruct (under (http_dir p) (repos_config p)) eqn:E; [|reflexivity]. assert (V : under (lit "resources" :: p) (repos_config p) = true) by (apply under_trans with (http_dir p); [apply under_cons|exact E]). rewrite ZR in V; discriminate.
    - apply (proj2 (proj2 (proj2 (HD q))) U). }
  destruct (mkdirs_spec _ _ _ M0) as [P0 B0]. destruct (mkdirs_spec _ _ _ M2) as [P2 B2]. destruct (mkdirs_spec _ _ _ M3) as [P3 B3].
  assert (B1 : forall q, lookup f1 q = lookup f0 q \/ (lookup f0 q = None /\ (lookup f1 q = Some Dir /\ frame p q \/ q = repos_config p /\ lookup f1 q = Some (File initial)))).
  { unfold open_loader in OL. destruct (exists_at f0 (repos_config p)) eqn:EX; [injection OL as <-; auto|]. destruct (mkdirs f0 (config_dir p)) as [g|e] eqn:MG; [|discriminate]. cbn [bind] in OL. injection OL as <-. destruct (mkdirs_spec _ _ _ MG) as [_ BG]. apply exists_at_false in EX.
    intro q. rewrite lookup_write. destruct (path_eqb q (repos_config p)) eqn:E; [apply path_eqb_eq in E; subst q; right; auto|]. destruct (BG q) as [X|(X & Y & Z)]; [left; exact X|right]. split; [exact X|]. left. split; [exact Y|left; exact Z]. }
  assert (R1 : lookup f1 (repos_config p) <> None).
  { unfold open_loader in OL. destruct (exists_at f0 (repos_config p)) eqn:EX; [injection OL as <-; apply exists_at_true; exact EX|]. destruct (mkdirs f0 (config_dir p)) as [g|e] eqn:MG; [|discriminate]. cbn [bind] in OL. injection OL as <-. rewrite lookup_write, path_eqb_refl. discriminate. }
  assert (UR : forall q, caches p q = false -> under (repos_dir p) q = false /\ under (builds_dir p) q = false /\ under (http_dir p) q = false) by (intros q Q; unfold caches in Q; rewrite !orb_false_iff in Q; tauto).
  (** outside of the caches every step leaves what there is *)
  assert (K : forall q, caches p q = false -> lookup (remove_tree f3 (http_dir p)) q = lookup f1 q \/ (lookup f1 q = None /\ lookup (remove_tree f3 (http_dir p)) q = Some Dir /\ (under q p = true \/ q = lit "resources" :: p))).
  { intros q Q. destruct (UR q Q) as (U1 & U2 & U3). rewrite lookup_remove_tree, U3.
    assert (L2 : forall g, lookup (remove_tree g (builds_dir p)) q = lookup g q) by (intro g; rewrite lookup_remove_tree, U2; reflexivity).
    assert (L1 : forall g, lookup (remove_tree g (repos_dir p)) q = lookup g q) by (intro g; rewrite lookup_remove_tree, U1; reflexivity).
    destruct (B3 q) as [X3|(X3 & Y3 & Z3)]; rewrite L2 in X3.
    - destruct (B2 q) as [X2|(X2 & Y2 & Z2)]; rewrite L1 in X2; [left; congruence|right]. split; [exact X2|]. split; [congruence|]. apply under_cons_cases in Z2. destruct Z2 as [->|Z2]; [|left; exact Z2]. rewrite under_refl in U2. discriminate.
    - assert (Q3 : under q p = true \/ q = lit "resources" :: p).
      { apply under_cons_cases in Z3. destruct Z3 as [->|Z3]; [rewrite under_refl in U3; discriminate|]. apply under_cons_cases in Z3. tauto. }
      destruct (B2 q) as [X2|(X2 & Y2 & Z2)]; rewrite L1 in X2; right; (split; [congruence|]); (split; [congruence|exact Q3]). }
  split; [|split; [|split]].
  - intros q Q. rewrite lookup_remove_tree. destruct (under (http_dir p) q) eqn:U3; [reflexivity|]. unfold caches in Q. rewrite U3, orb_false_r in Q. apply orb_true_iff in Q.
    assert (HN : forall x : str, under (x :: p) q = true -> under q (http_dir p) = true -> x = lit "resources").
    { intros x U V. pose proof (under_trans _ _ _ U V) as W. apply under_cons_cases in W. destruct W as [W|W]; [apply (f_equal (@length str)) in W; cbn in W; lia|]. apply under_cons_cases in W. destruct W as [W|W]; [injection W as ->; reflexivity|]. apply under_len in W. cbn in W. lia. }
    destruct (B3 q) as [X3|(X3 & Y3 & Z3)].
    + rewrite X3, lookup_remove_tree. destruct (under (builds_dir p) q) eqn:U2; [reflexivity|]. destruct Q as [Q|Q]; [|discriminate].
      destruct (B2 q) as [X2|(X2 & Y2 & Z2)]; [rewrite X2, lookup_remove_tree, Q; reflexivity|]. exfalso. pose proof (under_trans _ _ _ Q Z2) as W. rewrite (proj1 (HD [])) in W. discriminate.
    + exfalso. destruct Q as [Q|Q]; apply (HN _ Q) in Z3; discriminate.
  - intros q Q L. destruct (K q Q) as [X|(X & _)].
    + rewrite X. destruct (B1 q) as [Y|(Y & _)]; [rewrite Y; destruct (B0 q) as [Z|(Z & _)]; [exact Z|contradiction]|]. destruct (B0 q) as [Z|(Z & _)]; congruence.
    + exfalso. destruct (B1 q) as [Y|(Y & [[Z _]|[_ Z]])]; [|congruence|congruence]. destruct (B0 q) as [Z|(Z & W & _)]; congruence.
  - intros q L N. destruct (caches p q) eqn:Q.
    + exfalso. apply N. clear N L. rewrite lookup_remove_tree. destruct (under (http_dir p) q) eqn:U3; [reflexivity|]. unfold caches in Q. rewrite U3, orb_false_r in Q. apply orb_true_iff in Q.
      assert (HN : forall x : str, under (x :: p) q = true -> under q (http_dir p) = true -> x = lit "resources").
      { intros x U V. pose proof (under_trans _ _ _ U V) as W. apply under_cons_cases in W. destruct W as [W|W]; [apply (f_equal (@length str)) in W; cbn in W; lia|]. apply under_cons_cases in W. destruct W as [W|W]; [injection W as ->; reflexivity|]. apply under_len in W. cbn in W. lia. }
      destruct (B3 q) as [X3|(X3 & Y3 & Z3)].
      * rewrite X3, lookup_remove_tree. destruct (under (builds_dir p) q) eqn:U2; [reflexivity|]. destruct Q as [Q|Q]; [|discriminate].
        destruct (B2 q) as [X2|(X2 & Y2 & Z2)]; [rewrite X2, lookup_remove_tree, Q; reflexivity|]. exfalso. pose proof (under_trans _ _ _ Q Z2) as W. rewrite (proj1 (HD [])) in W. discriminate.
      * exfalso. destruct Q as [Q|Q]; apply (HN _ Q) in Z3; discriminate.
    + destruct (K q Q) as [X|(X & Y & Z)].
      * rewrite X in *. destruct (B1 q) as [W|(W & V)].
        -- rewrite W in *. destruct (B0 q) as [V|(V & V2 & V3)]; [congruence|]. left. split; [exact V2|]. left. apply under_trans with p; [exact V3|]. apply under_trans with (lit "etc" :: p); apply under_cons.
        -- destruct V as [[V1 V2]|V]; [left; auto|right; exact V].
      * left. split; [exact Y|]. destruct Z as [Z|Z]; [left|right; exact Z]. apply under_trans with p; [exact Z|]. apply under_trans with (lit "etc" :: p); apply under_cons.
  - destruct (K (repos_config p)) as [X|(X & _)]; [apply CF; auto|rewrite X; exact R1|contradiction].
Qed.
Lemma mkdirs_files : forall p f f' q s, mkdirs f p = Ok f' -> lookup f' q = Some (File s) -> lookup f q = Some (File s).
Proof. intros p f f' q s H L. destruct (mkdirs_spec p f f' H) as [_ B]. destruct (B q) as [X|(_ & X & _)]; congruence. Qed.
Lemma clean_ok : forall initial h f, (forall q s, under q (config_dir h) = true \/ under q (builds_dir h) = true \/ under q (http_dir h) = true -> lookup f q <> Some (File s)) ->
  exists f', clean_cache initial (HPath h) f = Ok f'.
Proof.
  intros initial h f H. unfold clean_cache, use_home.
  assert (UC : forall q, under q h = true -> under q (config_dir h) = true) by (intros q U; apply under_trans with h; [exact U|]; apply under_trans with (lit "etc" :: h); apply under_cons).
  destruct (mkdirs_ok h f) as [f0 M0]; [intros q s U; apply H; auto|]. rewrite M0. cbn [bind fst snd].
  assert (OL : exists f1, open_loader initial h f0 = Ok f1 /\ forall q s, lookup f1 q = Some (File s) -> lookup f q = Some (File s) \/ q = repos_config h).
  { unfold open_loader. destruct (exists_at f0 (repos_config h)); [exists f0; split; [reflexivity|]; intros q s L; left; apply (mkdirs_files _ _ _ _ _ M0 L)|].
    destruct (mkdirs_ok (config_dir h) f0) as [g MG]; [intros q s U L; apply (mkdirs_files _ _ _ _ _ M0) in L; apply (H q s); auto|]. rewrite MG. cbn [bind]. eexists. split; [reflexivity|]. intros q s. rewrite lookup_write. destruct (path_eqb q (repos_config h)) eqn:E; [right; apply path_eqb_eq, E|].
    intro L. left. apply (mkdirs_files _ _ _ _ _ M0), (mkdirs_files _ _ _ _ _ MG), L. }
  destruct OL as (f1 & O1 & F1). rewrite O1. cbn [bind].
  assert (NR : forall q, under q (builds_dir h) = true \/ under q (http_dir h) = true -> q <> repos_config h).
  { intros q [U|U] ->; apply under_len in U; cbn [length repos_config config_dir builds_dir http_dir] in U; lia. }
  destruct (mkdirs_ok (builds_dir h) (remove_tree f1 (repos_dir h))) as [f2 M2].
  { intros q s U L. rewrite lookup_remove_tree in L. destruct (under (repos_dir h) q); [discriminate|]. destruct (F1 q s L) as [X|X]; [apply (H q s); auto|apply (NR q); auto]. }
  rewrite M2. cbn [bind]. destruct (mkdirs_ok (http_dir h) (remove_tree f2 (builds_dir h))) as [f3 M3].
  { intros q s U L. rewrite lookup_remove_tree in L. destruct (under (builds_dir h) q); [discriminate|]. apply (mkdirs_files _ _ _ _ _ M2) in L. rewrite lookup_remove_tree in L. destruct (under (repos_dir h) q); [discriminate|]. destruct (F1 q s L) as [X|X]; [apply (H q s); auto|apply (NR q); auto]. }
  rewrite M3. cbn [bind]. eauto.
Qed.
Lemma resolve_plain : forall l p, ~ In (lit "..") l -> resolve_from p l = rev l ++ p.
Proof.
  intros l. induction l as [|c l IH]; intros p N; [reflexivity|]. cbn [resolve_from]. destruct (str_eqb c (lit "..")) eqn:E; [apply str_eqb_eq in E; subst c; exfalso; apply N; left; reflexivity|].
  rewrite IH by (intro I; apply N; right; exact I). cbn [rev]. rewrite <- app_assoc. reflexivity.
Qed.
Lemma parts_absolute : forall l, l <> [] -> (forall c, In c l -> c <> [] /\ c <> lit "." /\ ~ In "/"%char c) -> path_parts ("/"%char :: join (lit "/") l) = l.
Proof.
  intros l N H. unfold path_parts. cbn [split_on]. rewrite Ascii.eqb_refl. change (lit "/") with ["/"%char]. rewrite split_join; [|exact N|intros w I; apply (H w I)]. cbn [filter str_eqb negb orb].
  clear N. induction l as [|c l IH]; [reflexivity|]. cbn [filter]. destruct (H c (or_introl eq_refl)) as (A & B & _). apply str_eqb_neq in A, B. rewrite A, B. cbn [orb negb]. rewrite IH; [reflexivity|]. intros w I. apply H. right. exact I.
Qed.
