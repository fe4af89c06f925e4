(** Proofs about the installation of conda packages. *)
From Coq Require Import String Ascii List Bool NArith Arith Lia.
From Verif Require Import Base BaseFacts ParserModel FsModel FsFacts FilesModel FilesProofs CopyTxModel CopyTxSpec CopyTxProofs ArtifactModel ArtifactProofs
  RecordFileModel RecordFileProofs InstallModel WheelModel WheelSpec WheelProofs WheelInstallProofs ParserFacts MarkerProofs CondaInstallModel CondaInstallSpec.
Import ListNotations.
Open Scope string_scope. Open Scope nat_scope. Open Scope list_scope. Open Scope bool_scope.

(** ** Paths *)
Lemma at_proper : forall r base, Forall proper r -> at_parts base r = rev r ++ base.
Proof.
  induction r as [|c r IH]; intros base P; [reflexivity|]. inversion P as [|? ? C R]; subst. unfold at_parts in *. cbn [fold_left rev]. rewrite IH by exact R.
  rewrite <- app_assoc. cbn [app]. f_equal. destruct C as (C1 & _ & C2 & C3). unfold resolve_component.
  rewrite (proj2 (str_eqb_neq c (lit "")) C1), (proj2 (str_eqb_neq c (lit ".")) C2), (proj2 (str_eqb_neq c (lit "..")) C3). reflexivity.
Qed.
Lemma parts_proper : forall r, r <> [] -> Forall proper r -> path_parts (join "/" r) = r.
Proof.
  intros r N P. unfold path_parts. change (lit "/") with ["/"%char]. rewrite split_join; [|exact N|intros x X; rewrite Forall_forall in P; apply (P x X)].
  clear N. induction P as [|c r C R IH]; [reflexivity|]. cbn [filter]. destruct C as (C1 & _ & C2 & _).
  rewrite (proj2 (str_eqb_neq c (lit "")) C1), (proj2 (str_eqb_neq c (lit ".")) C2). cbn [orb negb]. f_equal. exact IH.
Qed.
Lemma relative_proper : forall r, r <> [] -> Forall proper r -> is_absolute (join "/" r) = false.
Proof.
  intros [|c r] N P; [congruence|]. inversion P as [|? ? (C1 & C2 & _) R]; subst. destruct c as [|x c]; [congruence|].
  assert (X : x <> "/"%char) by (intros ->; apply C2; left; reflexivity).
  assert (E : exists z, join (lit "/") ((x :: c) :: r) = x :: z) by (destruct r; cbn; eexists; reflexivity). destruct E as (z & E).
  change (is_absolute (join (lit "/") ((x :: c) :: r)) = false). rewrite E. unfold is_absolute. destruct x as [[] [] [] [] [] [] [] []]; try reflexivity. congruence.
Qed.
Lemma fold_parts : forall l base, fold_left resolve_component l base = fold_left resolve_component (filter (fun c => negb (str_eqb c "" || str_eqb c ".")) l) base.
Proof.
  induction l as [|c l IH]; intro base; [reflexivity|]. cbn [fold_left filter]. destruct (str_eqb c "" || str_eqb c ".") eqn:E; cbn [negb].
  - replace (resolve_component base c) with base by (unfold resolve_component; rewrite E; reflexivity). apply IH.
  - cbn [fold_left]. apply IH.
Qed.
Lemma drop_prefix_some : forall a l k, drop_prefix a l = Some k -> l = a ++ k.
Proof.
  induction a as [|x a IH]; intros l k H; [injection H as <-; reflexivity|]. destruct l as [|y l]; [discriminate|]. cbn [drop_prefix] in H.
  destruct (str_eqb x y) eqn:E; [|discriminate]. apply str_eqb_eq in E. subst y. cbn [app]. f_equal. apply IH, H.
Qed.
(** a signature is found under the path of its file *)
Lemma key_place : forall tmp s k, Forall proper tmp -> key_of tmp s = Ok k -> resolve_record tmp s = at_parts tmp k.
Proof.
  intros tmp s k P H. unfold key_of in H. unfold at_parts. assert (A : forall b, fold_left resolve_component (split_on "/" s) b = fold_left resolve_component (path_parts s) b) by (intro b; apply fold_parts).
  destruct (is_absolute s) eqn:E.
  - destruct (drop_prefix (rev tmp) (path_parts s)) as [l|] eqn:D; [|discriminate]. injection H as <-. apply drop_prefix_some in D.
    assert (R : resolve_record tmp s = fold_left resolve_component (split_on "/" s) []).
    { destruct s as [|c s]; [discriminate|]. unfold is_absolute in E. unfold resolve_record. destruct c as [[] [] [] [] [] [] [] []]; try discriminate. reflexivity. }
    rewrite R, A, D, fold_left_app. f_equal. pose proof (at_proper (rev tmp) [] (Forall_rev P)) as X. unfold at_parts in X. rewrite X, rev_involutive, app_nil_r. reflexivity.
  - injection H as <-. rewrite <- A. unfold is_absolute in E. unfold resolve_record. destruct s as [|c s]; [reflexivity|].
    destruct c as [[] [] [] [] [] [] [] []]; try reflexivity. discriminate.
Qed.

(** ** The way from one path to another does not depend on where both are *)
Lemma mem_parents : forall p d, path_mem p (parents d) = true <-> exists c r, d = c :: r ++ p.
Proof. intros. rewrite path_mem_iff. apply in_parents. Qed.
Lemma loop_moved : forall s r a b n back, r <> [] -> length (s ++ a) <= n ->
  exists d k, path_to_loop n (s ++ a) (parents (r ++ a)) back = Some (d ++ a, k) /\ forall m, length (s ++ b) <= m -> path_to_loop m (s ++ b) (parents (r ++ b)) back = Some (d ++ b, k) /\ exists e, r = e ++ d.
Proof.
  intros s r a b n back N. revert n back.
  assert (M : forall x (y : path), path_mem (x ++ y) (parents (r ++ y)) = path_mem x (parents r)).
  { intros x y. apply Bool.eq_iff_eq_true. rewrite !mem_parents. split; intros (c & z & E); exists c, z.
    - change (c :: z ++ x ++ y) with ((c :: z) ++ x ++ y) in E. rewrite app_assoc in E. apply app_inv_tail in E. exact E.
    - rewrite E. cbn [app]. rewrite <- app_assoc. reflexivity. }
  induction s as [|c s IH]; intros n back L.
  - exists [], back. assert (X : path_mem [] (parents r) = true).
    { apply mem_parents. destruct r as [|c r]; [congruence|]. exists c, r. rewrite app_nil_r. reflexivity. }
    assert (G : forall y m, path_to_loop m ([] ++ y) (parents (r ++ y)) back = Some ([] ++ y, back)).
    { intros y m. destruct m; cbn [path_to_loop]; rewrite (M [] y), X; reflexivity. }
    split; [apply G|]. intros m Lm. split; [apply G|]. exists r. rewrite app_nil_r. reflexivity.
  - destruct (path_mem (c :: s) (parents r)) eqn:X.
    + exists (c :: s), back. assert (G : forall y m, path_to_loop m ((c :: s) ++ y) (parents (r ++ y)) back = Some ((c :: s) ++ y, back)).
      { intros y m. destruct m; cbn [path_to_loop]; rewrite (M (c :: s) y), X; reflexivity. }
      split; [apply G|]. intros m Lm. split; [apply G|]. apply mem_parents in X. destruct X as (x & z & ->). exists (x :: z). reflexivity.
    + destruct n as [|n]; [cbn in L; lia|]. cbn [path_to_loop]. rewrite (M (c :: s) a), X. cbn [app parent tl]. cbn [app length] in L.
      destruct (IH n (S back) ltac:(lia)) as (d & k & A & B). exists d, k. split; [exact A|]. intros m Lm. destruct m as [|m]; [cbn in Lm; lia|].
      change (c :: s ++ b) with ((c :: s) ++ b) at 1. cbn [path_to_loop]. rewrite (M (c :: s) b), X. cbn [app parent tl]. apply B. cbn in Lm. lia.
Qed.
Lemma path_to_moved : forall s r a b, r <> [] -> path_to (length (s ++ a)) (s ++ a) (r ++ a) = path_to (length (s ++ b)) (s ++ b) (r ++ b).
Proof.
  intros s r a b N. unfold path_to. destruct (loop_moved s r a b (length (s ++ a)) 0 N (le_n _)) as (d & k & A & B). destruct (B _ (le_n _)) as (C & e & ->).
  rewrite A, C. rewrite <- !app_assoc, !rel_to_app. reflexivity.
Qed.

(** ** The directory that is moved *)
Lemma python_dir_iff : forall n, is_python_dir n = true <-> python_name n.
Proof.
  intro n. unfold is_python_dir, python_name. rewrite andb_true_iff, starts_with_iff. split.
  - intros ((r & ->) & H). change (skipn 6 (lit "python" ++ r)) with r in H. destruct (span is_digit r) as [a b] eqn:S. apply span_split in S. destruct S as (-> & A & _).
    destruct a as [|x a]; [discriminate|]. destruct b as [|d b]; [discriminate|]. destruct (Ascii.eqb d ".") eqn:D.
    + apply Ascii.eqb_eq in D. subst d. destruct b as [|c b]; [discriminate|]. exists (x :: a), c, b. split; [discriminate|]. split; [apply Forall_forall; apply forallb_forall; exact A|]. split; [exact H|reflexivity].
    + exfalso. apply Ascii.eqb_neq in D. destruct d as [[] [] [] [] [] [] [] []]; try discriminate. apply D. reflexivity.
  - intros (a & c & r & N & A & C & ->). split; [eexists; reflexivity|]. change (skipn 6 (lit "python" ++ a ++ lit "." ++ c :: r)) with (a ++ lit "." ++ c :: r).
    rewrite span_app; [|apply forallb_forall; apply Forall_forall; exact A|reflexivity]. destruct a as [|x a]; [congruence|]. exact C.
Qed.
Lemma names_in_iff : forall w d n, In n (names_in w d) <-> lookup w (n :: d) <> None.
Proof.
  intros w d n. unfold names_in. rewrite in_flat_map. split.
  - intros ([[|m p] x] & I & J); [destruct J|]. cbn [fst] in J. destruct (path_eqb p d) eqn:E; [|destruct J]. destruct J as [<-|[]]. apply path_eqb_eq in E. subst p. eapply in_lookup; exact I.
  - intro H. destruct (lookup w (n :: d)) as [x|] eqn:L; [|congruence]. apply lookup_in in L. exists (n :: d, x). split; [exact L|]. cbn [fst]. rewrite path_eqb_refl. left. reflexivity.
Qed.
Lemma proper_no_dots : forall r, Forall proper r -> existsb (str_eqb "..") r = false.
Proof.
  induction 1 as [|c r C R IH]; [reflexivity|]. cbn [existsb]. rewrite IH, orb_false_r. apply str_eqb_neq. intro E. destruct C as (_ & _ & _ & C). apply C. symmetry. exact E.
Qed.
Section Relocation.
  Variables (w w' : fs) (tmp data : path) (pylib : str).
  Hypothesis T : tidy_package w tmp pylib.
  Hypothesis M : moved w tmp pylib = Ok w'.
  Notation reloc := (relocate w tmp pylib).
  Lemma reloc_cases :
    ((forall r, reloc r = r) /\ w' = w /\ forall r n rest, versioned w tmp r n rest -> pylib = lit "lib" \/ n = pylib) \/
    (exists n, python_name n /\ lib_has w tmp n /\ ~ lib_has w tmp pylib /\ pylib <> lit "lib" /\
       w' = graft (remove_tree w (n :: lit "lib" :: tmp)) (pylib :: lit "lib" :: tmp) (tree_at w (n :: lit "lib" :: tmp)) /\
       (forall rest, rest <> [] -> Forall proper rest -> lookup w (rev rest ++ n :: lit "lib" :: tmp) <> None -> Forall proper (lit "lib" :: n :: rest) -> reloc (lit "lib" :: n :: rest) = lit "lib" :: pylib :: rest) /\
       (forall r, (forall rest, rest <> [] -> r <> lit "lib" :: n :: rest) -> reloc r = r)).
  Proof.
    unfold moved in M. unfold relocate. unfold relocated_dir in *. destruct (exists_at w (lit "lib" :: tmp) && negb (str_eqb "lib" pylib)) eqn:E.
    - destruct (find is_python_dir (names_in w (lit "lib" :: tmp))) as [n|] eqn:F.
      + pose proof (find_some _ _ F) as [I P]. apply python_dir_iff in P. apply names_in_iff in I. apply andb_true_iff in E. destruct E as [_ E]. apply negb_true_iff, str_eqb_neq in E.
        destruct (str_eqb n pylib) eqn:Q.
        * apply str_eqb_eq in Q. subst n. left. split; [|split].
          -- intros [|lb [|x [|c r]]]; try reflexivity. destruct (str_eqb lb "lib" && str_eqb x pylib && _ && _) eqn:C; [|reflexivity].
             rewrite !andb_true_iff in C. destruct C as [[[C1 C2] _] _]. apply str_eqb_eq in C1, C2. subst. reflexivity.
          -- unfold move in M. rewrite path_eqb_refl in M. injection M as <-. reflexivity.
          -- intros r n rest (_ & _ & Pn & Hn). right. exact (tp_one _ _ _ T n pylib Pn P Hn I).
        * apply str_eqb_neq in Q. right. exists n. destruct (tp_free _ _ _ T n P I) as [X|NL]; [congruence|]. split; [exact P|]. split; [exact I|]. split; [exact NL|]. split; [intro X; apply E; symmetry; exact X|].
          split; [|split].
          -- unfold move in M. destruct (path_eqb _ _) eqn:PE in M; [apply path_eqb_eq in PE; congruence|]. destruct (lookup w (pylib :: lit "lib" :: tmp)) eqn:L in M; [exfalso; apply NL; unfold lib_has; rewrite L; discriminate|].
             injection M as <-. reflexivity.
          -- intros rest N PR L PL. destruct rest as [|c r]; [congruence|]. rewrite !str_eqb_refl, (proper_no_dots _ PR). rewrite at_proper by exact PL. cbn [andb negb].
             replace (rev (lit "lib" :: n :: c :: r) ++ tmp) with (rev (c :: r) ++ n :: lit "lib" :: tmp) by (cbn [rev]; rewrite <- !app_assoc; reflexivity).
             rewrite (proj2 (exists_at_true _ _) L). reflexivity.
          -- intros [|lb [|x [|c r]]] N; try reflexivity. destruct (str_eqb lb "lib" && str_eqb x n && _ && _) eqn:C; [|reflexivity].
             rewrite !andb_true_iff in C. destruct C as [[[C1 C2] _] _]. apply str_eqb_eq in C1, C2. subst. exfalso. exact (N (c :: r) ltac:(discriminate) eq_refl).
      + left. injection M as <-. split; [intros [|lb [|x [|c r]]]; reflexivity|]. split; [reflexivity|]. intros r n rest (_ & _ & P & L). exfalso.
        pose proof (find_none _ _ F n (proj2 (names_in_iff _ _ _) L)) as X. rewrite (proj2 (python_dir_iff n) P) in X. discriminate.
    - left. injection M as <-. split; [intros [|lb [|x [|c r]]]; reflexivity|]. split; [reflexivity|]. intros r n rest (_ & _ & P & L). left. apply andb_false_iff in E. destruct E as [E|E].
      + exfalso. apply exists_at_false in E. pose proof (wf_above w [n] (lit "lib" :: tmp) (tp_wf _ _ _ T) L ltac:(discriminate)). congruence.
      + apply negb_false_iff, str_eqb_eq in E. symmetry. exact E.
  Qed.
  (** what is there after the move, for the files that were there before *)
  Lemma reloc_spec : forall r s, Forall proper r -> lookup w (rev r ++ tmp) <> None -> lookup w' (rev (reloc r) ++ tmp) = Some (File s) ->
    packaged w tmp r s /\ Forall proper (reloc r) /\ home w tmp data pylib r (rev (reloc r) ++ data).
  Proof.
    intros r s P L H. destruct reloc_cases as [(R & -> & V)|(n & PN & LN & NL & NE & -> & R1 & R2)].
    - rewrite R in *. split; [exact H|]. split; [exact P|]. destruct (Bool.bool_dec (str_eqb pylib "lib") true) as [Q|Q].
      + apply str_eqb_eq in Q. apply home_data. intros; exact Q.
      + assert (QN : pylib <> lit "lib") by (intro X; apply Q, str_eqb_eq; exact X).
        destruct r as [|lb [|x rest]]; try (apply home_data; intros n rest' (E & N & _); discriminate).
        destruct (is_python_dir x) eqn:PX.
        * apply python_dir_iff in PX. destruct rest as [|c rest]; [apply home_data; intros n rest' (E & N & _); injection E as _ _ <-; congruence|].
          destruct (str_eqb lb "lib") eqn:LB.
          -- apply str_eqb_eq in LB. subst lb. assert (LX : lib_has w tmp x).
             { unfold lib_has. rewrite (wf_above w (rev (c :: rest)) (x :: lit "lib" :: tmp) (tp_wf _ _ _ T)); [discriminate| |].
               - replace (rev (c :: rest) ++ x :: lit "lib" :: tmp) with (rev (lit "lib" :: x :: c :: rest) ++ tmp) by (cbn [rev]; rewrite <- !app_assoc; reflexivity). exact L.
               - intro X. apply (f_equal (@rev str)) in X. rewrite rev_involutive in X. discriminate. }
             assert (VX : versioned w tmp (lit "lib" :: x :: c :: rest) x (c :: rest)) by (split; [reflexivity|]; split; [discriminate|]; split; assumption).
             destruct (V _ _ _ VX) as [X|X]; [congruence|subst x].
             replace (rev (lit "lib" :: pylib :: c :: rest) ++ data) with (rev (c :: rest) ++ pylib :: lit "lib" :: data) by (cbn [rev]; rewrite <- !app_assoc; reflexivity).
             eapply home_lib; [exact VX|exact QN].
          -- apply home_data. intros n rest' (E & _). injection E as -> _ _. rewrite str_eqb_refl in LB. discriminate.
        * apply home_data. intros n rest' (E & _ & PN & _). injection E as _ -> _. apply (proj2 (python_dir_iff n)) in PN. congruence.
    - assert (C : (exists rest, rest <> [] /\ r = lit "lib" :: n :: rest) \/ forall rest, rest <> [] -> r <> lit "lib" :: n :: rest).
      { destruct r as [|a [|b [|c rest]]]; try (right; intros rest' N E; discriminate); [right; intros rest' N E; injection E as _ _ <-; congruence|].
        destruct (str_eqb a "lib") eqn:EA; [|right; intros rest' N E; injection E as -> _ _; rewrite str_eqb_refl in EA; discriminate]. destruct (str_eqb b n) eqn:EB; [|right; intros rest' N E; injection E as _ -> _; rewrite str_eqb_refl in EB; discriminate].
        apply str_eqb_eq in EA, EB. subst. left. exists (c :: rest). split; [discriminate|reflexivity]. }
      destruct C as [(rest & N & ->)|C].
      + assert (PR : Forall proper rest) by (inversion P as [|? ? _ P1]; subst; inversion P1; subst; assumption).
        assert (L' : lookup w (rev rest ++ n :: lit "lib" :: tmp) <> None) by (replace (rev rest ++ n :: lit "lib" :: tmp) with (rev (lit "lib" :: n :: rest) ++ tmp) by (cbn [rev]; rewrite <- !app_assoc; reflexivity); exact L).
        rewrite (R1 rest N PR L' P) in *.
        replace (rev (lit "lib" :: pylib :: rest) ++ tmp) with (rev rest ++ pylib :: lit "lib" :: tmp) in H by (cbn [rev]; rewrite <- !app_assoc; reflexivity).
        rewrite lookup_graft, under_app, rel_to_app, lookup_tree_at in H.
        destruct (lookup w (rev rest ++ n :: lit "lib" :: tmp)) as [x|] eqn:LX; [|congruence]. injection H as ->. split; [|split].
        * unfold packaged. replace (rev (lit "lib" :: n :: rest) ++ tmp) with (rev rest ++ n :: lit "lib" :: tmp) by (cbn [rev]; rewrite <- !app_assoc; reflexivity). exact LX.
        * inversion P as [|? ? A P1]; subst. constructor; [exact A|]. constructor; [exact (tp_pylib _ _ _ T)|exact PR].
        * replace (rev (lit "lib" :: pylib :: rest) ++ data) with (rev rest ++ pylib :: lit "lib" :: data) by (cbn [rev]; rewrite <- !app_assoc; reflexivity).
          apply (home_lib _ _ _ _ _ n); [|exact NE]. split; [reflexivity|]. split; [exact N|]. split; assumption.
      + rewrite (R2 r C) in *. split; [|split; [exact P|]].
        * rewrite lookup_graft in H. destruct (under (pylib :: lit "lib" :: tmp) (rev r ++ tmp)) eqn:U.
          -- exfalso. apply NL. exact (wf_under w _ _ (tp_wf _ _ _ T) U L).
          -- rewrite lookup_remove_tree in H. destruct (under (n :: lit "lib" :: tmp) (rev r ++ tmp)); [discriminate|exact H].
        * apply home_data. intros m rest (E & N & PM & LM). exfalso. apply (C rest N). rewrite E. f_equal. f_equal. exact (tp_one _ _ _ T m n PM PN LM LN).
  Qed.
  (** no file lands on or below another one *)
  Lemma reloc_apart : forall r1 r2 s1 s2, Forall proper r1 -> Forall proper r2 -> packaged w tmp r1 s1 -> packaged w tmp r2 s2 -> r1 <> [] ->
    under (rev (reloc r1) ++ data) (rev (reloc r2) ++ data) = true -> r1 = r2.
  Proof.
    intros r1 r2 s1 s2 P1 P2 H1 H2 N1 U. apply under_iff in U. destruct U as (x & U). rewrite app_assoc in U. apply app_inv_tail in U.
    assert (APART : forall a b sa sb y base, lookup w (rev a ++ base) = Some (File sa) -> lookup w (rev b ++ base) = Some (File sb) -> rev b = y ++ rev a -> a = b).
    { intros a b sa sb y base A B E. destruct y as [|c y]; [cbn in E; apply (f_equal (@rev str)) in E; rewrite !rev_involutive in E; symmetry; exact E|]. exfalso.
      rewrite E, <- app_assoc in B. rewrite (wf_above w (c :: y) (rev a ++ base) (tp_wf _ _ _ T)) in A; [discriminate|congruence|discriminate]. }
    unfold packaged in *. destruct reloc_cases as [(R & _ & _)|(n & PN & LN & NL & NE & _ & R1 & R2)].
    - rewrite !R in U. exact (APART _ _ _ _ _ _ H1 H2 U).
    - assert (C : forall r, (exists rest, rest <> [] /\ r = lit "lib" :: n :: rest) \/ forall rest, rest <> [] -> r <> lit "lib" :: n :: rest).
      { intros [|a [|b [|c rest]]]; try (right; intros rest' N E; discriminate); [right; intros rest' N E; injection E as _ _ <-; congruence|].
        destruct (str_eqb a "lib") eqn:EA; [|right; intros rest' N E; injection E as -> _ _; rewrite str_eqb_refl in EA; discriminate]. destruct (str_eqb b n) eqn:EB; [|right; intros rest' N E; injection E as _ -> _; rewrite str_eqb_refl in EB; discriminate].
        apply str_eqb_eq in EA, EB. subst. left. exists (c :: rest). split; [discriminate|reflexivity]. }
      assert (SH : forall q rest base, rev (lit "lib" :: q :: rest) ++ base = rev rest ++ q :: lit "lib" :: base) by (intros; cbn [rev]; rewrite <- !app_assoc; reflexivity).
      assert (IN : forall rest s, rest <> [] -> Forall proper (lit "lib" :: n :: rest) -> lookup w (rev (lit "lib" :: n :: rest) ++ tmp) = Some (File s) -> reloc (lit "lib" :: n :: rest) = lit "lib" :: pylib :: rest).
      { intros rest s N P H. apply R1; [exact N|inversion P as [|? ? _ Q]; subst; inversion Q; subst; assumption|rewrite <- SH, H; discriminate|exact P]. }
      destruct (C r1) as [(a & NA & ->)|C1], (C r2) as [(b & NB & ->)|C2].
      + rewrite (IN a s1 NA P1 H1), (IN b s2 NB P2 H2) in U. cbn [rev] in U. rewrite !app_assoc in U. apply app_inj_tail in U. destruct U as [U _]. apply app_inj_tail in U. destruct U as [U _].
        rewrite SH in H1, H2. f_equal. f_equal. exact (APART _ _ _ _ _ _ H1 H2 U).
      + exfalso. apply NL. rewrite (IN a s1 NA P1 H1), (R2 r2 C2) in U. rewrite U, <- app_assoc, SH in H2. rewrite app_assoc in H2. unfold lib_has.
        rewrite (wf_above w (x ++ rev a) (pylib :: lit "lib" :: tmp) (tp_wf _ _ _ T)); [discriminate|intro Z; pose proof (eq_trans (eq_sym Z) H2); discriminate|]. intro Z. apply app_eq_nil in Z. destruct Z as [_ Z].
        apply (f_equal (@rev str)) in Z. rewrite rev_involutive in Z. exact (NA Z).
      + exfalso. rewrite (R2 r1 C1), (IN b s2 NB P2 H2) in U. apply (f_equal (@rev str)) in U. rewrite rev_involutive, rev_app_distr, rev_involutive in U.
        destruct r1 as [|l1 [|l2 l3]]; [congruence| |].
        * cbn [app] in U. assert (X : l1 = lit "lib") by congruence. subst l1. cbn [rev app] in H1. assert (D : lookup w (lit "lib" :: tmp) = Some Dir); [|pose proof (eq_trans (eq_sym D) H1); discriminate].
          exact (wf_above w [n] (lit "lib" :: tmp) (tp_wf _ _ _ T) LN ltac:(discriminate)).
        * cbn [app] in U. assert (X1 : l1 = lit "lib") by congruence. assert (X2 : l2 = pylib) by congruence. subst l1 l2. rewrite SH in H1. apply NL. unfold lib_has. destruct l3 as [|c l3].
          -- cbn [rev app] in H1. congruence.
          -- rewrite (wf_above w (rev (c :: l3)) (pylib :: lit "lib" :: tmp) (tp_wf _ _ _ T)); [discriminate|intro Z; pose proof (eq_trans (eq_sym Z) H1); discriminate|]. intro Z. apply (f_equal (@rev str)) in Z. rewrite rev_involutive in Z. discriminate.
      + rewrite (R2 r1 C1), (R2 r2 C2) in U. exact (APART _ _ _ _ _ _ H1 H2 U).
  Qed.
End Relocation.

(** ** Checking the hashes *)
Section Checks.
  Variables (h : hashlib) (hexdigest : str -> str) (w : fs) (tmp : path).
  Lemma verify_spec : forall l acc signed, verify_paths h hexdigest w tmp l acc = Ok signed ->
    (forall s sha, In (s, sha) l -> exists c, lookup w (resolve_record tmp s) = Some (File c) /\ hexdigest c = sha) /\
    (forall k v, sig_get k signed = Some v -> sig_get k acc = Some v \/ exists s sha c g, In (s, sha) l /\ key_of tmp s = Ok k /\
       lookup w (resolve_record tmp s) = Some (File c) /\ hexdigest c = sha /\ h (lit "sha256") = Some g /\ v = Sig "sha256" (g c)).
  Proof.
    induction l as [|[s sha] l IH]; intros acc signed H; cbn [verify_paths] in H; [injection H as <-; split; [intros s sha []|auto]|].
    destruct (lookup w (resolve_record tmp s)) as [[c|]|] eqn:L; try discriminate. destruct (str_eqb (hexdigest c) sha) eqn:E; [|discriminate]. apply str_eqb_eq in E.
    destruct (h (lit "sha256")) as [g|] eqn:G; [|discriminate]. destruct (key_of tmp s) as [k|] eqn:K; [|discriminate]. cbn [bind] in H.
    destruct (IH _ _ H) as [A B]. split.
    - intros s' sha' [I|I]; [injection I as <- <-; eauto|apply A; exact I].
    - intros k' v X. destruct (B k' v X) as [Y|(s' & sha' & c' & g' & I & Y)].
      + cbn [sig_get] in Y. destruct (path_eqb k' k) eqn:Q; [|left; exact Y]. apply path_eqb_eq in Q. subst k'. injection Y as <-. right. exists s, sha, c, g. split; [left; reflexivity|]. auto 6.
      + right. exists s', sha', c', g'. split; [right; exact I|exact Y].
  Qed.
End Checks.

(** ** Copying *)
Lemma dirs_go : forall b t p b' t', syscall b t (on_disk t (make_dirs (fsys t) p)) = Go b' t' ->
  frame no_path (fsys t) (fsys t') /\ lookup (fsys t') p = Some Dir /\ copied t' = copied t /\ backups t' = backups t /\ make_dirs (fsys t) p = Some (fsys t').
Proof.
  intros b t p b' t' H. apply syscall_go in H. unfold on_disk in H. destruct (make_dirs (fsys t) p) as [g|] eqn:M; [|discriminate]. injection H as <-.
  destruct (make_dirs_spec _ _ _ M) as (A & B & _). cbn [set_fs fsys copied backups]. auto.
Qed.
Section Lines.
  Variables (w : fs) (tmp data site_in : path) (signed : sigs) (reloc : list str -> list str).
  (** a line of the list of files, with its signature, the name it has in the RECORD, its target and its content *)
  Definition line_ok (l : str) (sig : signature) (k : str) (dst : path) (s : str) : Prop :=
    is_absolute l = false /\ sig_get (path_parts l) signed = Some sig /\
    (exists x, path_to (length site_in) site_in (at_parts tmp (reloc (path_parts l))) = Some x /\ k = join "/" x) /\
    dst = at_parts data (reloc (path_parts l)) /\ lookup w (at_parts tmp (reloc (path_parts l))) = Some (File s).
  Definition lands (lines : list str) (p : path) : Prop := exists l sig k s, In l lines /\ line_ok l sig k p s.
  Lemma line_fun : forall l sig k dst s sig' k' dst' s', line_ok l sig k dst s -> line_ok l sig' k' dst' s' -> sig = sig' /\ k = k' /\ dst = dst' /\ s = s'.
  Proof.
    intros l sig k dst s sig' k' dst' s' (_ & A & (x & B & ->) & C & D) (_ & A' & (x' & B' & ->) & C' & D').
    split; [congruence|]. split; [|split; congruence]. f_equal. congruence.
  Qed.
  Lemma lines_spec : forall lines pre created b t b' t' pre', copy_lines w tmp data site_in signed reloc lines pre created b t = (Go b' t', pre') ->
    (forall l, In l lines -> exists sig k dst s, line_ok l sig k dst s) /\
    same_tx (lands lines) t t' /\
    (forall p, lands lines p -> In p (copied t')) /\
    (forall q, In q (copied t') -> In q (copied t) \/ exists p, lands lines p /\ under q p = true) /\
    (forall p s, (forall l sig k q x, In l lines -> line_ok l sig k q x -> under q p = true -> q = p /\ x = s) ->
       lookup (fsys t) p = Some (File s) \/ lands lines p -> lookup (fsys t') p = Some (File s)) /\
    (forall k, dict_get k pre <> None \/ (exists l sig dst s, In l lines /\ line_ok l sig k dst s) -> dict_get k pre' <> None) /\
    (forall k v, dict_get k pre' = Some v -> dict_get k pre = Some v \/ exists l dst s, In l lines /\ line_ok l v k dst s).
  Proof.
    induction lines as [|l lines IH]; intros pre created b t b' t' pre' H; cbn [copy_lines] in H.
    - injection H as <- <- <-. split; [intros l []|]. split; [apply same_refl|]. split; [intros p (l & _ & _ & _ & [] & _)|]. split; [auto|]. split; [intros p s _ [X|(l & _ & _ & _ & [] & _)]; exact X|]. split; [intros k [X|(l & _ & _ & _ & [] & _)]; exact X|auto].
    - destruct (is_absolute l) eqn:AB; [discriminate|]. destruct (sig_get (path_parts l) signed) as [sig|] eqn:SG; [|discriminate].
      destruct (path_to (length site_in) site_in (at_parts tmp (reloc (path_parts l)))) as [x|] eqn:PT; [|discriminate].
      set (dst := at_parts data (reloc (path_parts l))) in *.
      destruct (and_then _ _) as [b1 t1|t1] eqn:O in H; [|discriminate]. apply and_then_go in O. destruct O as (b0 & t0 & O1 & O2).
      assert (A0 : frame no_path (fsys t) (fsys t0) /\ copied t0 = copied t).
      { destruct (path_mem (tl dst) created); [injection O1 as <- <-; split; [apply frame_refl|reflexivity]|]. apply dirs_go in O1. tauto. }
      destruct A0 as [A0 C0].
      destruct (lookup w (at_parts tmp (reloc (path_parts l)))) as [[s|]|] eqn:LW; cbn [copy_node] in O2.
      2: { discriminate. }
      2: { apply and_then_go in O2. destruct O2 as (b2 & t2 & _ & O2). apply and_then_go in O2. destruct O2 as (b3 & t3 & _ & O2). discriminate. }
      destruct (copy_frame _ _ _ _ _ _ O2) as ((F1 & I1) & AD & CP & LK).
      assert (OK : line_ok l sig (join "/" x) dst s) by (unfold line_ok; rewrite SG, PT, LW; split; [exact AB|]; split; [reflexivity|]; split; [exists x; split; reflexivity|]; split; reflexivity).
      clearbody dst. destruct (IH _ _ _ _ _ _ _ H) as (B1 & (B2 & B2') & B3 & B4 & B5 & B6 & B7). rewrite C0 in *.
      assert (S01 : frame (eq dst) (fsys t) (fsys t1)) by (eapply frame_trans; [eapply frame_weaken; [|exact A0]; intros p []|exact F1]).
      split; [|split; [|split; [|split; [|split; [|split]]]]].
      + intros l' [<-|I]; [eauto 6|apply B1, I].
      + split; [|eapply incl_tran; eassumption]. eapply frame_trans; [eapply frame_weaken; [|exact S01]|eapply frame_weaken; [|exact B2]].
        * intros p <-. exists l, sig, (join "/" x), s. split; [left; reflexivity|exact OK].
        * intros p (l' & sig' & k' & s' & I & K). exists l', sig', k', s'. split; [right; exact I|exact K].
      + intros p (l' & sig' & k' & s' & [<-|I] & K).
        * destruct (line_fun _ _ _ _ _ _ _ _ _ OK K) as (_ & _ & <- & _). apply B2', CP.
        * apply B3. exists l', sig', k', s'. auto.
      + intros q Q. destruct (B4 q Q) as [X|(p & (l' & sig' & k' & s'' & I & K) & UP)].
        * assert (LD : lands (l :: lines) dst) by (exists l, sig, (join "/" x), s; split; [left; reflexivity|exact OK]).
          apply AD in X. rewrite C0 in X. destruct X as [X|[->|(X & _)]]; [left; exact X|right; exists dst; split; [exact LD|apply under_refl]|right; exists dst; auto].
        * right. exists p. split; [|exact UP]. exists l', sig', k', s''. split; [right; exact I|exact K].
      + intros p s' N X. apply B5; [intros l' sig' k' q x' I K U; eapply N; [right; exact I|exact K|exact U]|].
        destruct X as [X|(l' & sig' & k' & s'' & [<-|I] & K)].
        * destruct (under dst p) eqn:U.
          -- destruct (N l _ _ _ _ (or_introl eq_refl) OK U) as [<- <-]. left. exact LK.
          -- left. apply (fr_keep _ _ _ S01); [exact X|]. intros q <-. exact U.
        * destruct (line_fun _ _ _ _ _ _ _ _ _ OK K) as (_ & _ & <- & _). destruct (N l _ _ _ _ (or_introl eq_refl) OK (under_refl _)) as [_ <-]. left. exact LK.
        * right. exists l', sig', k', s''. auto.
      + intros k X. apply B6. destruct X as [X|(l' & sig' & d' & s' & [<-|I] & K)].
        * left. destruct (str_eqb k (join "/" x)) eqn:Q; [apply str_eqb_eq in Q; subst k; rewrite dict_get_set_same; discriminate|].
          apply str_eqb_neq in Q. rewrite dict_get_set_other by exact Q. exact X.
        * left. destruct (line_fun _ _ _ _ _ _ _ _ _ OK K) as (_ & <- & _ & _). rewrite dict_get_set_same. discriminate.
        * right. exists l', sig', d', s'. auto.
      + intros k v D. destruct (B7 k v D) as [Y|(l2 & d2 & s2 & I2 & K2)].
        * destruct (str_eqb k (join "/" x)) eqn:Q.
          -- apply str_eqb_eq in Q. subst k. rewrite dict_get_set_same in Y. injection Y as <-. right. exists l, dst, s. split; [left; reflexivity|exact OK].
          -- apply str_eqb_neq in Q. rewrite dict_get_set_other in Y by exact Q. left. exact Y.
        * right. exists l2, d2, s2. split; [right; exact I2|exact K2].
  Qed.
End Lines.

(** ** The files of dist-info *)
Lemma frame_unlink : forall f p s, lookup f p = Some (File s) -> p <> [] -> frame (eq p) f (remove_path f p).
Proof.
  intros f p s L N. constructor.
  - intros [R W]. split; [rewrite lookup_remove; destruct (path_eqb [] p) eqn:E; [apply path_eqb_eq in E; congruence|exact R]|].
    intros c q X. rewrite lookup_remove in *. destruct (path_eqb (c :: q) p); [congruence|]. apply W in X. destruct (path_eqb q p) eqn:E; [apply path_eqb_eq in E; congruence|exact X].
  - intros q n Q U. rewrite lookup_remove. destruct (path_eqb q p) eqn:E; [|exact Q]. apply path_eqb_eq in E. subst q. pose proof (U p eq_refl) as X. rewrite under_refl in X. discriminate.
  - intros q c Q. rewrite lookup_remove in Q. destruct (path_eqb q p); [discriminate|left; exact Q].
Qed.
Definition generated (info q : path) : Prop := q = lit "WHEEL" :: info \/ q = lit "METADATA" :: info.
Section Finish.
  Variables (h : hashlib) (order : list path -> list path) (site info : path) (wheel metadata : str).
  Lemma text_go : forall b t p s b' t', syscall b t (on_disk t (write_text (fsys t) p s)) = Go b' t' ->
    frame (eq p) (fsys t) (fsys t') /\ fsys t' = write (fsys t) p (File s) /\ copied t' = copied t /\ backups t' = backups t.
  Proof.
    intros b t p s b' t' H. apply syscall_go in H. unfold on_disk in H. destruct (write_text _ _ s) as [g|] eqn:W; [|discriminate]. injection H as <-.
    apply write_text_spec in W. destruct W as (W & ->). cbn [set_fs fsys copied backups]. auto.
  Qed.
  Lemma generate_spec : forall b t b' t', generate_step info wheel metadata b t = Go b' t' ->
    frame (generated info) (fsys t) (fsys t') /\ copied t' = copied t /\ backups t' = backups t /\
    (lookup (fsys t) info <> None -> t' = t) /\
    (lookup (fsys t) info = None -> lookup (fsys t') (lit "WHEEL" :: info) = Some (File wheel) /\ lookup (fsys t') (lit "METADATA" :: info) = Some (File metadata)).
  Proof.
    intros b t b' t' H. unfold generate_step in H. destruct (exists_at (fsys t) info) eqn:E.
    - injection H as <- <-. apply exists_at_true in E. split; [apply frame_refl|]. split; [reflexivity|]. split; [reflexivity|]. split; [reflexivity|]. intro X. congruence.
    - apply exists_at_false in E. apply and_then_go in H. destruct H as (b1 & t1 & A & H). apply dirs_go in A. destruct A as (A1 & A2 & A3 & A4 & _).
      apply and_then_go in H. destruct H as (b2 & t2 & B & H). apply text_go in B. destruct B as (B1 & B2 & B3 & B4). apply text_go in H. destruct H as (C1 & C2 & C3 & C4).
      split; [|split; [congruence|split; [congruence|split; [congruence|]]]].
      + eapply frame_trans; [eapply frame_weaken; [|exact A1]; intros p []|]. eapply frame_trans; [eapply frame_weaken; [|exact B1]|eapply frame_weaken; [|exact C1]]; intros p <-; [left|right]; reflexivity.
      + intros _. split.
        * rewrite C2, lookup_write. destruct (path_eqb _ _) eqn:Q; [apply path_eqb_eq in Q; discriminate|]. rewrite B2, lookup_write, path_eqb_refl. reflexivity.
        * rewrite C2, lookup_write, path_eqb_refl. reflexivity.
  Qed.
  Lemma unlink_spec : forall b t b' t', unlink_step (lit "RECORD" :: info) b t = Go b' t' ->
    frame (eq (lit "RECORD" :: info)) (fsys t) (fsys t') /\ copied t' = copied t /\ lookup (fsys t') (lit "RECORD" :: info) = None /\ lookup (fsys t) (lit "RECORD" :: info) <> Some Dir.
  Proof.
    intros b t b' t' H. unfold unlink_step in H. destruct (lookup (fsys t) (lit "RECORD" :: info)) as [[s|]|] eqn:L; [|discriminate|injection H as <- <-; split; [apply frame_refl|]; split; [reflexivity|]; split; [exact L|discriminate]].
    apply syscall_go in H. injection H as <-. cbn [set_fs fsys copied]. split; [eapply frame_unlink; [exact L|discriminate]|]. split; [reflexivity|]. split; [rewrite lookup_remove, path_eqb_refl; reflexivity|discriminate].
  Qed.
  Lemma finish_spec : forall post pre b t b' t', finish h order site info wheel metadata post pre b t = Go b' t' ->
    exists f1 f2 new text,
      frame (generated info) (fsys t) f1 /\ (lookup (fsys t) info <> None -> f1 = fsys t) /\
      (lookup (fsys t) info = None -> lookup f1 (lit "WHEEL" :: info) = Some (File wheel) /\ lookup f1 (lit "METADATA" :: info) = Some (File metadata)) /\
      frame (eq (lit "RECORD" :: info)) f1 f2 /\ lookup f2 (lit "RECORD" :: info) = None /\ lookup f1 (lit "RECORD" :: info) <> Some Dir /\
      sign_all h pre f2 site (to_sign f2 (order (copied t))) = Ok new /\ save_records new = (Ok tt, text) /\
      frame (eq (lit "RECORD" :: info)) f2 (fsys t') /\ lookup (fsys t') (lit "RECORD" :: info) = Some (File text) /\ post = Ok tt.
  Proof.
    intros post pre b t b' t' H. unfold finish in H. apply and_then_go in H. destruct H as (b1 & t1 & A & H). destruct (generate_spec _ _ _ _ A) as (A1 & A2 & _ & A3 & A4).
    destruct (is_file (fsys t1) info); [discriminate|]. apply and_then_go in H. destruct H as (b2 & t2 & B & H). destruct (unlink_spec _ _ _ _ B) as (B1 & B2 & B3 & B4).
    apply and_then_go in H. destruct H as (b3 & t3 & C & H). unfold sign_step in C. destruct (record_frame _ _ _ _ _ _ _ _ _ C) as (C1 & C2 & old & new & text & O & S & SV & R).
    destruct post as [[]|e]; [|discriminate]. injection H as <- <-. unfold load_record_file in O. rewrite B3 in O. injection O as <-. cbn [app] in SV.
    exists (fsys t1), (fsys t2), new, text. rewrite B2, A2 in S. split; [exact A1|]. split; [intro X; rewrite (A3 X); reflexivity|]. split; [exact A4|]. split; [exact B1|]. split; [exact B3|]. split; [exact B4|].
    split; [exact S|]. split; [exact SV|]. split; [exact C1|]. split; [exact R|reflexivity].
  Qed.
End Finish.

(** ** A whole installation *)
Section Package.
  Variables (h : hashlib) (hexdigest : str -> str) (read_paths : str -> res (list (str * str))) (read_index : str -> res bool) (run_script : str -> res unit) (order : list path -> list path).
  Variables (w : fs) (tmp : path) (tg : target) (info_name wheel metadata : str) (request mode : option str).
  Notation site := (t_purelib tg).
  Notation data := (t_data tg).
  Notation pylib := (name_of (tl (t_purelib tg))).
  Notation info := (info_name :: t_purelib tg).
  Hypothesis T : tidy_package w tmp pylib.
  Hypothesis OS : forall l p, In p (order l) <-> In p l.
  (** the paths in paths.json *)
  Definition signs (x sha : str) : Prop :=
    exists text l, lookup w (lit "paths.json" :: lit "info" :: tmp) = Some (File text) /\ read_paths text = Ok l /\ In (x, sha) l.
  Definition files_at (p : path) (r : list str) (s : str) : Prop :=
    to_install w tmp r /\ r <> [] /\ Forall proper r /\ packaged w tmp r s /\ home w tmp data pylib r p.
  Section Prepared.
    Variables (signed : sigs) (w' : fs) (lines : list str) (textual : bool).
    Hypothesis PR : prepare h hexdigest read_paths read_index run_script w tmp site = Ok (signed, w', lines, textual).
    Notation site_in := (rel_to data site ++ tmp).
    Notation reloc := (relocate w tmp pylib).
    Lemma prepared : moved w tmp pylib = Ok w' /\
      (exists text, lookup w (lit "files" :: lit "info" :: tmp) = Some (File text) /\ lines = filter (fun l => negb (str_eqb l "")) (split_lines text)) /\
      exists paths, verify_paths h hexdigest w tmp paths [] = Ok signed /\ forall x sha, In (x, sha) paths -> signs x sha.
    Proof.
      pose proof PR as P. unfold prepare in P. destruct (negb (is_dir w _)); [discriminate|]. destruct (negb (exists_at w _)); [discriminate|].
      unfold text_at in P. destruct (lookup w (lit "paths.json" :: lit "info" :: tmp)) as [[pt|]|] eqn:LP; try discriminate. cbn [bind] in P.
      destruct (read_paths pt) as [paths|] eqn:RP; [|discriminate]. cbn [bind] in P.
      destruct (verify_paths h hexdigest w tmp paths []) as [sg|] eqn:V; [|discriminate]. cbn [bind] in P.
      destruct (lookup w (lit "index.json" :: lit "info" :: tmp)) as [[it|]|]; try discriminate. cbn [bind] in P.
      destruct (read_index it) as [tx|]; [|discriminate]. cbn [bind] in P. destruct (hook run_script w tmp tx (lit "pre-link")); [|discriminate]. cbn [bind] in P.
      destruct (moved w tmp pylib) as [w1|] eqn:M; [|discriminate]. cbn [bind] in P.
      destruct (lookup w1 (lit "files" :: lit "info" :: tmp)) as [[ft|]|] eqn:LF; try discriminate. cbn [bind] in P. injection P as <- <- <- <-.
      split; [reflexivity|]. split.
      - exists ft. split; [|reflexivity]. destruct (reloc_cases w w1 tmp pylib T M) as [(_ & -> & _)|(n & _ & LN & _ & _ & -> & _)]; [exact LF|].
        rewrite lookup_graft, lookup_remove_tree in LF.
        assert (U : forall z : str, under (z :: lit "lib" :: tmp) (lit "files" :: lit "info" :: tmp) = false).
        { intro z. apply under_false. intros y E. assert (L : length y = 0) by (apply (f_equal (@length str)) in E; rewrite app_length in E; cbn [length] in E; lia).
          destruct y; [|discriminate]. cbn [app] in E. assert (X : lit "info" = lit "lib") by congruence. discriminate X. }
        rewrite !U in LF. exact LF.
      - exists paths. split; [exact V|]. intros x sha I. exists pt, paths. auto.
    Qed.
    (** the lines are the files of the package *)
    Lemma line_files : forall l sig k p s, In l lines -> line_ok w' tmp data site_in signed reloc l sig k p s ->
      exists r g x sha, l = join "/" r /\ files_at p r s /\ Forall proper (reloc r) /\ p = rev (reloc r) ++ data /\ h (lit "sha256") = Some g /\ sig = Sig "sha256" (g s) /\ signs x sha /\ resolve_record tmp x = rev r ++ tmp /\ hexdigest s = sha /\
        (under data site = true -> reloc r <> [] -> exists y, path_to (length site) site p = Some y /\ k = join "/" y).
    Proof.
      intros l sig k p s I (AB & SG & (y & PT & ->) & -> & LW). destruct prepared as (M & (text & LF & EL) & paths & V & SN). rewrite EL in I. apply filter_In in I. destruct I as [I NE].
      apply negb_true_iff, str_eqb_neq in NE. destruct (tp_lines _ _ _ T text l LF I NE) as (r & N & P & E). subst l.
      pose proof (parts_proper r N P) as PP. rewrite PP in SG, PT, LW. rewrite PP.
      destruct (verify_spec _ _ _ _ _ _ _ V) as [_ V2]. destruct (V2 r sig SG) as [X|(x & sha & c & g & I2 & K & L & HX & HG & SE)]; [discriminate|].
      rewrite (key_place _ _ _ (tp_tmp _ _ _ T) K) in L. rewrite at_proper in L by exact P.
      assert (PRP : Forall proper (reloc r)).
      { destruct (reloc_cases w w' tmp pylib T M) as [(R & _ & _)|(n & PN & LN & NL & NEQ & _ & R1 & R2)]; [rewrite R; exact P|].
        destruct r as [|a [|b [|c0 rest]]]; try (rewrite R2; [exact P|intros rest' N' E'; try discriminate; injection E' as _ _ <-; congruence]).
        destruct (str_eqb a "lib") eqn:EA; [|rewrite R2; [exact P|intros rest' N' E'; injection E' as -> _ _; rewrite str_eqb_refl in EA; discriminate]].
        destruct (str_eqb b n) eqn:EB; [|rewrite R2; [exact P|intros rest' N' E'; injection E' as _ -> _; rewrite str_eqb_refl in EB; discriminate]].
        apply str_eqb_eq in EA, EB. subst a b. inversion P as [|? ? PA P1]; subst. inversion P1 as [|? ? PB P2]; subst. rewrite R1; [|discriminate|exact P2| |exact P].
        - constructor; [exact PA|]. constructor; [exact (tp_pylib _ _ _ T)|exact P2].
        - replace (rev (c0 :: rest) ++ n :: lit "lib" :: tmp) with (rev (lit "lib" :: n :: c0 :: rest) ++ tmp) by (cbn [rev]; rewrite <- !app_assoc; reflexivity). intro Z. pose proof (eq_trans (eq_sym Z) L). discriminate. }
      rewrite at_proper in LW, PT by exact PRP. rewrite at_proper by exact PRP.
      destruct (reloc_spec w w' tmp data pylib T M r s P) as (A & B & C); [congruence|exact LW|].
      exists r, g, x, sha. split; [reflexivity|]. split; [|split; [exact PRP|split; [reflexivity|split; [exact HG|split; [|split; [apply SN; exact I2|split; [|split]]]]]]].
      - split; [exists text; auto|]. auto.
      - unfold packaged in A. rewrite L in A. injection A as ->. exact SE.
      - rewrite (key_place _ _ _ (tp_tmp _ _ _ T) K). apply at_proper. exact P.
      - unfold packaged in A. rewrite L in A. injection A as ->. exact HX.
      - intros U. revert PT. generalize (reloc r). intros q PT NR. exists y. split; [|reflexivity]. apply under_iff in U. destruct U as (d & U). rewrite U in PT |- *. rewrite rel_to_app in PT.
        rewrite <- PT. symmetry. apply path_to_moved. intro Z. apply (f_equal (@rev str)) in Z. rewrite rev_involutive in Z. exact (NR Z).
    Qed.
    Lemma reloc_nonempty : forall r, r <> [] -> reloc r <> [].
    Proof.
      intros r N. unfold relocate. destruct (relocated_dir w tmp pylib); [|exact N]. destruct r as [|a [|b [|c r]]]; try exact N. destruct (_ && _); [discriminate|exact N].
    Qed.
    Lemma file_lines : forall r, to_install w tmp r -> r <> [] -> Forall proper r -> In (join "/" r) lines.
    Proof.
      intros r (text & L & I) N P. destruct prepared as (_ & (text' & LF & EL) & _). rewrite EL. assert (text' = text) by congruence. subst text'. apply filter_In. split; [exact I|].
      apply negb_true_iff, str_eqb_neq. intro E. destruct r as [|c r]; [congruence|]. inversion P as [|? ? (C & _) _]; subst. destruct c as [|x c]; [congruence|]. destruct r; discriminate E.
    Qed.
    Lemma lines_apart : forall l1 l2 sig1 sig2 k1 k2 p1 p2 s1 s2, In l1 lines -> In l2 lines -> line_ok w' tmp data site_in signed reloc l1 sig1 k1 p1 s1 ->
      line_ok w' tmp data site_in signed reloc l2 sig2 k2 p2 s2 -> under p1 p2 = true -> l1 = l2.
    Proof.
      intros l1 l2 sig1 sig2 k1 k2 p1 p2 s1 s2 I1 I2 O1 O2 U. destruct prepared as (M & _).
      destruct (line_files _ _ _ _ _ I1 O1) as (r1 & _ & _ & _ & -> & (_ & N1 & P1 & A1 & _) & _ & E1 & _).
      destruct (line_files _ _ _ _ _ I2 O2) as (r2 & _ & _ & _ & -> & (_ & N2 & P2 & A2 & _) & _ & E2 & _). subst p1 p2.
      f_equal. exact (reloc_apart w w' tmp data pylib T M r1 r2 s1 s2 P1 P2 A1 A2 N1 U).
    Qed.
  End Prepared.

  Variables (b : nat) (f f' : fs).
  Hypothesis WF : wf_fs f.
  Hypothesis IN : install_conda h hexdigest read_paths read_index run_script order w tmp tg info_name wheel metadata request mode b f = Installed f'.
  Definition arrives (p : path) : Prop := exists r s, files_at p r s.
  Lemma conda_spec : exists f1 f2 f3 new text g,
    under data site = true /\
    frame arrives f f1 /\
    (forall r, to_install w tmp r -> r <> [] -> Forall proper r -> exists p s x sha, files_at p r s /\ lookup f1 p = Some (File s) /\ signs x sha /\ resolve_record tmp x = rev r ++ tmp /\ hexdigest s = sha) /\
    (forall p r s, files_at p r s -> lookup f1 p = Some (File s)) /\
    frame (generated info) f1 f2 /\ (lookup f1 info <> None -> f2 = f1) /\
    (lookup f1 info = None -> lookup f2 (lit "WHEEL" :: info) = Some (File wheel) /\ lookup f2 (lit "METADATA" :: info) = Some (File metadata)) /\
    frame (eq (lit "RECORD" :: info)) f2 f3 /\ lookup f3 (lit "RECORD" :: info) = None /\ lookup f2 (lit "RECORD" :: info) <> Some Dir /\
    frame (eq (lit "RECORD" :: info)) f3 f' /\ lookup f' (lit "RECORD" :: info) = Some (File text) /\ save_records new = (Ok tt, text) /\
    (forall p r s, files_at p r s -> lookup f3 p = Some (File s) -> exists y, path_to (length site) site p = Some y /\ h (lit "sha256") = Some g /\ In (Rec (Some (join "/" y)) (Some (Sig "sha256" (g s))) (Some (N.of_nat (length s)))) new) /\
    (forall x, In x new -> exists p r s y, files_at p r s /\ lookup f3 p = Some (File s) /\ path_to (length site) site p = Some y /\ h (lit "sha256") = Some g /\ x = Rec (Some (join "/" y)) (Some (Sig "sha256" (g s))) (Some (N.of_nat (length s)))).
  Proof.
    unfold install_conda in IN. destruct (prepare _ _ _ _ _ _ _ _) as [[[[signed w'] lines] textual]|] eqn:PR; [|discriminate].
    destruct (conda_transaction _ _ _ _ _ _ _ _ _ _ _ _ _ _ _) as [b' t|t] eqn:C in IN; [|discriminate]. injection IN as <-.
    unfold conda_transaction in C. destruct (under data site) eqn:U; [|discriminate].
    destruct (copy_lines _ _ _ _ _ _ _ _ _ _ _) as [o pre] eqn:CL. apply and_then_go in C. destruct C as (b1 & t1 & -> & C).
    destruct (lines_spec _ _ _ _ _ _ _ _ _ _ _ _ _ _ CL) as (B1 & (B2 & _) & B3 & B4 & B5 & B6 & B7). cbn [tx_start fsys copied] in *.
    destruct (finish_spec _ _ _ _ _ _ _ _ _ _ _ _ C) as (f2 & f3 & new & text & F1 & F2 & F3 & F4 & F5 & F6 & SA & SV & F7 & F8 & _).
    destruct (sign_all_spec _ _ _ _ _ _ SA) as [S1 S2].
    pose proof (line_files _ _ _ _ PR) as LFS. pose proof (lines_apart _ _ _ _ PR) as LA.
    assert (LD : forall p, lands w' tmp data (rel_to data site ++ tmp) signed (relocate w tmp pylib) lines p -> arrives p).
    { intros p (l & sig & k & s & I & K). destruct (LFS _ _ _ _ _ I K) as (r & _ & _ & _ & _ & X & _). exists r, s. exact X. }
    assert (AT : forall r, to_install w tmp r -> r <> [] -> Forall proper r -> exists l sig k p s, In l lines /\ line_ok w' tmp data (rel_to data site ++ tmp) signed (relocate w tmp pylib) l sig k p s /\ l = join "/" r).
    { intros r I N P. pose proof (file_lines _ _ _ _ PR r I N P) as J. destruct (B1 _ J) as (sig & k & p & s & K). exists (join "/" r), sig, k, p, s. auto. }
    assert (JI : forall r r', r <> [] -> r' <> [] -> Forall proper r -> Forall proper r' -> join "/" r = join "/" r' -> r = r').
    { intros r r' N N' P P' E. apply (f_equal path_parts) in E. rewrite (parts_proper r N P), (parts_proper r' N' P') in E. exact E. }
    assert (HF : forall p p' r, home w tmp data pylib r p -> home w tmp data pylib r p' -> p = p').
    { intros p p' r H1 H2. inversion H1 as [r1 n rest V N|r1 V]; subst; inversion H2 as [r2 n' rest' V' N'|r2 V']; subst; try congruence.
      - destruct V as (E & _), V' as (E' & _). rewrite E in E'. injection E' as _ <-. reflexivity.
      - exfalso. apply N. exact (V' _ _ V).
      - exfalso. apply N'. exact (V _ _ V'). }
    assert (L1 : forall p r s, files_at p r s -> lookup (fsys t1) p = Some (File s) /\ exists l sig k, In l lines /\ line_ok w' tmp data (rel_to data site ++ tmp) signed (relocate w tmp pylib) l sig k p s /\ l = join "/" r).
    { intros p r s (A & N & P & PK & H). destruct (AT r A N P) as (l & sig & k & p' & s' & I & K & EL).
      destruct (LFS _ _ _ _ _ I K) as (r' & g & x & sha & EL' & (A' & N' & P' & PK' & H') & _).
      assert (r' = r) by (apply JI; try assumption; congruence). subst r'. pose proof (HF _ _ _ H H') as E. subst p'.
      assert (s' = s) by (unfold packaged in *; congruence). subst s'. split; [|exists l, sig, k; auto].
      apply B5; [|right; exists l, sig, k, s; auto]. intros l2 sig2 k2 q x2 I2 K2 U2. assert (l2 = l) by (eapply LA; [exact I2|exact I|exact K2|exact K|exact U2]). subst l2.
      destruct (line_fun _ _ _ _ _ _ _ _ _ _ _ _ _ _ _ K2 K) as (_ & _ & -> & ->). auto. }
    assert (PRE : forall p s r y v, files_at p r s -> path_to (length site) site p = Some y -> dict_get (join "/" y) pre = Some v -> exists g, h (lit "sha256") = Some g /\ v = Sig "sha256" (g s)).
    { intros p s r y v FA PT D. destruct (B7 _ _ D) as [X|(l & p2 & s2 & I & K)]; [discriminate|]. destruct (LFS _ _ _ _ _ I K) as (r2 & g & x & sha & _ & FA2 & PRO2 & E2 & HG & SE & _ & _ & _ & Y).
      destruct (Y U (reloc_nonempty r2 (proj1 (proj2 FA2)))) as (y2 & PT2 & JE).
      exists g. split; [exact HG|]. rewrite SE. f_equal. f_equal.
      (* the same name in the RECORD is the same path *)
      destruct (L1 _ _ _ FA) as (LK & _). destruct (L1 _ _ _ FA2) as (LK2 & _).
      assert (PP : forall q r0 s0, files_at q r0 s0 -> exists z, q = z ++ data /\ z <> [] /\ Forall proper z).
      { intros q r0 s0 FA0. destruct (L1 _ _ _ FA0) as (_ & l0 & sig0 & k0 & I0 & K0 & _). destruct (LFS _ _ _ _ _ I0 K0) as (r1 & _ & _ & _ & _ & FA1 & PR1 & -> & _).
        exists (rev (relocate w tmp pylib r1)). split; [reflexivity|]. split; [|apply Forall_rev; exact PR1]. intro Z. apply (f_equal (@rev str)) in Z. rewrite rev_involutive in Z.
        exact (reloc_nonempty r1 (proj1 (proj2 FA1)) Z). }
      destruct (PP _ _ _ FA) as (z & -> & ZN & ZP). destruct (PP _ _ _ FA2) as (z2 & -> & ZN2 & ZP2).
      apply under_iff in U. destruct U as (d & U). rewrite U in PT, PT2. rewrite (path_to_moved d z data [] ZN) in PT. rewrite (path_to_moved d z2 data [] ZN2) in PT2. rewrite !app_nil_r in PT, PT2.
      pose proof (recorded_name _ _ _ ZN ZP PT) as R1. pose proof (recorded_name _ _ _ ZN2 ZP2 PT2) as R2.
      assert (JE' : join (lit "/") y = join (lit "/") y2) by exact JE. rewrite JE' in R1. assert (z = z2) by (rewrite <- R1; exact R2). subst z2. congruence. }
    assert (W1 : wf_fs (fsys t1)) by (apply (fr_wf _ _ _ B2); exact WF).
    (* what is signed are files of the package *)
    assert (SIG : forall p s, In p (to_sign f3 (order (copied t1))) -> lookup f3 p = Some (File s) -> exists r, files_at p r s).
    { intros p s I L. unfold to_sign in I. apply filter_In in I. destruct I as [I _]. apply (proj1 (OS _ _)) in I. destruct (B4 p I) as [[]|(q & Q & UQ)]. apply LD in Q. destruct Q as (r & s0 & Q).
      destruct (L1 _ _ _ Q) as (LQ & _). assert (NP : lookup (fsys t1) p <> None) by (eapply wf_under; [exact W1|exact UQ|congruence]).
      destruct (fr_files _ _ _ F4 _ _ L) as [Y|<-]; [|congruence].
      assert (Z : lookup (fsys t1) p = Some (File s)).
      { destruct (fr_files _ _ _ F1 _ _ Y) as [Z|Z]; [exact Z|]. assert (NI : lookup (fsys t1) info <> None) by (destruct Z as [->| ->]; rewrite (proj2 W1 _ _ NP); discriminate). rewrite (F2 NI) in Y. exact Y. }
      apply under_iff in UQ. destruct UQ as ([|c z] & ->); [cbn [app] in *; rewrite LQ in Z; injection Z as <-; exists r; exact Q|].
      exfalso. assert (D : lookup (fsys t1) p = Some Dir) by (apply (wf_above _ (c :: z) p W1); [congruence|discriminate]). congruence. }
    assert (G : forall p r s, files_at p r s -> exists g, h (lit "sha256") = Some g).
    { intros p r s FA. destruct (L1 _ _ _ FA) as (_ & l & sig & k & I & K & _). destruct (LFS _ _ _ _ _ I K) as (_ & g & _ & _ & _ & _ & _ & _ & HG' & _). eauto. }
    assert (KEY : forall p r s y, files_at p r s -> path_to (length site) site p = Some y -> dict_get (join "/" y) pre <> None).
    { intros p r s y FA PT. destruct (L1 _ _ _ FA) as (_ & l & sig & k & I & K & _). apply B6. right. destruct (LFS _ _ _ _ _ I K) as (r2 & _ & _ & _ & _ & FA2 & _ & _ & _ & _ & _ & _ & _ & Y).
      destruct (Y U (reloc_nonempty r2 (proj1 (proj2 FA2)))) as (y2 & PT2 & JE). assert (y2 = y) by congruence. subst y2. exists l, sig, p, s. rewrite <- JE. auto. }
    exists (fsys t1), f2, f3, new, text, (match h (lit "sha256") with Some g => g | None => fun s => s end). split; [reflexivity|]. split; [eapply frame_weaken; [exact LD|exact B2]|].
    split; [|split; [intros p r s FA; apply (L1 _ _ _ FA)|]].
    { intros r A N P. destruct (AT r A N P) as (l & sig & k & p & s & I & K & EL). destruct (LFS _ _ _ _ _ I K) as (r' & g & x & sha & EL' & FA & _ & _ & _ & _ & SG & RX & HX & _).
      assert (r' = r) by (apply JI; try assumption; try congruence; apply FA). subst r'. exists p, s, x, sha. split; [exact FA|]. split; [apply (L1 _ _ _ FA)|]. auto. }
    split; [exact F1|]. split; [exact F2|]. split; [exact F3|]. split; [exact F4|]. split; [exact F5|]. split; [exact F6|]. split; [exact F7|]. split; [exact F8|]. split; [exact SV|]. split.
    - intros p r s FA L. destruct (G _ _ _ FA) as (g & HG). rewrite HG.
      assert (I : In p (to_sign f3 (order (copied t1)))).
      { unfold to_sign. apply filter_In. split; [|rewrite (proj2 (exists_at_true f3 p)) by congruence; apply orb_true_r]. apply (proj2 (OS _ _)). apply B3. destruct (L1 _ _ _ FA) as (_ & l & sig & k & I & K & _). exists l, sig, k, s. auto. }
      destruct (S1 p s I L) as (y & sig & PT & SO & R). exists y. split; [exact PT|]. split; [reflexivity|]. unfold sign_of in SO.
      destruct (dict_get (join "/" y) pre) as [v|] eqn:D; [|exfalso; exact (KEY _ _ _ _ FA PT D)]. subst sig. destruct (PRE _ _ _ _ _ FA PT D) as (g' & HG' & ->). assert (g' = g) by congruence. subst g'. exact R.
    - intros x X. destruct (S2 x X) as (p & s & y & sig & I & L & PT & SO & E). destruct (SIG p s I L) as (r & FA). destruct (G _ _ _ FA) as (g & HG). rewrite HG.
      exists p, r, s, y. split; [exact FA|]. split; [exact L|]. split; [exact PT|]. split; [reflexivity|]. unfold sign_of in SO.
      destruct (dict_get (join "/" y) pre) as [v|] eqn:D; [|exfalso; exact (KEY _ _ _ _ FA PT D)]. destruct (PRE _ _ _ _ _ FA PT D) as (g' & HG' & E'). assert (g' = g) by congruence. congruence.
  Qed.
End Package.
