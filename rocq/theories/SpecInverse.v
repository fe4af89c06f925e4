(** Proofs about version specifiers: inverse, difference, inclusion. *)
From Coq Require Import String Ascii List Bool NArith Arith Lia Permutation.
From Verif Require Import Base BaseFacts OrderFacts VersionModel VersionSpec VersionProofs
  SpecifierModel SpecifierSpec SpecRange SpecifierProofs SpecUnion.
Import ListNotations.
Open Scope string_scope.
Open Scope nat_scope.
Open Scope list_scope.
Open Scope bool_scope.

Lemma norm_allows : forall s v, norm s -> allows s (VStd v) = existsb (fun x => allows x (VStd v)) (segs_of s).
Proof.
  intros [| |l|bl s|w al|mn mx i j] v [H N]; cbn in *; try contradiction; try congruence; rewrite ?orb_false_r; reflexivity.
Qed.

Lemma wf_lower : forall m i, plain m -> wf_interval (Some m, None, i, false).
Proof. intros m i P. split; [left; discriminate|]. split; [discriminate|]. split; [discriminate|].
  split; [intros x E; injection E as <-; exact P|]. split; [discriminate|]. discriminate. Qed.
Lemma wf_upper : forall m j, plain m -> wf_interval (None, Some m, false, j).
Proof. intros m i P. split; [right; discriminate|]. split; [discriminate|]. split; [discriminate|].
  split; [discriminate|]. split; [intros x E; injection E as <-; exact P|]. discriminate. Qed.

Lemma in_rng_upper : forall m i v, nolab m -> nolab v -> in_rng (None, Some m, false, negb i) v = negb (in_rng (Some m, None, i, false) v).
Proof. intros m i v Pm Pv. unfold in_rng, in_lo, in_hi. ranks [m; v]. destruct i; bcase; reflexivity. Qed.
Lemma in_rng_lower : forall m j v, nolab m -> nolab v -> in_rng (Some m, None, negb j, false) v = negb (in_rng (None, Some m, false, j) v).
Proof. intros m i v Pm Pv. unfold in_rng, in_lo, in_hi. ranks [m; v]. destruct i; bcase; reflexivity. Qed.

Lemma inverse_range : forall mn mx i j, wf_interval (mn, mx, i, j) ->
  exists r, inverse (Range mn mx i j) = Ok r /\ deny_free r /\
   forall v, candidate v -> allows r (VStd v) = negb (allows (Range mn mx i j) (VStd v)).
Proof.
  intros mn mx i j W. destruct (wf_opt_plain _ _ _ _ W) as [P1 P2].
  destruct mn as [m|], mx as [n|]; cbn [inverse].
  - specialize (P1 _ eq_refl). specialize (P2 _ eq_refl).
    assert (LT : sv_ltb m n = true) by (apply W; reflexivity).
    unfold create_range at 1 2. cbn [opt_sv_eqb opt_eqb andb]. unfold mk_range. cbn [is_none andb negb]. rewrite !andb_false_r.
    cbn [bind].
    set (A := Range None (Some m) false (negb i)). set (B := Range (Some n) None (negb j) false).
    assert (Aa : atom A) by (apply wf_upper; exact P1). assert (Ab : atom B) by (apply wf_lower; exact P2).
    assert (Ap : apart A B).
    { left. exists None, m, false, (negb i), n, None, (negb j), false. split; [reflexivity|]. split; [reflexivity|]. left. exact LT. }
    destruct (union_with_apart A B (atom_norm _ Aa) (atom_norm _ Ab)) as (r & E & Nr & Pr).
    { intros x y [<-|[]] [<-|[]]. exact Ap. }
    exists r. split; [exact E|]. split; [apply Nr|]. intros v C.
    rewrite (norm_allows _ _ Nr), (existsb_perm _ _ _ _ Pr). subst A B. cbn [segs_of app existsb allows].
    rewrite (range_allows_in None), (range_allows_in (Some n)), (range_allows_in (Some m)) by assumption.
    assert (Hv := candidate_nolab _ C). rewrite in_rng_upper, in_rng_lower by (assumption || apply plain_nolab; assumption).
    unfold in_rng, in_lo, in_hi. rewrite !andb_true_r, orb_false_r, andb_true_l. symmetry. apply negb_andb.
  - specialize (P1 _ eq_refl).
    assert (j = false) as ->. { destruct j; [|reflexivity]. destruct W as (_ & _ & A & _). destruct (A eq_refl eq_refl). }
    unfold create_range. cbn [opt_sv_eqb opt_eqb andb]. unfold mk_range. cbn [is_none andb negb]. rewrite !andb_false_r.
    eexists. split; [reflexivity|]. split; [apply wf_upper; exact P1|]. intros v C. cbn [allows].
    rewrite !range_allows_in by (assumption || apply wf_upper; exact P1). apply in_rng_upper; [exact (plain_nolab _ P1)|exact (candidate_nolab _ C)].
  - specialize (P2 _ eq_refl).
    assert (i = false) as ->. { destruct i; [|reflexivity]. destruct W as (_ & A & _). destruct (A eq_refl eq_refl). }
    unfold create_range. cbn [opt_sv_eqb opt_eqb andb]. unfold mk_range. cbn [is_none andb negb]. rewrite !andb_false_r.
    eexists. split; [reflexivity|]. split; [apply wf_lower; exact P2|]. intros v C. cbn [allows].
    rewrite !range_allows_in by (assumption || apply wf_lower; exact P2). apply in_rng_lower; [exact (plain_nolab _ P2)|exact (candidate_nolab _ C)].
  - destruct W as ([W|W] & _); congruence.
Qed.

Lemma inverse_fold : forall l acc, Forall atom l -> Forall is_range l -> deny_free acc ->
  exists r, fold_left (fun acc x => do r <- acc; do i <- inverse x; intersect_with r i) l (Ok acc) = Ok r /\ deny_free r /\
   forall v, candidate v -> allows r (VStd v) = allows acc (VStd v) && negb (existsb (fun x => allows x (VStd v)) l).
Proof.
  induction l as [|x l IH]; intros acc A R D.
  - exists acc. split; [reflexivity|]. split; [exact D|]. intros v C. cbn. rewrite andb_true_r. reflexivity.
  - inversion A as [|? ? A1 A2]; subst. inversion R as [|? ? R1 R2]; subst.
    destruct x as [| | | | |mn mx i j]; try contradiction R1.
    destruct (inverse_range mn mx i j A1) as (y & Ey & Dy & Vy).
    destruct (fuel_ge acc y) as [f Ef]. destruct (inter_deny_free f acc y D Dy) as (r & Er & Dr & Vr).
    cbn [fold_left bind]. rewrite Ey. cbn [bind]. unfold intersect_with at 2. rewrite Ef, Er.
    destruct (IH r A2 R2 Dr) as (q & Eq & Dq & Vq). exists q. split; [exact Eq|]. split; [exact Dq|].
    intros v C. rewrite (Vq v C), (Vr v C), (Vy v C). cbn [existsb]. rewrite negb_orb, andb_assoc. reflexivity.
Qed.

Lemma inverse_correct : forall s, range_only s ->
  exists r, inverse s = Ok r /\ deny_free r /\
   forall v, candidate v -> allows r (VStd v) = negb (allows s (VStd v)).
Proof.
  intros [| |l|bl s|w al|mn mx i j] [D R]; try contradiction.
  - exists AllowAll. cbn. auto.
  - exists RestrictAll. cbn. auto.
  - cbn [inverse]. destruct D as (_ & A & _).
    destruct (inverse_fold l AllowAll A R I) as (r & E & Dr & V). exists r. split; [exact E|]. split; [exact Dr|].
    intros v C. rewrite (V v C). reflexivity.
  - apply inverse_range. exact D.
Qed.

Lemma inverse_match : forall w al, plain w ->
  inverse (Match (VStd w) al) = Ok (Match (VStd w) (negb al)) /\
  forall v, plain v -> allows (Match (VStd w) (negb al)) (VStd v) = negb (allows (Match (VStd w) al) (VStd v)).
Proof.
  intros w al P. split; [reflexivity|]. intros v Pv. cbn [allows]. rewrite !match_allows_plain by assumption.
  destruct al, (sv_eqb w v); reflexivity.
Qed.

Lemma difference_correct : forall a b, deny_free a -> range_only b ->
  exists r, difference_from a b = Ok r /\ deny_free r /\
   forall v, candidate v -> allows r (VStd v) = allows a (VStd v) && negb (allows b (VStd v)).
Proof.
  intros a b Da Rb. destruct (inverse_correct b Rb) as (y & Ey & Dy & Vy). unfold difference_from. rewrite Ey. cbn [bind].
  unfold intersect_with. destruct (fuel_ge a y) as [f ->]. destruct (inter_deny_free f a y Da Dy) as (r & Er & Dr & Vr).
  exists r. split; [exact Er|]. split; [exact Dr|]. intros v C. rewrite (Vr v C), (Vy v C). reflexivity.
Qed.

(** ** inclusion and overlap *)
Lemma atom_eq_allows : forall a b v, atom a -> atom b -> spec_eqb a b = true -> candidate v ->
  allows a (VStd v) = allows b (VStd v).
Proof.
  intros a b v Ha Hb E C.
  destruct a as [| | | |[| |va] [|]|mn mx i j]; try contradiction Ha; destruct b as [| | | |[| |vb] [|]|mn' mx' i' j']; try contradiction Hb; try discriminate E.
  - cbn [spec_eqb Bool.eqb version_eqb andb] in E. cbn [allows]. rewrite !match_allows_plain by (assumption || apply C).
    rewrite (spo_eq_left _ _ _ spo_sv _ _ _ E). reflexivity.
  - cbn [allows]. rewrite !range_allows_in by assumption. apply (range_eq_subb _ _ _ _ _ _ _ _ E).
Qed.
Lemma simple_eq_allows : forall a b v, (a = AllowAll \/ atom a) -> (b = AllowAll \/ atom b) -> spec_eqb a b = true -> candidate v ->
  allows a (VStd v) = allows b (VStd v).
Proof.
  intros a b v [->|Ha] [->|Hb] E C; try reflexivity.
  - destruct b; try discriminate E. contradiction Hb.
  - destruct a as [| | | |? [|]|]; try discriminate E. contradiction Ha.
  - apply atom_eq_allows; assumption.
Qed.
Lemma mem_sub : forall bl bl' v, plain v -> Forall std_plain bl -> Forall std_plain bl' -> set_eqb bl bl' = true ->
  set_mem (VStd v) bl = true -> set_mem (VStd v) bl' = true.
Proof.
  intros bl bl' v Pv F F' E M. rewrite mem_plain in M by assumption. rewrite mem_plain by assumption.
  apply existsb_exists in M. destruct M as (y & Hy & Ey). unfold set_eqb in E. apply andb_true_iff in E. destruct E as [_ E].
  rewrite forallb_forall in E. specialize (E y Hy). rewrite Forall_forall in F. specialize (F y Hy).
  destruct y as [| |y]; try contradiction F. rewrite mem_plain in E by assumption.
  apply existsb_exists in E. destruct E as (z & Hz & Ez). apply existsb_exists. exists z. split; [exact Hz|].
  unfold veqb in *. cbn [version_eqb] in Ey. rewrite Forall_forall in F'. specialize (F' z Hz). destruct z as [| |z]; try contradiction F'.
  cbn [version_eqb] in *. exact (spo_eqtrans _ _ spo_sv _ _ _ Ey Ez).
Qed.

Lemma eq_allows : forall a b v, (deny_free a /\ deny_free b) \/ (union_free a /\ union_free b) ->
  spec_eqb a b = true -> candidate v -> allows b (VStd v) = true -> allows a (VStd v) = true.
Proof.
  intros a b v H E C Al.
  destruct H as [[Da Db]|[Ua Ub]].
  - destruct a as [| |la|bla sa|va ala|mna mxa ia ja]; destruct b as [| |lb|blb sb|vb alb|mnb mxb ib jb]; try discriminate E; try exact Al;
    try contradiction Da.
    + destruct Da as (_ & Fa & _). destruct Db as (_ & Fb & _). cbn [allows] in *. cbn [spec_eqb] in E.
      revert lb Fb E Al. induction la as [|x la IH]; intros [|y lb] Fb E Al; try discriminate E; [discriminate Al|].
      apply andb_true_iff in E. destruct E as [E1 E2]. inversion Fa as [|? ? A1 A2]; subst. inversion Fb as [|? ? B1 B2]; subst.
      cbn [existsb] in *. apply orb_true_iff. apply orb_true_iff in Al. destruct Al as [Al|Al].
      * left. rewrite (atom_eq_allows x y v A1 B1 E1 C). exact Al.
      * right. apply (IH A2 lb B2 E2 Al).
    + rewrite (atom_eq_allows _ _ v Da Db E C). exact Al.
    + rewrite (atom_eq_allows _ _ v Da Db E C). exact Al.
  - destruct a as [| |la|bla sa|va ala|mna mxa ia ja]; destruct b as [| |lb|blb sb|vb alb|mnb mxb ib jb]; try discriminate E; try exact Al;
    try contradiction Ua.
    + destruct Ua as (_ & Fa & Sa). destruct Ub as (_ & Fb & Sb). cbn [spec_eqb] in E. apply andb_true_iff in E. destruct E as [E1 E2].
      rewrite hetro_allows in *. apply andb_true_iff in Al. destruct Al as [A1 A2].
      rewrite (simple_eq_allows sa sb v Sa Sb E2 C), A2, andb_true_r.
      destruct (set_mem (VStd v) bla) eqn:M; [|reflexivity]. exfalso.
      rewrite (mem_sub bla blb v) in A1; [discriminate|apply C|assumption|assumption|assumption|assumption].
    + cbn [spec_eqb] in E. apply andb_true_iff in E. destruct E as [E1 E2]. apply eqb_prop in E1. subst alb.
      destruct va as [| |va]; try contradiction Ua. destruct vb as [| |vb]; try contradiction Ub. cbn [version_eqb] in E2.
      cbn [allows] in *. rewrite match_allows_plain in * by (assumption || apply C).
      rewrite (spo_eq_left _ _ _ spo_sv _ _ _ E2). exact Al.
    + rewrite (atom_eq_allows _ _ v Ua Ub E C). exact Al.
Qed.

Lemma allows_all_sound : forall a b, (deny_free a /\ deny_free b) \/ (union_free a /\ union_free b) ->
  allows_all a b = Ok true -> forall v, candidate v -> allows b (VStd v) = true -> allows a (VStd v) = true.
Proof.
  intros a b H E v C Al.
  assert (G : (do r <- intersect_with a b; Ok (spec_eqb r b)) = Ok true -> allows a (VStd v) = true).
  { intro G. destruct (intersect_correct a b H) as (r & Er & D & U & V). rewrite Er in G. cbn [bind] in G. injection G as G.
    apply (V v C). apply (eq_allows r b v); [|exact G|exact C|exact Al].
    destruct H as [H|H]; [left|right]; (split; [auto|apply H]). }
  destruct a; try discriminate E; try (apply G; exact E). reflexivity.
Qed.
Lemma allows_any_sound : forall a b, (deny_free a /\ deny_free b) \/ (union_free a /\ union_free b) ->
  allows_any a b = Ok false -> forall v, candidate v -> ~ (allows a (VStd v) = true /\ allows b (VStd v) = true).
Proof.
  intros a b H E v C Al.
  assert (G : (do r <- intersect_with a b; Ok (negb (is_restrict r))) = Ok false -> False).
  { intro G. destruct (intersect_correct a b H) as (r & Er & D & U & V). rewrite Er in G. cbn [bind] in G. injection G as G.
    apply (V v C) in Al. destruct r; discriminate. }
  destruct a; try (apply G; exact E).
Qed.
(** converse of [allows_all_sound] for two ranges one of which lies between the bounds of the other *)
Lemma lo_leb_trans : forall a b c : option sv * bool, opt_plain (fst a) -> opt_plain (fst b) -> opt_plain (fst c) ->
  lo_leb a b = true -> lo_leb b c = true -> lo_leb a c = true.
Proof.
  intros [[p|] i] [[q|] j] [[r|] k] P Q R; unfold lo_leb; cbn [fst snd] in *; try discriminate; try reflexivity.
  specialize (P _ eq_refl). specialize (Q _ eq_refl). specialize (R _ eq_refl). ranks [p; q; r]. destruct i, j, k; cbn [implb]; bcase; auto.
Qed.
Lemma hi_leb_trans : forall a b c : option sv * bool, opt_plain (fst a) -> opt_plain (fst b) -> opt_plain (fst c) ->
  hi_leb a b = true -> hi_leb b c = true -> hi_leb a c = true.
Proof.
  intros [[p|] i] [[q|] j] [[r|] k] P Q R; unfold hi_leb; cbn [fst snd] in *; try discriminate; try reflexivity.
  specialize (P _ eq_refl). specialize (Q _ eq_refl). specialize (R _ eq_refl). ranks [p; q; r]. destruct i, j, k; cbn [implb]; bcase; auto.
Qed.
Lemma lo_antisym : forall a b : option sv * bool, opt_plain (fst a) -> opt_plain (fst b) -> lo_leb a b = true -> lo_leb b a = true ->
  opt_sv_eqb (fst a) (fst b) = true /\ (fst a <> None -> snd a = snd b).
Proof.
  intros [[p|] i] [[q|] j] P Q; unfold lo_leb, opt_sv_eqb; cbn [fst snd opt_eqb] in *; try discriminate; [|auto with bool; split; [reflexivity|congruence]].
  specialize (P _ eq_refl). specialize (Q _ eq_refl). ranks [p; q]. destruct i, j; cbn [implb]; bcase; auto; try discriminate.
Qed.
Lemma hi_antisym : forall a b : option sv * bool, opt_plain (fst a) -> opt_plain (fst b) -> hi_leb a b = true -> hi_leb b a = true ->
  opt_sv_eqb (fst a) (fst b) = true /\ (fst a <> None -> snd a = snd b).
Proof.
  intros [[p|] i] [[q|] j] P Q; unfold hi_leb, opt_sv_eqb; cbn [fst snd opt_eqb] in *; try discriminate; [|auto with bool; split; [reflexivity|congruence]].
  specialize (P _ eq_refl). specialize (Q _ eq_refl). ranks [p; q]. destruct i, j; cbn [implb]; bcase; auto; try discriminate.
Qed.
Lemma allows_all_ranges : forall mn mx i j mn' mx' i' j',
  wf_interval (mn, mx, i, j) -> wf_interval (mn', mx', i', j') -> subb (mn, mx, i, j) (mn', mx', i', j') = true ->
  allows_all (Range mn mx i j) (Range mn' mx' i' j') = Ok true.
Proof.
  intros mn mx i j mn' mx' i' j' Wa Wb S. unfold allows_all, intersect_with.
  destruct (fuel_ge (Range mn mx i j) (Range mn' mx' i' j')) as [f ->]. cbn [intersect].
  destruct (spec_eqb (Range mn mx i j) (Range mn' mx' i' j')) eqn:E; [cbn [bind]; rewrite E; reflexivity|].
  pose proof (range_intersect_check _ _ Wa Wb) as K.
  destruct (range_intersect (mn, mx, i, j) (mn', mx', i', j')) as [r|e] eqn:R; [|discriminate]. cbn [bind]. f_equal.
  pose proof (range_intersect_ends _ _ _ R) as En.
  destruct (wf_opt_plain _ _ _ _ Wa) as [P1 P2]. destruct (wf_opt_plain _ _ _ _ Wb) as [P3 P4].
  unfold subb in S. apply andb_true_iff in S. destruct S as [S1 S2].
  assert (T : forall rmn rmx ri rj, opt_plain rmn -> opt_plain rmx ->
     touched (mn, mx, i, j) (mn', mx', i', j') (rmn, rmx, ri, rj) = true ->
     (opt_sv_eqb rmn mn' = true /\ (rmn <> None -> ri = i')) /\ (opt_sv_eqb rmx mx' = true /\ (rmx <> None -> rj = j'))).
  { intros rmn rmx ri rj Q1 Q2 H. unfold touched, subb in H. rewrite !andb_true_iff in H.
    destruct H as [[[[H1 H2] [H3 H4]] H5] H6]. cbn [lo hi] in *. split.
    - apply (lo_antisym (rmn, ri) (mn', i')); cbn [fst]; auto. apply orb_true_iff in H5. destruct H5 as [H5|H5]; [|exact H5].
      apply (lo_leb_trans _ (mn, i)); cbn [fst]; auto.
    - apply (hi_antisym (rmx, rj) (mx', j')); cbn [fst]; auto. apply orb_true_iff in H6. destruct H6 as [H6|H6]; [|exact H6].
      apply (hi_leb_trans _ (mx, j)); cbn [fst]; auto. }
  destruct r as [| |l|bl sp|[| |v] [|]|rmn rmx ri rj]; try discriminate K; cbn [check_inter] in K.
  - exfalso. destruct Wb as (_ & B2 & B3 & _ & _ & B6). unfold crossb, lo_leb, hi_leb, lo, hi in *. cbn [fst snd] in *.
    destruct mn as [p|], mx as [q|], mn' as [p'|], mx' as [q'|]; cbn [orb] in K; try discriminate; 
    try specialize (P1 _ eq_refl); try specialize (P2 _ eq_refl); try specialize (P3 _ eq_refl); try specialize (P4 _ eq_refl);
    try specialize (B6 _ _ eq_refl eq_refl); clear En R E T Wa B2 B3.
    all: revert K S1 S2; try revert B6.
    all: match goal with
    | A4 : plain ?p, A5 : plain ?q, B4 : plain ?p', B5 : plain ?q' |- _ => ranks [p; q; p'; q']
    | A4 : plain ?p, A5 : plain ?q, B4 : plain ?p' |- _ => ranks [p; q; p']
    | A4 : plain ?p, A5 : plain ?q |- _ => ranks [p; q]
    end.
    all: repeat match goal with b : bool |- _ => destruct b end; cbn [andb orb negb implb]; bcase; try discriminate; auto.
  - exfalso. assert (Pv : opt_plain (Some v)).
    { destruct (En (Some v) (or_introl eq_refl)) as [[X|[X|[]]]|[X|[X|[]]]]; rewrite <- X; assumption. }
    destruct (T _ _ _ _ Pv Pv K) as [[X1 _] [X2 _]]. destruct Wb as (_ & _ & _ & _ & _ & B6). unfold opt_sv_eqb in *.
    destruct mn' as [p'|], mx' as [q'|]; try discriminate. cbn [opt_eqb] in *.
    specialize (B6 _ _ eq_refl eq_refl). specialize (P3 _ eq_refl). specialize (P4 _ eq_refl). specialize (Pv _ eq_refl).
    clear - X1 X2 B6 P3 P4 Pv. revert X1 X2 B6. ranks [v; p'; q']. bcase; discriminate.
  - apply andb_true_iff in K. destruct K as [K1 K2].
    assert (Q1 : opt_plain rmn).
    { destruct (En rmn (or_introl eq_refl)) as [[X|[X|[]]]|[X|[X|[]]]]; rewrite <- X; assumption. }
    assert (Q2 : opt_plain rmx).
    { destruct (En rmx (or_intror (or_introl eq_refl))) as [[X|[X|[]]]|[X|[X|[]]]]; rewrite <- X; assumption. }
    destruct (T _ _ _ _ Q1 Q2 K2) as [[X1 X2] [Y1 Y2]].
    cbn [spec_eqb]. rewrite X1, Y1, !andb_true_r. unfold wfb in K1. rewrite !andb_true_iff in K1. destruct K1 as [[[_ K3] K4] _].
    destruct Wb as (_ & B2 & B3 & _). apply andb_true_iff. split; apply eqb_true_iff.
    + destruct rmn; [apply X2; discriminate|]. destruct ri; [discriminate K3|]. destruct i'; [|reflexivity].
      destruct mn'; [discriminate X1|]. destruct (B2 eq_refl eq_refl).
    + destruct rmx; [apply Y2; discriminate|]. destruct rj; [discriminate K4|]. destruct j'; [|reflexivity].
      destruct mx'; [discriminate Y1|]. destruct (B3 eq_refl eq_refl).
Qed.
