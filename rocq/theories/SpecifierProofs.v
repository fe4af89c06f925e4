(** Proofs about version specifiers: intersection. *)
From Coq Require Import String Ascii List Bool NArith Arith Lia Permutation.
From Verif Require Import Base BaseFacts OrderFacts VersionModel VersionSpec VersionProofs
  SpecifierModel SpecifierSpec SpecRange.
Import ListNotations.
Open Scope string_scope.
Open Scope nat_scope.
Open Scope list_scope.
Open Scope bool_scope.

(** ** bounds *)
Lemma lo_leb_in : forall a r v, lo_leb a r = true -> in_lo (fst r) (snd r) v = true -> in_lo (fst a) (snd a) v = true.
Proof.
  intros [[m|] i] [[m'|] i'] v; cbn [lo_leb in_lo fst snd]; try discriminate; intros H1 H2; try reflexivity.
  apply orb_true_iff in H1. apply orb_true_iff in H2. apply orb_true_iff.
  destruct H1 as [H1|H1].
  - left. destruct H2 as [H2|H2]; [exact (spo_trans _ _ spo_sv _ _ _ H1 H2)|].
    apply andb_true_iff in H2. destruct H2 as [_ H2]. rewrite <- (spo_right _ _ spo_sv _ _ _ H2). exact H1.
  - apply andb_true_iff in H1. destruct H1 as [H1 Hi].
    destruct H2 as [H2|H2]; [left; rewrite (spo_left _ _ spo_sv _ _ _ H1); exact H2|].
    apply andb_true_iff in H2. destruct H2 as [-> H2]. cbn [implb] in Hi. destruct i; [|discriminate].
    right. rewrite (spo_eq_left _ _ _ spo_sv _ _ _ H1). exact H2.
Qed.
Lemma hi_leb_in : forall a r v, hi_leb a r = true -> in_hi (fst r) (snd r) v = true -> in_hi (fst a) (snd a) v = true.
Proof.
  intros [[m|] i] [[m'|] i'] v; cbn [hi_leb in_hi fst snd]; try discriminate; intros H1 H2; try reflexivity.
  apply orb_true_iff in H1. apply orb_true_iff in H2. apply orb_true_iff.
  destruct H1 as [H1|H1].
  - left. destruct H2 as [H2|H2]; [exact (spo_trans _ _ spo_sv _ _ _ H2 H1)|].
    apply andb_true_iff in H2. destruct H2 as [_ H2]. rewrite (spo_left _ _ spo_sv _ _ _ H2). exact H1.
  - apply andb_true_iff in H1. destruct H1 as [H1 Hi].
    destruct H2 as [H2|H2]; [left; rewrite <- (spo_right _ _ spo_sv _ _ _ H1); exact H2|].
    apply andb_true_iff in H2. destruct H2 as [-> H2]. cbn [implb] in Hi. destruct i; [|discriminate].
    right. cbn [andb]. exact (spo_eqtrans _ _ spo_sv _ _ _ H2 H1).
Qed.
Lemma in_rng_lohi : forall r v, in_rng r v = in_lo (fst (lo r)) (snd (lo r)) v && in_hi (fst (hi r)) (snd (hi r)) v.
Proof. intros [[[mn mx] i] j] v. reflexivity. Qed.
Lemma subb_in : forall a r v, subb a r = true -> in_rng r v = true -> in_rng a v = true.
Proof.
  intros a r v H. unfold subb in H. apply andb_true_iff in H. destruct H as [H1 H2].
  rewrite !in_rng_lohi, !andb_true_iff. intros [A B]. split; [eapply lo_leb_in; eauto|eapply hi_leb_in; eauto].
Qed.
Lemma touched_in : forall a b r v, touched a b r = true -> in_rng r v = in_rng a v && in_rng b v.
Proof.
  intros a b r v H. unfold touched in H. repeat rewrite andb_true_iff in H. destruct H as (((H1 & H2) & H3) & H4).
  destruct (in_rng r v) eqn:E.
  - rewrite (subb_in _ _ _ H1 E), (subb_in _ _ _ H2 E). reflexivity.
  - symmetry. destruct (in_rng a v) eqn:Ea; [|reflexivity]. destruct (in_rng b v) eqn:Eb; [|reflexivity].
    rewrite <- E. rewrite in_rng_lohi in *. apply andb_true_iff in Ea. apply andb_true_iff in Eb.
    destruct Ea as [A1 A2], Eb as [B1 B2]. cbn [andb].
    apply orb_true_iff in H3. apply orb_true_iff in H4. symmetry. apply andb_true_iff. split.
    + destruct H3 as [H3|H3]; eapply lo_leb_in; eauto.
    + destruct H4 as [H4|H4]; eapply hi_leb_in; eauto.
Qed.
Lemma crossb_in : forall l h v, crossb l h = true -> in_lo (fst l) (snd l) v && in_hi (fst h) (snd h) v = false.
Proof.
  intros [[m|] i] [[n|] j] v; cbn [crossb in_lo in_hi fst snd]; try discriminate. intro H.
  destruct (sv_ltb m v || i && sv_eqb m v) eqn:A; [|reflexivity].
  destruct (sv_ltb v n || j && sv_eqb v n) eqn:B; [|reflexivity]. exfalso.
  assert (L : sv_ltb n m = false).
  { destruct (sv_ltb n m) eqn:L; [|reflexivity]. apply orb_true_iff in A. apply orb_true_iff in B.
    assert (X : sv_ltb n v = true).
    { destruct A as [A|A]; [exact (spo_trans _ _ spo_sv _ _ _ L A)|]. apply andb_true_iff in A.
      rewrite <- (spo_right _ _ spo_sv _ _ _ (proj2 A)). exact L. }
    destruct B as [B|B].
    - rewrite (spo_asym _ _ _ spo_sv _ _ B) in X. discriminate.
    - apply andb_true_iff in B. rewrite (spo_sym _ _ spo_sv) in B. 
      rewrite (spo_irr _ _ spo_sv _ _ (proj2 B)) in X. discriminate. }
  rewrite L in H. cbn [orb] in H. apply andb_true_iff in H. destruct H as [E H].
  apply orb_true_iff in A. apply orb_true_iff in B.
  destruct A as [A|A].
  - destruct B as [B|B].
    + rewrite <- (spo_left _ _ spo_sv _ _ _ E) in A.
      rewrite (spo_asym _ _ _ spo_sv _ _ A) in B. discriminate.
    + apply andb_true_iff in B. destruct B as [_ B]. rewrite (spo_right _ _ spo_sv _ _ _ B) in A.
      rewrite <- (spo_left _ _ spo_sv _ _ _ E) in A.
      rewrite (spo_irr _ _ spo_sv _ _ (spo_refl _ _ spo_sv _)) in A. discriminate.
  - apply andb_true_iff in A. destruct A as [-> A]. destruct B as [B|B].
    + rewrite <- (spo_left _ _ spo_sv _ _ _ A) in B. rewrite (spo_right _ _ spo_sv _ _ _ E) in B.
      rewrite (spo_irr _ _ spo_sv _ _ (spo_refl _ _ spo_sv _)) in B. discriminate.
    + apply andb_true_iff in B. destruct B as [-> B]. discriminate.
Qed.

(** ** atoms *)
Lemma candidate_nolab : forall v, candidate v -> nolab v.
Proof. intros v [H _]. exact (plain_nolab _ H). Qed.
Lemma plain_not_local : forall v, plain v -> is_local (VStd v) = false.
Proof. intros v (_ & H & _). cbn. rewrite H. reflexivity. Qed.
Lemma plain_without_local : forall v, plain v -> without_local (VStd v) = VStd v.
Proof. intros v (_ & H & _). cbn. unfold sv_without_local. rewrite H. reflexivity. Qed.
Lemma match_allows_plain : forall m al v, plain m -> plain v ->
  match_allows (VStd m) al (VStd v) = if al then sv_eqb m v else negb (sv_eqb m v).
Proof.
  intros m al v Pm Pv. unfold match_allows. rewrite plain_not_local by exact Pm.
  rewrite plain_without_local by exact Pv. reflexivity.
Qed.
Definition in_atom (s : spec) (v : sv) : bool :=
  match bounds s with Some r => in_rng r v | None => false end.
Lemma point_in : forall m v, nolab m -> nolab v -> in_rng (Some m, Some m, true, true) v = sv_eqb m v.
Proof.
  intros m v Hm Hv. unfold in_rng, in_lo, in_hi. ranks [m; v]. bcase; reflexivity.
Qed.
Lemma atom_bounds : forall s, atom s -> exists r, bounds s = Some r.
Proof. intros [| | | |[| |v] [|]|] H; try contradiction; eexists; reflexivity. Qed.
Lemma atom_allows : forall s v, atom s -> candidate v -> allows s (VStd v) = in_atom s v.
Proof.
  intros [| | | |[| |m] [|]|mn mx i j] v H C; try contradiction; cbn [allows in_atom bounds].
  - rewrite match_allows_plain by (exact H || exact (proj1 C)).
    symmetry. apply point_in; [exact (plain_nolab _ H)|exact (candidate_nolab _ C)].
  - apply range_allows_in; assumption.
Qed.

(** the pieces of a specifier without "!=" *)
Definition segs_of (s : spec) : list spec :=
  match s with
  | RestrictAll => []
  | Union l => l
  | _ => [s]
  end.
Definition within (a x : spec) : Prop :=
  exists r r', bounds a = Some r /\ bounds x = Some r' /\ subb r r' = true.
Lemma subb_refl : forall r, subb r r = true.
Proof.
  assert (L : forall a, lo_leb a a = true).
  { intros [[m|] i]; [|reflexivity]. cbn [lo_leb hi_leb fst snd]. rewrite (spo_refl _ _ spo_sv). destruct i; apply orb_true_r. }
  assert (K : forall a, hi_leb a a = true).
  { intros [[m|] i]; [|reflexivity]. cbn [lo_leb hi_leb fst snd]. rewrite (spo_refl _ _ spo_sv). destruct i; apply orb_true_r. }
  intro r. unfold subb. rewrite L, K. reflexivity.
Qed.
Lemma within_refl : forall a, atom a -> within a a.
Proof. intros a H. destruct (atom_bounds _ H) as [r E]. exists r, r. auto using subb_refl. Qed.

Lemma below_within : forall a b x y, below a b -> within a x -> within b y -> below x y.
Proof.
  intros a b x y (mn & p & i & j & q & mx & i' & j' & Ea & Eb & H) (ra & rx & Ea' & Ex & Sx) (rb & ry & Eb' & Ey & Sy).
  rewrite Ea in Ea'. injection Ea' as <-. rewrite Eb in Eb'. injection Eb' as <-.
  destruct rx as [[[mnx mxx] ix] jx]. destruct ry as [[[mny mxy] iy] jy].
  unfold subb in Sx, Sy. apply andb_true_iff in Sx. apply andb_true_iff in Sy. destruct Sx as [_ Sx], Sy as [Sy _].
  unfold hi_leb, lo_leb, hi, lo in *. cbn [fst snd] in *.
  destruct mxx as [p'|]; [|discriminate]. destruct mny as [q'|]; [|discriminate].
  exists mnx, p', ix, jx, q', mxy, iy, jy. split; [exact Ex|]. split; [exact Ey|].
  apply orb_true_iff in Sx. apply orb_true_iff in Sy. rewrite andb_true_iff in Sx, Sy.
  rewrite <- sv_eqb_spec in *.
  assert (T := spo_trans _ _ spo_sv). 
  destruct H as [H|(H & -> & ->)].
  - left. assert (sv_ltb p' q = true).
    { destruct Sx as [Sx|[Sx _]]; [eapply T; eauto|]. rewrite (spo_left _ _ spo_sv _ _ _ Sx). exact H. }
    destruct Sy as [Sy|[Sy _]]; [eapply T; eauto|]. rewrite <- (spo_right _ _ spo_sv _ _ _ Sy). assumption.
  - destruct Sx as [Sx|[Sx Jx]].
    + left. rewrite (spo_right _ _ spo_sv _ _ _ H) in Sx. 
      destruct Sy as [Sy|[Sy _]]; [eapply T; eauto|]. rewrite <- (spo_right _ _ spo_sv _ _ _ Sy). assumption.
    + destruct Sy as [Sy|[Sy Iy]].
      * left. rewrite (spo_left _ _ spo_sv _ _ _ Sx), (spo_left _ _ spo_sv _ _ _ H). exact Sy.
      * right. split; [|destruct jx, iy; cbn in *; try discriminate; auto].
        eapply (spo_eqtrans _ _ spo_sv); [exact Sx|]. eapply (spo_eqtrans _ _ spo_sv); [exact H|exact Sy].
Qed.
Lemma apart_within : forall a b x y, apart a b -> within a x -> within b y -> apart x y.
Proof. intros a b x y [H|H] Hx Hy; [left|right]; eapply below_within; eauto. Qed.
Lemma apart_sym : forall a b, apart a b -> apart b a.
Proof. intros a b [H|H]; [right|left]; exact H. Qed.

(** ** sorting *)
Lemma insert_by_perm : forall A (lt : A -> A -> bool) x l, Permutation (insert_by lt x l) (x :: l).
Proof.
  induction l as [|y l IH]; [reflexivity|]. cbn. destruct (lt x y); [reflexivity|].
  rewrite IH. apply perm_swap.
Qed.
Lemma sort_by_perm : forall A (lt : A -> A -> bool) l, Permutation (sort_by lt l) l.
Proof.
  intros A lt l. unfold sort_by.
  assert (H : forall l acc, Permutation (fold_left (fun acc x => insert_by lt x acc) l acc) (acc ++ l)).
  { induction l0 as [|x l0 IH]; intro acc; cbn; [rewrite app_nil_r; reflexivity|].
    rewrite IH, insert_by_perm. cbn. apply Permutation_middle. }
  apply (H l []).
Qed.
Lemma existsb_perm : forall A (f : A -> bool) l l', Permutation l l' -> existsb f l = existsb f l'.
Proof.
  intros A f l l' H. destruct (existsb f l) eqn:E.
  - symmetry. apply existsb_exists in E. destruct E as (x & Hx & Hf). apply existsb_exists.
    exists x. split; [eapply Permutation_in; eauto|exact Hf].
  - destruct (existsb f l') eqn:E'; [|reflexivity]. apply existsb_exists in E'. destruct E' as (x & Hx & Hf).
    rewrite <- E. apply existsb_exists. exists x. split; [eapply Permutation_in; [symmetry|]; eauto|exact Hf].
Qed.
Lemma FOP_perm : forall A (R : A -> A -> Prop), (forall a b, R a b -> R b a) ->
  forall l l', Permutation l l' -> ForallOrdPairs R l -> ForallOrdPairs R l'.
Proof.
  intros A R S l l' H. induction H as [|x l l' H IH|x y l|l l' l'' H1 IH1 H2 IH2]; intro F.
  - exact F.
  - inversion F as [|? ? F1 F2]; subst. constructor; [|exact (IH F2)].
    rewrite Forall_forall in *. intros z Hz. apply F1. eapply Permutation_in; [symmetry|]; eauto.
  - inversion F as [|? ? F1 F2]; subst. inversion F2 as [|? ? F3 F4]; subst. inversion F1; subst.
    constructor; [constructor; auto|constructor; assumption].
  - auto.
Qed.
Lemma FOP_app : forall A (R : A -> A -> Prop) l l', ForallOrdPairs R (l ++ l') <->
  ForallOrdPairs R l /\ ForallOrdPairs R l' /\ (forall x y, In x l -> In y l' -> R x y).
Proof.
  intros A R l l'. induction l as [|a l IH]; cbn.
  - split; [intro H; split; [constructor|split; [exact H|contradiction]]|intros (_ & H & _); exact H].
  - split.
    + intro H. inversion H as [|? ? F1 F2]; subst. apply IH in F2. destruct F2 as (P & Q & S).
      rewrite Forall_forall in F1. split; [constructor; [|exact P]|split; [exact Q|]].
      * apply Forall_forall. intros x Hx. apply F1. apply in_or_app. auto.
      * intros x y [<-|Hx] Hy; [apply F1; apply in_or_app; auto|auto].
    + intros (P & Q & S). inversion P as [|? ? F1 F2]; subst. constructor.
      * rewrite Forall_forall in *. intros x Hx. apply in_app_or in Hx. destruct Hx; auto.
      * apply IH. split; [exact F2|]. split; [exact Q|]. intros x y Hx Hy. apply S; auto.
Qed.

(** ** union of atoms that are apart *)
Lemma atom_not_all : forall s, atom s -> is_restrict s || is_allow s = false.
Proof. intros [| | | |? ?|] H; try contradiction; reflexivity. Qed.
Lemma mk_union_atoms : forall l, 2 <= length l -> Forall atom l -> mk_union l = Ok (Union (sort_by spec_lt l)).
Proof.
  intros l H F. unfold mk_union. destruct (Nat.leb_spec (length l) 1); [lia|].
  assert (existsb (fun s => is_restrict s || is_allow s) l = false) as ->; [|reflexivity].
  apply not_true_iff_false. intro E. apply existsb_exists in E. destruct E as (x & Hx & E).
  rewrite Forall_forall in F. rewrite atom_not_all in E by auto. discriminate.
Qed.

Lemma range_ltb_below : forall mn p i j q mx i' j', 
  wf_interval (mn, Some p, i, j) -> wf_interval (Some q, mx, i', j') ->
  (sv_ltb p q = true \/ (sv_eqb p q = true /\ j = false /\ i' = false)) ->
  range_ltb (mn, Some p, i, j) (Some q, mx, i', j') = true /\
  range_ltb (Some q, mx, i', j') (mn, Some p, i, j) = false /\
  spec_eqb (Range mn (Some p) i j) (Range (Some q) mx i' j') = false /\
  spec_eqb (Range (Some q) mx i' j') (Range mn (Some p) i j) = false /\
  sv_ltb q p = false /\ ((negb j && negb i') || negb (opt_sv_eqb (Some q) (Some p))) = true.
Proof.
  intros mn p i j q mx i' j' (_ & A2 & _ & A4 & A5 & A6) (_ & _ & B3 & B4 & B5 & B6) H.
  specialize (A5 _ eq_refl). specialize (B4 _ eq_refl).
  unfold range_ltb. cbn [spec_eqb].
  destruct mn as [m|], mx as [n|].
  - specialize (A4 _ eq_refl). specialize (B5 _ eq_refl). specialize (A6 _ _ eq_refl eq_refl). specialize (B6 _ _ eq_refl eq_refl).
    clear A2 B3. unfold opt_sv_eqb. cbn [opt_eqb is_some is_none negb]. ranks [m; p; q; n].
    destruct H as [H|(H & -> & ->)]; destruct i; try destruct j; try destruct i'; destruct j'; cbn [andb orb negb Bool.eqb]; bcase; repeat split; reflexivity.
  - specialize (A4 _ eq_refl). specialize (A6 _ _ eq_refl eq_refl).
    clear A2 B3. unfold opt_sv_eqb. cbn [opt_eqb is_some is_none negb]. ranks [m; p; q].
    destruct H as [H|(H & -> & ->)]; destruct i; try destruct j; try destruct i'; destruct j'; cbn [andb orb negb Bool.eqb]; bcase; repeat split; reflexivity.
  - specialize (B5 _ eq_refl). specialize (B6 _ _ eq_refl eq_refl).
    clear A2 B3. unfold opt_sv_eqb. cbn [opt_eqb is_some is_none negb]. ranks [p; q; n].
    destruct H as [H|(H & -> & ->)]; destruct i; try destruct j; try destruct i'; destruct j'; cbn [andb orb negb Bool.eqb]; bcase; repeat split; reflexivity.
  - clear A2 B3. unfold opt_sv_eqb. cbn [opt_eqb is_some is_none negb]. ranks [p; q].
    destruct H as [H|(H & -> & ->)]; destruct i; try destruct j; try destruct i'; destruct j'; cbn [andb orb negb Bool.eqb]; bcase; repeat split; reflexivity.
Qed.

Ltac fa2 := constructor; [assumption|constructor; [assumption|constructor]].
Definition apart_union (r : res spec) (l : list spec) : Prop :=
  exists l', r = Ok (Union l') /\ Permutation l' l.
Lemma mk_union_apart : forall l, 2 <= length l -> Forall atom l -> apart_union (mk_union l) l.
Proof. intros l H F. rewrite mk_union_atoms by assumption. eexists. split; [reflexivity|apply sort_by_perm]. Qed.

Lemma spo_sv_eq_lt : forall a b, sv_eqb a b = true -> sv_ltb a b = true -> False.
Proof. intros a b E L. rewrite (spo_irr _ _ spo_sv _ _ E) in L. discriminate. Qed.

Lemma match_range_below : forall f v mn mx i j, plain v -> wf_interval (mn, mx, i, j) ->
  apart (Match (VStd v) true) (Range mn mx i j) ->
  apart_union (union (S f) (Match (VStd v) true) (Range mn mx i j)) [Match (VStd v) true; Range mn mx i j].
Proof.
  intros f v mn mx i j Pv W Ap.
  assert (N : range_allows mn mx i j (VStd v) = false /\
              (match mn with Some m => version_eqb (VStd v) (VStd m) | None => false end) = false /\
              (match mx with Some m => version_eqb (VStd v) (VStd m) | None => false end) = false).
  { unfold range_allows. cbn [version_eqb version_ltb]. destruct W as (W1 & W2 & W3 & W4 & W5 & W6).
    destruct Ap as [(mn0 & x & i0 & j0 & y & mx0 & i1 & j1 & E1 & E2 & H)|(mn0 & x & i0 & j0 & y & mx0 & i1 & j1 & E1 & E2 & H)].
    - cbn in E1, E2. injection E1 as <- <- <- <-. injection E2 as -> -> -> ->.
      destruct H as [H|(_ & ? & _)]; [|discriminate]. specialize (W4 _ eq_refl).
      destruct mx0 as [n|].
      + specialize (W5 _ eq_refl). specialize (W6 _ _ eq_refl eq_refl). ranks [v; y; n].
        destruct i1, j1; bcase; repeat split; destruct (is_post_release (VStd v) && negb (is_some (post_release y))); reflexivity.
      + ranks [v; y].
        destruct i1, j1; bcase; repeat split; destruct (is_post_release (VStd v) && negb (is_some (post_release y))); reflexivity.
    - cbn in E1, E2. injection E2 as <- <- <- <-. injection E1 as -> -> -> ->.
      destruct H as [H|(_ & _ & ?)]; [|discriminate]. specialize (W5 _ eq_refl).
      destruct mn0 as [n|].
      + specialize (W4 _ eq_refl). specialize (W6 _ _ eq_refl eq_refl). ranks [v; x; n].
        destruct i0, j0; bcase; repeat split; destruct (is_post_release (VStd v) && negb (is_some (post_release n))); reflexivity.
      + ranks [v; x].
        destruct i0, j0; bcase; repeat split; destruct (is_post_release (VStd v)); reflexivity. }
  destruct N as (N1 & N2 & N3). cbn [union]. rewrite N1, N2, N3. cbn [negb]. rewrite !andb_false_r.
  apply mk_union_apart; [cbn; lia|]. fa2.
Qed.

Lemma union_atoms_apart : forall f a b, atom a -> atom b -> apart a b ->
  apart_union (union (S (S f)) a b) [a; b].
Proof.
  intros f a b Ha Hb Ap.
  destruct a as [| | | |[| |v] [|]|mn mx i j]; try contradiction;
  destruct b as [| | | |[| |v'] [|]|mn' mx' i' j']; try contradiction.
  - assert (E : sv_eqb v v' = false).
    { destruct Ap as [(mn0 & x & i0 & j0 & y & mx0 & i1 & j1 & E1 & E2 & H)|(mn0 & x & i0 & j0 & y & mx0 & i1 & j1 & E1 & E2 & H)];
      cbn in E1, E2; injection E1 as <- <- <- <-; injection E2 as <- <- <- <-;
      (destruct H as [H|(_ & ? & _)]; [|discriminate]).
      - destruct (sv_eqb v v') eqn:E; [|reflexivity]. destruct (spo_sv_eq_lt _ _ E H).
      - destruct (sv_eqb v v') eqn:E; [|reflexivity]. rewrite (spo_sym _ _ spo_sv) in E. destruct (spo_sv_eq_lt _ _ E H). }
    cbn [union spec_eqb Bool.eqb andb version_eqb]. rewrite E. cbn [andb].
    apply mk_union_apart; [cbn; lia|]. fa2.
  - apply match_range_below; assumption.
  - destruct (match_range_below f v' mn mx i j Hb Ha (apart_sym _ _ Ap)) as (l & E & P).
    exists l. split; [exact E|]. rewrite P. apply perm_swap.
  - assert (X : forall mn p i j q mx i' j',
      wf_interval (mn, Some p, i, j) -> wf_interval (Some q, mx, i', j') ->
      (sv_ltb p q = true \/ (same_version p q /\ j = false /\ i' = false)) ->
      apart_union (union (S (S f)) (Range mn (Some p) i j) (Range (Some q) mx i' j')) [Range mn (Some p) i j; Range (Some q) mx i' j'] /\
      apart_union (union (S (S f)) (Range (Some q) mx i' j') (Range mn (Some p) i j)) [Range mn (Some p) i j; Range (Some q) mx i' j']).
    { clear. intros mn p i j q mx i' j' Wa Wb H. rewrite <- sv_eqb_spec in H.
      destruct (range_ltb_below _ _ _ _ _ _ _ _ Wa Wb H) as (L1 & L2 & E1 & E2 & G1 & G2).
      assert (U : apart_union (range_union_ordered (mn, Some p, i, j) (Some q, mx, i', j')) [Range mn (Some p) i j; Range (Some q) mx i' j']).
      { cbn [range_union_ordered]. rewrite G1, G2. apply mk_union_apart; [cbn; lia|]. fa2. }
      split; cbn [union]; [rewrite E1|rewrite E2]; unfold range_union; [rewrite L2|rewrite L1]; exact U. }
    destruct Ap as [(mn0 & x & i0 & j0 & y & mx0 & i1 & j1 & E1 & E2 & H)|(mn0 & x & i0 & j0 & y & mx0 & i1 & j1 & E1 & E2 & H)];
    cbn in E1, E2.
    + injection E1 as -> -> -> ->. injection E2 as -> -> -> ->. apply (X _ _ _ _ _ _ _ _ Ha Hb H).
    + injection E1 as -> -> -> ->. injection E2 as -> -> -> ->.
      destruct (X _ _ _ _ _ _ _ _ Hb Ha H) as [_ (l & E & P)]. exists l. split; [exact E|]. rewrite P. apply perm_swap.
Qed.

Lemma union_loop_apart : forall others f segs, Forall atom (segs ++ others) -> ForallOrdPairs apart (segs ++ others) ->
  2 <= length (segs ++ others) -> length others + 3 <= f ->
  apart_union (union_loop f segs others) (segs ++ others).
Proof.
  induction others as [|o others IH]; intros f segs A P L F; (destruct f as [|f]; [lia|]); cbn [union_loop].
  - rewrite app_nil_r in *. apply mk_union_apart; assumption.
  - assert (Q : forall l i, (forall x, In x l -> In x segs) ->
      (fix go (i : nat) (l : list spec) : res (spec + list spec * list spec) :=
            match l with
            | [] => Ok (inr (segs ++ [o], others))
            | es :: l' =>
                do us <- union f o es;
                match us with
                | AllowAll => Ok (inl AllowAll)
                | RestrictAll => Ok (inr (segs, others))
                | Union _ => go (S i) l'
                | _ => Ok (inr (remove_at i segs, us :: others))
                end
            end) i l = Ok (inr (segs ++ [o], others))).
    { induction l as [|e l IHl]; intros i H; [reflexivity|].
      destruct f as [|[|f]]; [simpl in F; lia|simpl in F; lia|].
      destruct (union_atoms_apart f o e) as (l' & E & _).
      - rewrite Forall_forall in A. apply A. apply in_or_app. right. left. reflexivity.
      - rewrite Forall_forall in A. apply A. apply in_or_app. left. apply H. left. reflexivity.
      - apply FOP_app in P. destruct P as (_ & _ & P). apply apart_sym. apply P; [apply H; left; reflexivity|left; reflexivity].
      - rewrite E. cbn [bind]. apply IHl. intros x Hx. apply H. right. exact Hx. }
    rewrite (Q segs 0) by auto. cbn [bind].
    replace (segs ++ o :: others) with ((segs ++ [o]) ++ others) in * by (rewrite <- app_assoc; reflexivity).
    apply IH; try assumption. simpl in F. lia.
Qed.

(** specifiers made of pieces: nothing, an atom or a proper union *)
Definition norm (s : spec) : Prop := deny_free s /\ s <> AllowAll.
Lemma norm_segs : forall s, norm s -> Forall atom (segs_of s) /\ ForallOrdPairs apart (segs_of s).
Proof.
  intros [| |l|bl s|v al|mn mx i j] [H N]; cbn in *; try contradiction.
  - split; constructor.
  - tauto.
  - split; (constructor; [try exact H|]); constructor.
  - split; (constructor; [try exact H|]); constructor.
Qed.
Lemma union_norm : forall l l', 2 <= length l' -> Permutation l l' -> Forall atom l' -> ForallOrdPairs apart l' -> norm (Union l).
Proof.
  intros l l' L P A F. split; [|discriminate]. split; [rewrite (Permutation_length P); exact L|]. split.
  - rewrite Forall_forall in *. intros x Hx. apply A. eapply Permutation_in; eauto.
  - eapply FOP_perm; [exact apart_sym|symmetry; exact P|exact F].
Qed.
Lemma norm_dec : forall s, norm s -> s = RestrictAll \/ atom s \/ exists l, s = Union l.
Proof.
  intros [| |l|bl s|v al|mn mx i j] [H N]; cbn in *; auto; try congruence; try contradiction; eauto.
Qed.
Lemma atom_segs : forall s, atom s -> segs_of s = [s].
Proof. intros [| | | |? ?|] H; try contradiction; reflexivity. Qed.
Lemma atom_norm : forall s, atom s -> norm s.
Proof. intros [| | | |? ?|] H; try contradiction; (split; [exact H|discriminate]). Qed.
Lemma size_pos : forall s, 1 <= spec_size s.
Proof. intros [| | | | |]; cbn; lia. Qed.
Lemma size_union : forall l, length l < spec_size (Union l).
Proof.
  intro l. cbn [spec_size]. assert (length l <= fold_right (fun x n => spec_size x + n) 0 l); [|lia].
  induction l as [|x l IH]; cbn; [lia|]. pose proof (size_pos x). lia.
Qed.

Lemma union_with_apart : forall a b, norm a -> norm b ->
  (forall x y, In x (segs_of a) -> In y (segs_of b) -> apart x y) ->
  exists r, union_with a b = Ok r /\ norm r /\ Permutation (segs_of r) (segs_of a ++ segs_of b).
Proof.
  intros a b Na Nb Ap.
  assert (FA : Forall atom (segs_of a ++ segs_of b)).
  { apply Forall_app. split; apply norm_segs; assumption. }
  assert (FP : ForallOrdPairs apart (segs_of a ++ segs_of b)).
  { apply FOP_app. split; [apply norm_segs; assumption|]. split; [apply norm_segs; assumption|exact Ap]. }
  assert (U : forall r, apart_union r (segs_of a ++ segs_of b) -> 2 <= length (segs_of a ++ segs_of b) ->
    exists s, r = Ok s /\ norm s /\ Permutation (segs_of s) (segs_of a ++ segs_of b)).
  { intros r (l & -> & P) L. exists (Union l). split; [reflexivity|]. split; [|exact P].
    eapply union_norm; eauto. }
  unfold union_with. remember (union_fuel a b) as f eqn:Ef.
  assert (Hf : length (segs_of a) + length (segs_of b) + 8 <= f).
  { subst f. unfold union_fuel. 
    assert (S : forall s, length (segs_of s) <= spec_size s).
    { intros [| |l| | |]; cbn [segs_of length spec_size]; try lia. pose proof (size_union l). cbn [spec_size] in *. lia. }
    pose proof (S a). pose proof (S b). lia. }
  clear Ef.
  destruct f as [|[|[|[|f]]]]; try lia.
  destruct (norm_dec _ Na) as [->|[Aa|[la ->]]].
  - exists b. split; [reflexivity|]. split; [exact Nb|reflexivity].
  - rewrite (atom_segs _ Aa) in *. destruct (norm_dec _ Nb) as [->|[Ab|[lb ->]]].
    + exists a. rewrite (atom_segs _ Aa). split; [|split; [exact Na|reflexivity]].
      destruct a as [| | | |? ?|]; try contradiction; reflexivity.
    + rewrite (atom_segs _ Ab) in *. apply U; [|cbn; lia].
      apply union_atoms_apart; try assumption. apply Ap; left; reflexivity.
    + assert (X : exists r, union_loop (S (S f)) lb [a] = Ok r /\ norm r /\ Permutation (segs_of r) ([a] ++ segs_of (Union lb))).
      { destruct Nb as [(L & _) _]. cbn [segs_of] in *.
        assert (G : Permutation (lb ++ [a]) ([a] ++ lb)) by apply Permutation_app_comm.
        assert (L' : 2 <= length (lb ++ [a])) by (rewrite app_length; lia).
        destruct (union_loop_apart [a] (S (S f)) lb) as (l & E & P).
        - rewrite Forall_forall in *. intros x Hx. apply FA. eapply Permutation_in; eauto.
        - eapply FOP_perm; [exact apart_sym|symmetry; exact G|exact FP].
        - exact L'.
        - cbn in *. lia.
        - exists (Union l). split; [exact E|]. split; [|cbn [segs_of]; rewrite P; exact G].
          eapply union_norm; [|rewrite P; exact G|exact FA|exact FP]. cbn. lia. }
      destruct a as [| | | |? ?|]; try contradiction; exact X.
  - cbn [segs_of] in *. pose proof Na as [(L & _) _].
    destruct (norm_dec _ Nb) as [->|[Ab|[lb ->]]].
    + exists (Union la). split; [reflexivity|]. split; [exact Na|]. cbn. rewrite app_nil_r. reflexivity.
    + rewrite (atom_segs _ Ab) in *.
      assert (X : union (S (S (S (S f)))) (Union la) b = union_loop (S (S (S f))) la [b]).
      { destruct b as [| | | |? ?|]; try contradiction; reflexivity. }
      rewrite X. apply U; [|rewrite app_length; cbn; lia]. 
      apply union_loop_apart; try assumption; [rewrite app_length; cbn; lia|cbn in *; lia].
    + cbn [segs_of union] in *.
      assert (G : Permutation (la ++ rev lb) (la ++ lb)).
      { apply Permutation_app_head. symmetry. apply Permutation_rev. }
      assert (L' : 2 <= length (la ++ lb)) by (rewrite app_length; lia).
      destruct (union_loop_apart (rev lb) (S (S (S f))) la) as (l & E & P).
      * rewrite Forall_forall in *. intros x Hx. apply FA. eapply Permutation_in; eauto.
      * eapply FOP_perm; [exact apart_sym|symmetry; exact G|exact FP].
      * rewrite (Permutation_length G). exact L'.
      * rewrite rev_length. lia.
      * exists (Union l). split; [exact E|]. split; [|cbn [segs_of]; rewrite P; exact G].
        eapply union_norm; [exact L'|rewrite P; exact G|exact FA|exact FP].
Qed.

(** ** intersection of specifiers without "!=" *)
Definition inter_ok (a b r : spec) : Prop :=
  norm r /\
  (forall x, In x (segs_of r) -> (exists s, In s (segs_of a) /\ within s x) /\ (exists t, In t (segs_of b) /\ within t x)) /\
  (forall v, candidate v -> allows r (VStd v) = allows a (VStd v) && allows b (VStd v)).

Lemma candidate_equal : forall v w, candidate v -> plain w -> sv_eqb w v = true -> candidate w.
Proof.
  intros v w [Pv Cv] Pw E. apply sv_eqb_spec in E. destruct E as [(_ & _ & _ & E & _) _].
  split; [exact Pw|]. rewrite E. exact Cv.
Qed.
Lemma in_rng_congr : forall r v w, sv_eqb v w = true -> in_rng r v = in_rng r w.
Proof.
  intros [[[mn mx] i] j] v w E. unfold in_rng, in_lo, in_hi. f_equal.
  - destruct mn as [m|]; [|reflexivity]. rewrite (spo_right _ _ spo_sv _ _ _ E).
    rewrite (spo_sym _ _ spo_sv m v), (spo_sym _ _ spo_sv m w), (spo_eq_left _ _ _ spo_sv _ _ _ E). reflexivity.
  - destruct mx as [m|]; [|reflexivity]. rewrite (spo_left _ _ spo_sv _ _ _ E), (spo_eq_left _ _ _ spo_sv _ _ _ E). reflexivity.
Qed.
Lemma range_allows_sub : forall mn mx i j v, wf_interval (mn, mx, i, j) -> plain v ->
  range_allows mn mx i j (VStd v) = true -> subb (mn, mx, i, j) (Some v, Some v, true, true) = true.
Proof.
  intros mn mx i j v (W1 & W2 & W3 & W4 & W5 & W6) Pv. unfold range_allows, subb, lo_leb, hi_leb, lo, hi.
  cbn [fst snd version_eqb version_ltb implb].
  destruct mn as [m|], mx as [n|]; cbn [implb].
  - specialize (W4 _ eq_refl). specialize (W5 _ eq_refl). specialize (W6 _ _ eq_refl eq_refl).
    ranks [m; n; v]. destruct (is_post_release (VStd v) && negb (is_some (post_release m))); destruct i, j; bcase; congruence.
  - specialize (W4 _ eq_refl). ranks [m; v].
    destruct (is_post_release (VStd v) && negb (is_some (post_release m))); destruct i; bcase; congruence.
  - specialize (W5 _ eq_refl). ranks [n; v]. destruct (is_post_release (VStd v) && true); destruct j; bcase; congruence.
  - reflexivity.
Qed.

Lemma match_range_inter : forall f v mn mx i j, plain v -> wf_interval (mn, mx, i, j) ->
  exists r, intersect (S f) (Match (VStd v) true) (Range mn mx i j) = Ok r /\
    inter_ok (Match (VStd v) true) (Range mn mx i j) r.
Proof.
  intros f v mn mx i j Pv W. cbn [intersect is_std andb].
  destruct (range_allows mn mx i j (VStd v)) eqn:E.
  - eexists. split; [reflexivity|]. split; [apply atom_norm; exact Pv|]. split.
    + intros x [<-|[]]. split.
      * exists (Match (VStd v) true). split; [left; reflexivity|apply within_refl; exact Pv].
      * exists (Range mn mx i j). split; [left; reflexivity|]. do 2 eexists. split; [reflexivity|]. split; [reflexivity|].
        apply range_allows_sub; assumption.
    + intros w C. rewrite (atom_allows (Match (VStd v) true) w Pv C), (atom_allows (Range mn mx i j) w W C).
      cbn [in_atom bounds]. rewrite point_in by eauto using plain_nolab, candidate_nolab.
      destruct (sv_eqb v w) eqn:Ew; [|reflexivity].
      rewrite <- (in_rng_congr _ _ _ Ew). symmetry. cbn [andb].
      eapply subb_in; [apply range_allows_sub; eassumption|].
      rewrite point_in by eauto using plain_nolab. apply (spo_refl _ _ spo_sv).
  - eexists. split; [reflexivity|]. split; [split; [exact I|discriminate]|]. split; [intros x []|].
    intros w C. rewrite (atom_allows (Match (VStd v) true) w Pv C), (atom_allows (Range mn mx i j) w W C).
    cbn [in_atom bounds allows]. rewrite point_in by eauto using plain_nolab, candidate_nolab.
    destruct (sv_eqb v w) eqn:Ew; [|reflexivity].
    rewrite <- (in_rng_congr _ _ _ Ew). symmetry. cbn [andb].
    rewrite <- range_allows_in; [exact E|exact W|]. eapply candidate_equal; eassumption.
Qed.

Lemma inter_ok_sym : forall a b r, inter_ok a b r -> inter_ok b a r.
Proof.
  intros a b r (H1 & H2 & H3). split; [exact H1|]. split.
  - intros x Hx. apply and_comm. apply H2. exact Hx.
  - intros v C. rewrite andb_comm. apply H3. exact C.
Qed.

Lemma check_inter_ok : forall mn mx i j mn' mx' i' j' r,
  wf_interval (mn, mx, i, j) -> wf_interval (mn', mx', i', j') ->
  range_intersect (mn, mx, i, j) (mn', mx', i', j') = Ok r ->
  inter_ok (Range mn mx i j) (Range mn' mx' i' j') r.
Proof.
  intros mn mx i j mn' mx' i' j' r Wa Wb E.
  pose proof (range_intersect_check _ _ Wa Wb) as K. rewrite E in K.
  pose proof (range_intersect_ends _ _ _ E) as N.
  assert (PE : forall m, In (Some m) (spec_ends r) -> plain m).
  { intros m Hm. destruct (N _ Hm) as [[H|[H|[]]]|[H|[H|[]]]].
    - eapply wf_lo; [exact Wa|exact H].
    - eapply wf_hi; [exact Wa|exact H].
    - eapply wf_lo; [exact Wb|exact H].
    - eapply wf_hi; [exact Wb|exact H]. }
  destruct r as [| |l|bl s|[| |v] [|]|m n k l]; try discriminate K; cbn [check_inter] in K.
  - split; [split; [exact I|discriminate]|]. split; [intros x []|].
    intros v C. rewrite (atom_allows (Range mn mx i j) v Wa C), (atom_allows (Range mn' mx' i' j') v Wb C).
    cbn [allows in_atom bounds in_rng]. apply orb_true_iff in K. symmetry. destruct K as [K|K].
    + apply (crossb_in _ _ v) in K. cbn in K.
      destruct (in_lo mn i v); cbn in *; [rewrite K, andb_false_r, andb_false_r; reflexivity|reflexivity].
    + apply (crossb_in _ _ v) in K. cbn in K.
      destruct (in_lo mn' i' v); cbn in *; [rewrite K, andb_false_r; reflexivity|apply andb_false_r].
  - assert (A : atom (Match (VStd v) true)) by (apply PE; left; reflexivity).
    pose proof K as K'. unfold touched in K'. repeat rewrite andb_true_iff in K'. destruct K' as (((K1 & K2) & _) & _).
    split; [apply atom_norm; exact A|]. split.
    + intros x [<-|[]]. split; [exists (Range mn mx i j)|exists (Range mn' mx' i' j')];
      (split; [left; reflexivity|]); do 2 eexists; (split; [reflexivity|]); (split; [reflexivity|assumption]).
    + intros w C. rewrite (atom_allows _ w A C), (atom_allows (Range mn mx i j) w Wa C), (atom_allows (Range mn' mx' i' j') w Wb C).
      cbn [in_atom bounds]. apply touched_in. exact K.
  - apply andb_true_iff in K. destruct K as [Kw K].
    assert (A : atom (Range m n k l)).
    { cbn in Kw. repeat rewrite andb_true_iff in Kw. destruct Kw as (((Y1 & Y2) & Y3) & Y4).
      repeat split.
      - destruct m; [left; discriminate|]. destruct n; [right; discriminate|]. discriminate.
      - intros ->. destruct m; [discriminate|]. discriminate.
      - intros ->. destruct n; [discriminate|]. discriminate.
      - apply PE. left. congruence.
      - apply (PE m0). left. congruence.
      - apply (PE m0). left. congruence.
      - apply (PE m0). right. left. congruence.
      - apply (PE m0). right. left. congruence.
      - apply (PE m0). right. left. congruence.
      - intros a b -> ->. exact Y4. }
    pose proof K as K'. unfold touched in K'. repeat rewrite andb_true_iff in K'. destruct K' as (((K1 & K2) & _) & _).
    split; [apply atom_norm; exact A|]. split.
    + intros x [<-|[]]. split; [exists (Range mn mx i j)|exists (Range mn' mx' i' j')];
      (split; [left; reflexivity|]); do 2 eexists; (split; [reflexivity|]); (split; [reflexivity|assumption]).
    + intros w C. rewrite (atom_allows _ w A C), (atom_allows (Range mn mx i j) w Wa C), (atom_allows (Range mn' mx' i' j') w Wb C).
      cbn [in_atom bounds]. apply touched_in. exact K.
Qed.

Lemma range_eq_sub : forall mn mx i j mn' mx' i' j',
  spec_eqb (Range mn mx i j) (Range mn' mx' i' j') = true ->
  i = i' /\ j = j' /\ opt_sv_eqb mn mn' = true /\ opt_sv_eqb mx mx' = true.
Proof.
  intros. cbn [spec_eqb] in H. repeat rewrite andb_true_iff in H. destruct H as (((H1 & H2) & H3) & H4).
  apply eqb_prop in H1. apply eqb_prop in H2. auto.
Qed.
Lemma range_eq_subb : forall mn mx i j mn' mx' i' j',
  spec_eqb (Range mn mx i j) (Range mn' mx' i' j') = true ->
  subb (mn', mx', i', j') (mn, mx, i, j) = true /\ forall v, in_rng (mn, mx, i, j) v = in_rng (mn', mx', i', j') v.
Proof.
  intros mn mx i j mn' mx' i' j' H. apply range_eq_sub in H. destruct H as (-> & -> & H1 & H2).
  unfold opt_sv_eqb in *. split.
  - unfold subb, lo_leb, hi_leb, lo, hi. cbn [fst snd].
    destruct mn as [m|], mn' as [m'|]; try discriminate H1; destruct mx as [n|], mx' as [n'|]; try discriminate H2;
    cbn [opt_eqb] in *; rewrite ?H2; try (rewrite (spo_sym _ _ spo_sv) in H1; rewrite H1);
    destruct i', j'; cbn [andb implb]; rewrite ?orb_true_r; reflexivity.
  - intro v. unfold in_rng, in_lo, in_hi. f_equal.
    + destruct mn as [m|], mn' as [m'|]; try discriminate H1; [|reflexivity].
      cbn [opt_eqb] in H1. rewrite (spo_left _ _ spo_sv _ _ _ H1), (spo_eq_left _ _ _ spo_sv _ _ _ H1). reflexivity.
    + destruct mx as [m|], mx' as [m'|]; try discriminate H2; [|reflexivity].
      cbn [opt_eqb] in H2. rewrite (spo_right _ _ spo_sv _ _ _ H2). 
      rewrite (spo_sym _ _ spo_sv v m), (spo_sym _ _ spo_sv v m'), (spo_eq_left _ _ _ spo_sv _ _ _ H2). reflexivity.
Qed.

Lemma inter_atoms : forall f a b, atom a -> atom b ->
  exists r, intersect (S (S f)) a b = Ok r /\ inter_ok a b r.
Proof.
  intros f a b Ha Hb.
  destruct a as [| | | |[| |v] [|]|mn mx i j]; try contradiction;
  destruct b as [| | | |[| |v'] [|]|mn' mx' i' j']; try contradiction.
  - cbn [intersect spec_eqb Bool.eqb version_eqb andb].
    rewrite !plain_not_local by assumption. cbn [Bool.eqb negb andb version_eqb].
    destruct (sv_eqb v v') eqn:E.
    + eexists. split; [reflexivity|]. split; [apply atom_norm; exact Ha|]. split.
      * intros x [<-|[]]. split; [exists (Match (VStd v) true); split; [left; reflexivity|apply within_refl; exact Ha]|].
        exists (Match (VStd v') true). split; [left; reflexivity|]. do 2 eexists. split; [reflexivity|]. split; [reflexivity|].
        unfold subb, lo_leb, hi_leb. cbn [lo hi fst snd implb].
        rewrite (spo_sym _ _ spo_sv v' v), E. rewrite !orb_true_r. reflexivity.
      * intros w C. rewrite !(fun m p => atom_allows (Match (VStd m) true) w p C) by assumption.
        cbn [in_atom bounds]. rewrite !point_in by eauto using plain_nolab, candidate_nolab.
        rewrite (spo_eq_left _ _ _ spo_sv _ _ _ E). destruct (sv_eqb v' w); reflexivity.
    + eexists. split; [reflexivity|]. split; [split; [exact I|discriminate]|]. split; [intros x []|].
      intros w C. rewrite !(fun m p => atom_allows (Match (VStd m) true) w p C) by assumption.
      cbn [allows in_atom bounds]. rewrite !point_in by eauto using plain_nolab, candidate_nolab.
      destruct (sv_eqb v w) eqn:E1; [|reflexivity]. destruct (sv_eqb v' w) eqn:E2; [|reflexivity].
      rewrite (spo_sym _ _ spo_sv) in E2. rewrite (spo_eqtrans _ _ spo_sv _ _ _ E1 E2) in E. discriminate.
  - apply match_range_inter; assumption.
  - destruct (match_range_inter f v' mn mx i j Hb Ha) as (r & E & H). exists r. split; [exact E|apply inter_ok_sym; exact H].
  - change (exists r, (if spec_eqb (Range mn mx i j) (Range mn' mx' i' j') then Ok (Range mn mx i j)
       else range_intersect (mn, mx, i, j) (mn', mx', i', j')) = Ok r /\ inter_ok (Range mn mx i j) (Range mn' mx' i' j') r).
    destruct (spec_eqb (Range mn mx i j) (Range mn' mx' i' j')) eqn:E.
    + destruct (range_eq_subb _ _ _ _ _ _ _ _ E) as [S V].
      eexists. split; [reflexivity|]. split; [apply atom_norm; exact Ha|]. split.
      * intros x [<-|[]]. split; [exists (Range mn mx i j); split; [left; reflexivity|apply within_refl; exact Ha]|].
        exists (Range mn' mx' i' j'). split; [left; reflexivity|]. do 2 eexists. split; [reflexivity|]. split; [reflexivity|exact S].
      * intros w C. rewrite (atom_allows (Range mn mx i j) w Ha C), (atom_allows (Range mn' mx' i' j') w Hb C).
        cbn [in_atom bounds]. rewrite <- V. destruct (in_rng (mn, mx, i, j) w); reflexivity.
    + pose proof (range_intersect_check _ _ Ha Hb) as K.
      destruct (range_intersect (mn, mx, i, j) (mn', mx', i', j')) as [r|e] eqn:R; [|discriminate].
      exists r. split; [reflexivity|]. apply check_inter_ok; assumption.
Qed.

Lemma inter_fold : forall f b segs done acc,
  (forall s, In s segs -> exists p, intersect f s b = Ok p /\ inter_ok s b p) ->
  norm acc -> ForallOrdPairs apart (done ++ segs) -> Forall atom (done ++ segs) ->
  (forall x, In x (segs_of acc) -> (exists s, In s done /\ within s x) /\ (exists t, In t (segs_of b) /\ within t x)) ->
  exists r, fold_left (fun acc seg => do r <- acc; do p <- intersect f seg b; union_with r p) segs (Ok acc) = Ok r /\
    norm r /\
    (forall x, In x (segs_of r) -> (exists s, In s (done ++ segs) /\ within s x) /\ (exists t, In t (segs_of b) /\ within t x)) /\
    (forall v, candidate v -> allows r (VStd v) = allows acc (VStd v) || (existsb (fun s => allows s (VStd v)) segs && allows b (VStd v))).
Proof.
  intros f b. induction segs as [|s segs IH]; intros done acc H Na P A W.
  - exists acc. cbn. rewrite app_nil_r. split; [reflexivity|]. split; [exact Na|]. split; [exact W|].
    intros v C. rewrite orb_false_r. reflexivity.
  - destruct (H s (or_introl eq_refl)) as (p & Ep & (Np & Wp & Vp)).
    assert (Ap : forall x y, In x (segs_of acc) -> In y (segs_of p) -> apart x y).
    { intros x y Hx Hy. destruct (W _ Hx) as [(s1 & I1 & W1) _]. destruct (Wp _ Hy) as [(s2 & I2 & W2) _].
      assert (s2 = s) as ->.
      { rewrite atom_segs in I2; [destruct I2 as [<-|[]]; reflexivity|].
        rewrite Forall_forall in A. apply A. apply in_or_app. right. left. reflexivity. }
      eapply apart_within; [|exact W1|exact W2]. apply FOP_app in P. destruct P as (_ & _ & P).
      apply P; [exact I1|left; reflexivity]. }
    destruct (union_with_apart acc p Na Np Ap) as (u & Eu & Nu & Pu).
    destruct (IH (done ++ [s]) u) as (r & Er & Nr & Wr & Vr).
    + intros s' Hs'. apply H. right. exact Hs'.
    + exact Nu.
    + rewrite <- app_assoc. exact P.
    + rewrite <- app_assoc. exact A.
    + intros x Hx. apply (Permutation_in _ Pu) in Hx. apply in_app_or in Hx. destruct Hx as [Hx|Hx].
      * destruct (W _ Hx) as [(s1 & I1 & W1) T]. split; [|exact T]. exists s1. split; [apply in_or_app; left; exact I1|exact W1].
      * destruct (Wp _ Hx) as [(s2 & I2 & W2) T]. split; [|exact T]. exists s2. split; [|exact W2].
        rewrite atom_segs in I2; [apply in_or_app; right; exact I2|].
        rewrite Forall_forall in A. apply A. apply in_or_app. right. left. reflexivity.
    + exists r. split; [|split; [exact Nr|split]].
      * cbn [fold_left bind]. rewrite Ep. cbn [bind]. rewrite Eu. exact Er.
      * intros x Hx. rewrite <- app_assoc in Wr. apply Wr. exact Hx.
      * intros v C. rewrite (Vr v C).
        assert (X : forall q, norm q -> allows q (VStd v) = existsb (fun s => allows s (VStd v)) (segs_of q)).
        { intros q Nq. destruct (norm_dec _ Nq) as [->|[Aq|[l ->]]]; [reflexivity| |reflexivity].
          rewrite (atom_segs _ Aq). cbn. rewrite orb_false_r. reflexivity. }
        rewrite (X _ Nu), (existsb_perm _ _ _ _ Pu), existsb_app, <- (X _ Na), <- (X _ Np), (Vp v C).
        cbn [existsb]. destruct (allows acc (VStd v)), (allows s (VStd v)), (allows b (VStd v)); cbn; rewrite ?orb_true_r, ?andb_false_r; reflexivity.
Qed.

Lemma inter_union_any : forall f l b,
  norm (Union l) -> b <> AllowAll -> b <> RestrictAll ->
  (forall s, In s l -> exists p, intersect f s b = Ok p /\ inter_ok s b p) ->
  exists r, intersect (S f) (Union l) b = Ok r /\ inter_ok (Union l) b r.
Proof.
  intros f l b [(L & A & P) _] N1 N2 H.
  destruct (inter_fold f b l [] RestrictAll H) as (r & E & Nr & W & V).
  - split; [exact I|discriminate].
  - exact P.
  - exact A.
  - intros x [].
  - exists r. split; [|split; [exact Nr|split; [exact W|exact V]]].
    destruct b; try congruence; exact E.
Qed.

Lemma inter_deny_free : forall f a b, deny_free a -> deny_free b ->
  exists r, intersect (S (S (S (S (S f))))) a b = Ok r /\ deny_free r /\
    forall v, candidate v -> allows r (VStd v) = allows a (VStd v) && allows b (VStd v).
Proof.
  intros f a b Da Db.
  destruct a as [| |la|bla sa|va ala|mna mxa ia ja] eqn:Ea; try contradiction Da.
  - exists RestrictAll. split; [reflexivity|]. split; [exact I|reflexivity].
  - exists b. split; [reflexivity|]. split; [exact Db|reflexivity].
  - destruct b as [| |lb|blb sb|vb alb|mnb mxb ib jb] eqn:Eb; try contradiction Db.
    + exists RestrictAll. split; [reflexivity|]. split; [exact I|]. intros v C. rewrite andb_false_r. reflexivity.
    + exists (Union la). split; [reflexivity|]. split; [exact Da|]. intros v C. rewrite andb_true_r. reflexivity.
    + assert (Na : norm (Union la)) by (split; [exact Da|discriminate]).
      assert (Nb : norm (Union lb)) by (split; [exact Db|discriminate]).
      destruct (inter_union_any (S (S (S (S f)))) la (Union lb) Na) as (r & E & Nr & _ & V); try discriminate.
      * intros s Hs. destruct Da as (_ & A & _). rewrite Forall_forall in A. specialize (A _ Hs).
        assert (X : intersect (S (S (S (S f)))) s (Union lb) = intersect (S (S (S f))) (Union lb) s).
        { destruct s as [| | | |? ?|]; try contradiction A; reflexivity. }
        rewrite X. destruct (inter_union_any (S (S f)) lb s Nb) as (p & Ep & Hp).
        -- destruct s; try contradiction A; discriminate.
        -- destruct s; try contradiction A; discriminate.
        -- intros t Ht. destruct Db as (_ & Ab & _). rewrite Forall_forall in Ab.
           apply inter_atoms; [apply Ab; exact Ht|exact A].
        -- exists p. split; [exact Ep|apply inter_ok_sym; exact Hp].
      * exists r. split; [exact E|]. split; [apply Nr|exact V].
    + assert (Na : norm (Union la)) by (split; [exact Da|discriminate]).
      destruct (inter_union_any (S (S (S (S f)))) la (Match vb alb) Na) as (r & E & Nr & _ & V); try discriminate.
      * intros s Hs. destruct Da as (_ & A & _). rewrite Forall_forall in A. apply inter_atoms; [apply A; exact Hs|exact Db].
      * exists r. split; [exact E|]. split; [apply Nr|exact V].
    + assert (Na : norm (Union la)) by (split; [exact Da|discriminate]).
      destruct (inter_union_any (S (S (S (S f)))) la (Range mnb mxb ib jb) Na) as (r & E & Nr & _ & V); try discriminate.
      * intros s Hs. destruct Da as (_ & A & _). rewrite Forall_forall in A. apply inter_atoms; [apply A; exact Hs|exact Db].
      * exists r. split; [exact E|]. split; [apply Nr|exact V].
  - destruct b as [| |lb|blb sb|vb alb|mnb mxb ib jb] eqn:Eb; try contradiction Db.
    + exists RestrictAll. split; [reflexivity|]. split; [exact I|]. intros v C. rewrite andb_false_r. reflexivity.
    + exists (Match va ala). split; [reflexivity|]. split; [exact Da|]. intros v C. rewrite andb_true_r. reflexivity.
    + assert (Nb : norm (Union lb)) by (split; [exact Db|discriminate]).
      destruct (inter_union_any (S (S (S f))) lb (Match va ala) Nb) as (r & E & Nr & _ & V); try discriminate.
      * intros s Hs. destruct Db as (_ & A & _). rewrite Forall_forall in A. apply inter_atoms; [apply A; exact Hs|exact Da].
      * exists r. split; [exact E|]. split; [apply Nr|]. intros v C. rewrite andb_comm. apply V. exact C.
    + destruct (inter_atoms (S (S (S f))) (Match va ala) (Match vb alb) Da Db) as (r & E & Nr & _ & V).
      exists r. split; [exact E|]. split; [apply Nr|exact V].
    + destruct (inter_atoms (S (S (S f))) (Match va ala) (Range mnb mxb ib jb) Da Db) as (r & E & Nr & _ & V).
      exists r. split; [exact E|]. split; [apply Nr|exact V].
  - destruct b as [| |lb|blb sb|vb alb|mnb mxb ib jb] eqn:Eb; try contradiction Db.
    + exists RestrictAll. split; [reflexivity|]. split; [exact I|]. intros v C. rewrite andb_false_r. reflexivity.
    + exists (Range mna mxa ia ja). split; [reflexivity|]. split; [exact Da|]. intros v C. rewrite andb_true_r. reflexivity.
    + assert (Nb : norm (Union lb)) by (split; [exact Db|discriminate]).
      destruct (inter_union_any (S (S (S f))) lb (Range mna mxa ia ja) Nb) as (r & E & Nr & _ & V); try discriminate.
      * intros s Hs. destruct Db as (_ & A & _). rewrite Forall_forall in A. apply inter_atoms; [apply A; exact Hs|exact Da].
      * exists r. split; [exact E|]. split; [apply Nr|]. intros v C. rewrite andb_comm. apply V. exact C.
    + destruct (inter_atoms (S (S (S f))) (Range mna mxa ia ja) (Match vb alb) Da Db) as (r & E & Nr & _ & V).
      exists r. split; [exact E|]. split; [apply Nr|exact V].
    + destruct (inter_atoms (S (S (S f))) (Range mna mxa ia ja) (Range mnb mxb ib jb) Da Db) as (r & E & Nr & _ & V).
      exists r. split; [exact E|]. split; [apply Nr|exact V].
Qed.

(** ** "!=v" *)
Lemma hash_eqb_key : forall x y, hash_eqb (VStd x) (VStd y) = true <-> sv_hash_key x = sv_hash_key y.
Proof.
  intros x y. unfold hash_eqb, sv_hash_key. repeat rewrite andb_true_iff.
  unfold pre_key_eqb.
  rewrite (list_eqb_eq _ N.eqb N.eqb_eq), !(opt_eqb_eq _ N.eqb N.eqb_eq), (opt_eqb_eq _ pre_eqb pre_eqb_eq), (opt_eqb_eq _ str_eqb str_eqb_eq).
  split; [intros (((((-> & ->) & ->) & ->) & ->) & ->); reflexivity|].
  intro H. inversion H. repeat split; assumption.
Qed.
Lemma plain_hash : forall x y, plain x -> plain y -> sv_eqb x y = true -> hash_eqb (VStd x) (VStd y) = true.
Proof.
  intros x y (R & _ & Ex) (R' & _ & Ey) E. apply sv_eqb_spec in E. apply hash_eqb_key.
  apply hash_eq_iff_epoch; try assumption.
  destruct E as [(E & _) _]. unfold ep in E. destruct (epoch x) as [e|], (epoch y) as [e'|]; congruence.
Qed.
Definition veqb (v : sv) (y : version) : bool := version_eqb (VStd v) y.
Lemma mem_plain : forall bl v, plain v -> Forall std_plain bl -> set_mem (VStd v) bl = existsb (veqb v) bl.
Proof.
  intros bl v Pv. induction bl as [|y bl IH]; intro F; [reflexivity|]. inversion F as [|? ? Py F']; subst.
  cbn [set_mem existsb]. change (existsb (fun y => hash_eqb (VStd v) y && version_eqb (VStd v) y) bl) with (set_mem (VStd v) bl).
  rewrite IH by exact F'. f_equal. destruct y as [| |y]; try contradiction Py. unfold veqb. cbn [version_eqb].
  destruct (sv_eqb v y) eqn:E; [|apply andb_false_r]. rewrite (plain_hash _ _ Pv Py E). reflexivity.
Qed.
Lemma veqb_eq : forall v w, sv_eqb v w = true -> forall y, veqb v y = veqb w y.
Proof. intros v w E [| |y]; try reflexivity. apply (spo_eq_left _ _ _ spo_sv). exact E. Qed.
Lemma mem_add : forall bl v x, plain v -> std_plain x -> Forall std_plain bl ->
  Forall std_plain (set_add x bl) /\ set_add x bl <> [] /\ set_mem (VStd v) (set_add x bl) = veqb v x || set_mem (VStd v) bl.
Proof.
  intros bl v x Pv Px F. unfold set_add. destruct x as [| |x]; try contradiction Px.
  destruct (set_mem (VStd x) bl) eqn:M.
  - split; [exact F|]. split; [destruct bl; discriminate|].
    unfold veqb. cbn [version_eqb]. destruct (sv_eqb v x) eqn:E; [|reflexivity]. cbn [orb].
    rewrite mem_plain in M |- * by assumption. rewrite <- M. 
    assert (X : forall y, veqb v y = veqb x y) by (apply veqb_eq; exact E).
    clear - X. induction bl as [|y bl IH]; [reflexivity|]. cbn [existsb]. rewrite X, IH. reflexivity.
  - split; [apply Forall_app; split; [exact F|constructor; [exact Px|constructor]]|].
    split; [destruct bl; discriminate|].
    rewrite !mem_plain; try assumption; [|apply Forall_app; split; [exact F|constructor; [exact Px|constructor]]].
    rewrite existsb_app. cbn. rewrite orb_false_r. apply orb_comm.
Qed.
Lemma mem_union : forall b a v, plain v -> Forall std_plain a -> Forall std_plain b -> a <> [] ->
  Forall std_plain (set_union a b) /\ set_union a b <> [] /\
  set_mem (VStd v) (set_union a b) = set_mem (VStd v) a || set_mem (VStd v) b.
Proof.
  unfold set_union. induction b as [|x b IH]; intros a v Pv Fa Fb Na.
  - cbn. rewrite orb_false_r. auto.
  - inversion Fb as [|? ? Px Fb']; subst. cbn [fold_left].
    destruct (mem_add a v x Pv Px Fa) as (F1 & N1 & M1).
    destruct (IH _ v Pv F1 Fb' N1) as (F2 & N2 & M2). split; [exact F2|]. split; [exact N2|].
    rewrite M2, M1. rewrite !(mem_plain _ _ Pv) by assumption. cbn [existsb].
    destruct (veqb v x), (existsb (veqb v) a); reflexivity.
Qed.

Lemma atom_congr : forall s v w, atom s -> candidate v -> candidate w -> sv_eqb v w = true ->
  allows s (VStd v) = allows s (VStd w).
Proof.
  intros s v w A Cv Cw E. rewrite !atom_allows by assumption. unfold in_atom.
  destruct (bounds s); [apply in_rng_congr; exact E|reflexivity].
Qed.

(** an atom, nothing or everything *)
Definition simple (s : spec) : Prop := s = RestrictAll \/ s = AllowAll \/ atom s.
Lemma hetro_create_ok : forall bl s, Forall std_plain bl -> simple s ->
  exists r, hetro_create bl s = Ok r /\ union_free r /\
    forall v, candidate v -> allows r (VStd v) = negb (set_mem (VStd v) bl) && allows s (VStd v).
Proof.
  intros bl s F S. unfold hetro_create.
  set (bl' := filter (fun v => negb (is_std v) || allows s v) bl).
  assert (F' : Forall std_plain bl').
  { rewrite Forall_forall in *. intros x Hx. apply F. apply filter_In in Hx. apply Hx. }
  assert (M : forall v, candidate v -> allows s (VStd v) = true -> set_mem (VStd v) bl' = set_mem (VStd v) bl).
  { intros v C A. rewrite !mem_plain by (assumption || apply C).
    subst bl'. clear F'. induction bl as [|y bl IH]; [reflexivity|]. inversion F as [|? ? Py F1]; subst.
    cbn [filter existsb]. rewrite <- (IH F1).
    destruct (negb (is_std y) || allows s y) eqn:K; [reflexivity|].
    destruct (veqb v y) eqn:E; [|reflexivity]. exfalso.
    destruct y as [| |y]; try contradiction Py. cbn in K.
    unfold veqb in E. cbn [version_eqb] in E. 
    assert (Cy : candidate y).
    { apply (candidate_equal v y C Py). rewrite (spo_sym _ _ spo_sv). exact E. }
    destruct S as [->|[->|S]]; try discriminate.
    rewrite <- (atom_congr s v y S C Cy E) in K. congruence. }
  destruct S as [->|[->|S]].
  - exists RestrictAll. cbn. split; [reflexivity|]. split; [exact I|]. intros v C. rewrite andb_false_r. reflexivity.
  - cbn [is_restrict is_allow]. destruct bl' as [|x [|y l]].
    + exists AllowAll. split; [reflexivity|]. split; [exact I|]. intros v C. rewrite <- M by auto. reflexivity.
    + exists (Match x false). inversion F' as [|? ? Px _]; subst. split; [reflexivity|]. split; [exact Px|].
      intros v C. rewrite <- M by auto. destruct x as [| |x]; try contradiction Px. cbn [allows].
      rewrite match_allows_plain by (exact Px || apply C). rewrite mem_plain by (exact F' || apply C).
      cbn [existsb]. unfold veqb. cbn [version_eqb]. rewrite orb_false_r, andb_true_r, (spo_sym _ _ spo_sv). reflexivity.
    + exists (Hetro (x :: y :: l) AllowAll). split; [reflexivity|]. split; [split; [discriminate|split; [exact F'|left; reflexivity]]|].
      intros v C. cbn [allows is_std negb orb]. rewrite M by auto. destruct (set_mem (VStd v) bl); reflexivity.
  - assert (R : is_restrict s = false) by (destruct s; try contradiction S; reflexivity).
    assert (Q : is_allow s = false) by (destruct s; try contradiction S; reflexivity).
    rewrite R, Q.
    destruct bl' as [|x l].
    + exists s. split; [reflexivity|]. split; [destruct s as [| | | |w [|]|]; try contradiction S; exact S|].
      intros v C. destruct (allows s (VStd v)) eqn:A; [|rewrite andb_false_r; reflexivity].
      rewrite <- (M v C A). reflexivity.
    + exists (Hetro (x :: l) s). split.
      { destruct l; unfold mk_hetro; rewrite R; reflexivity. }
      split; [split; [discriminate|split; [exact F'|right; exact S]]|].
      intros v C. cbn [allows is_std negb orb]. destruct (allows s (VStd v)) eqn:A.
      * rewrite (M v C A). rewrite andb_true_r. destruct (set_mem (VStd v) bl); reflexivity.
      * rewrite andb_false_r. destruct (set_mem (VStd v) (x :: l)); reflexivity.
Qed.

Lemma simple_inter : forall f a b, (a = AllowAll \/ atom a) -> (b = AllowAll \/ atom b) ->
  exists r, intersect (S (S f)) a b = Ok r /\ simple r /\
    forall v, candidate v -> allows r (VStd v) = allows a (VStd v) && allows b (VStd v).
Proof.
  intros f a b [->|Ha] Hb.
  - exists b. split; [reflexivity|]. split; [right; exact Hb|reflexivity].
  - destruct Hb as [->|Hb].
    + exists a. split; [destruct a; try contradiction Ha; reflexivity|]. split; [right; right; exact Ha|].
      intros v C. rewrite andb_true_r. reflexivity.
    + destruct (inter_atoms f a b Ha Hb) as (r & E & Nr & W & V). exists r. split; [exact E|]. split; [|exact V].
      destruct (norm_dec _ Nr) as [->|[A|[l ->]]]; [left; reflexivity|right; right; exact A|exfalso].
      destruct a as [| | | |[| |va] [|]|]; try contradiction Ha; destruct b as [| | | |[| |vb] [|]|]; try contradiction Hb.
      * cbn [intersect spec_eqb Bool.eqb version_eqb andb] in E. destruct (sv_eqb va vb); [discriminate|].
        rewrite !plain_not_local in E by assumption. cbn in E. 
        repeat match type of E with (if ?c then _ else _) = _ => destruct c end; discriminate.
      * cbn [intersect is_std andb] in E. destruct (range_allows _ _ _ _ _); discriminate.
      * cbn [intersect is_std andb] in E. destruct (range_allows _ _ _ _ _); discriminate.
      * cbn [intersect] in E. destruct (spec_eqb _ _); [discriminate|].
        pose proof (range_intersect_check _ _ Ha Hb) as K. rewrite E in K. discriminate.
Qed.

Definition uf_ok (f : nat) (a b : spec) : Prop :=
  exists r, intersect f a b = Ok r /\ union_free r /\
    forall v, candidate v -> allows r (VStd v) = allows a (VStd v) && allows b (VStd v).
Lemma simple_uf : forall s, simple s -> union_free s.
Proof. intros s [->|[->|H]]; [exact I|exact I|]. destruct s as [| | | |v [|]|]; try contradiction H; exact H. Qed.
Lemma hetro_allows : forall bl s v, allows (Hetro bl s) (VStd v) = negb (set_mem (VStd v) bl) && allows s (VStd v).
Proof. intros. cbn. destruct (set_mem (VStd v) bl); reflexivity. Qed.

Lemma match_match_uf : forall f v al v' al', plain v -> plain v' ->
  uf_ok (S f) (Match (VStd v) al) (Match (VStd v') al').
Proof.
  intros f v al v' al' Pv Pv'. unfold uf_ok. cbn [intersect spec_eqb version_eqb].
  assert (X : forall w, candidate w -> allows (Match (VStd v) al) (VStd w) = Bool.eqb al (sv_eqb v w)
     /\ allows (Match (VStd v') al') (VStd w) = Bool.eqb al' (sv_eqb v' w)).
  { intros w C. cbn [allows]. rewrite !match_allows_plain by (assumption || apply C).
    split; [destruct al, (sv_eqb v w)|destruct al', (sv_eqb v' w)]; reflexivity. }
  assert (T : forall w, sv_eqb v v' = true -> sv_eqb v w = sv_eqb v' w).
  { intros w E. apply (spo_eq_left _ _ _ spo_sv). exact E. }
  assert (T' : forall w, sv_eqb v v' = false -> sv_eqb v w = true -> sv_eqb v' w = true -> False).
  { intros w E E1 E2. rewrite (spo_sym _ _ spo_sv v' w) in E2. rewrite (spo_eqtrans _ _ spo_sv _ _ _ E1 E2) in E. discriminate. }
  rewrite !plain_not_local by assumption. cbn [Bool.eqb negb version_eqb].
  destruct (Bool.eqb al al' && sv_eqb v v') eqn:E.
  - apply andb_true_iff in E. destruct E as [E1 E2]. apply eqb_prop in E1. subst al'.
    eexists. split; [reflexivity|]. split; [exact Pv|]. intros w C. destruct (X w C) as [-> ->]. rewrite (T w E2).
    destruct (Bool.eqb al (sv_eqb v' w)); reflexivity.
  - destruct al, al'; cbn [andb orb Bool.eqb] in *.
    + rewrite E. eexists. split; [reflexivity|]. split; [exact I|]. intros w C. destruct (X w C) as [-> ->]. cbn [allows].
      specialize (T' w E). destruct (sv_eqb v w), (sv_eqb v' w); try reflexivity. destruct T'; reflexivity.
    + destruct (sv_eqb v v') eqn:E'; (eexists; split; [reflexivity|]); (split; [first [exact I|exact Pv]|]); intros w C; cbn [allows].
      * destruct (X w C) as [P Q]. cbn [allows] in P, Q. rewrite P, Q, (T w eq_refl). destruct (sv_eqb v' w); reflexivity.
      * destruct (X w C) as [P Q]. cbn [allows] in P, Q. rewrite P, Q.
        specialize (T' w eq_refl). destruct (sv_eqb v w), (sv_eqb v' w); try reflexivity. destruct T'; reflexivity.
    + destruct (sv_eqb v v') eqn:E'; (eexists; split; [reflexivity|]); (split; [first [exact I|exact Pv']|]); intros w C; cbn [allows].
      * destruct (X w C) as [P Q]. cbn [allows] in P, Q. rewrite P, Q, (T w eq_refl). destruct (sv_eqb v' w); reflexivity.
      * destruct (X w C) as [P Q]. cbn [allows] in P, Q. rewrite P, Q.
        specialize (T' w eq_refl). destruct (sv_eqb v w), (sv_eqb v' w); try reflexivity. destruct T'; reflexivity.
    + assert (F : Forall std_plain [VStd v]) by (constructor; [exact Pv|constructor]).
      assert (M := fun w (C : candidate w) => mem_add [VStd v] w (VStd v') (proj1 C) Pv' F).
      assert (N : set_add (VStd v') [VStd v] = [VStd v; VStd v']).
      { unfold set_add. rewrite mem_plain by assumption. cbn [existsb]. unfold veqb. cbn [version_eqb].
        rewrite (spo_sym _ _ spo_sv), E. reflexivity. }
      rewrite N in *. exists (Hetro [VStd v; VStd v'] AllowAll). split; [reflexivity|]. split.
      * split; [discriminate|]. split; [|left; reflexivity]. constructor; [exact Pv|constructor; [exact Pv'|constructor]].
      * intros w C. rewrite hetro_allows. destruct (M w C) as (_ & _ & M'). rewrite M'. rewrite mem_plain by (exact F || apply C).
        destruct (X w C) as [-> ->]. cbn [existsb allows]. unfold veqb. cbn [version_eqb].
        rewrite (spo_sym _ _ spo_sv w v), (spo_sym _ _ spo_sv w v'). destruct (sv_eqb v w), (sv_eqb v' w); reflexivity.
Qed.

Lemma match_range_uf : forall f v al mn mx i j, plain v -> wf_interval (mn, mx, i, j) ->
  uf_ok (S f) (Match (VStd v) al) (Range mn mx i j).
Proof.
  intros f v [|] mn mx i j Pv W.
  - destruct (match_range_inter f v mn mx i j Pv W) as (r & E & Nr & _ & V).
    exists r. split; [exact E|]. split; [|exact V]. cbn [intersect is_std andb] in E.
    destruct (range_allows mn mx i j (VStd v)); injection E as <-; [exact Pv|exact I].
  - unfold uf_ok. cbn [intersect is_std andb]. 
    assert (K : forall w, candidate w -> sv_eqb v w = true -> range_allows mn mx i j (VStd v) = range_allows mn mx i j (VStd w)).
    { intros w C E. assert (Cv := candidate_equal _ _ C Pv E). rewrite !range_allows_in by assumption. apply in_rng_congr. exact E. }
    destruct (range_allows mn mx i j (VStd v)) eqn:E.
    + exists (Hetro [VStd v] (Range mn mx i j)). split; [reflexivity|].
      assert (F : Forall std_plain [VStd v]) by (constructor; [exact Pv|constructor]).
      split; [split; [discriminate|split; [exact F|right; exact W]]|].
      intros w C. rewrite hetro_allows. rewrite mem_plain by (exact F || apply C). cbn [existsb allows].
      rewrite match_allows_plain by (exact Pv || apply C). unfold veqb. cbn [version_eqb].
      rewrite orb_false_r, (spo_sym _ _ spo_sv). reflexivity.
    + exists (Range mn mx i j). split; [reflexivity|]. split; [exact W|].
      intros w C. cbn [allows]. rewrite match_allows_plain by (exact Pv || apply C).
      destruct (sv_eqb v w) eqn:Ew; [|reflexivity]. rewrite <- (K w C Ew). reflexivity.
Qed.

Lemma uf_ok_sym : forall f a b, uf_ok f a b -> 
  exists r, intersect f a b = Ok r /\ union_free r /\
    forall v, candidate v -> allows r (VStd v) = allows b (VStd v) && allows a (VStd v).
Proof.
  intros f a b (r & E & U & V). exists r. split; [exact E|]. split; [exact U|].
  intros v C. rewrite andb_comm. apply V. exact C.
Qed.

Lemma hetro_match_uf : forall f bl sp v al, union_free (Hetro bl sp) -> plain v -> uf_ok (S f) (Hetro bl sp) (Match (VStd v) al).
Proof.
  intros f bl sp v al (N & F & S) Pv. unfold uf_ok. cbn [intersect is_std andb].
  assert (Ss : simple sp) by (right; exact S). destruct al.
  - assert (K : forall w, candidate w -> sv_eqb v w = true ->
        allows sp (VStd v) = allows sp (VStd w) /\ set_mem (VStd v) bl = set_mem (VStd w) bl).
    { intros w C E. assert (Cv := candidate_equal _ _ C Pv E). split.
      - destruct S as [->|S]; [reflexivity|]. apply atom_congr; assumption.
      - rewrite !mem_plain by (assumption || apply C). clear - E. induction bl as [|y bl IH]; [reflexivity|].
        cbn [existsb]. rewrite IH, (veqb_eq _ _ E y). reflexivity. }
    destruct (allows sp (VStd v) && negb (set_mem (VStd v) bl)) eqn:E.
    + exists (Match (VStd v) true). split; [reflexivity|]. split; [exact Pv|]. intros w C.
      rewrite hetro_allows. cbn [allows]. rewrite match_allows_plain by (exact Pv || apply C).
      destruct (sv_eqb v w) eqn:Ew; [|rewrite andb_false_r; reflexivity].
      destruct (K w C Ew) as [<- <-]. rewrite andb_true_r, (andb_comm (negb _)), E. reflexivity.
    + exists RestrictAll. split; [reflexivity|]. split; [exact I|]. intros w C.
      rewrite hetro_allows. cbn [allows]. rewrite match_allows_plain by (exact Pv || apply C).
      destruct (sv_eqb v w) eqn:Ew; [|rewrite andb_false_r; reflexivity].
      destruct (K w C Ew) as [<- <-]. rewrite andb_true_r, (andb_comm (negb _)), E. reflexivity.
  - cbn [andb]. destruct (mem_add bl v (VStd v) Pv Pv F) as (F1 & _ & _).
    destruct (hetro_create_ok (set_add (VStd v) bl) sp F1 Ss) as (r & E & U & V).
    exists r. split; [exact E|]. split; [exact U|]. intros w C. rewrite (V w C), hetro_allows.
    destruct (mem_add bl w (VStd v) (proj1 C) Pv F) as (_ & _ & ->). cbn [allows].
    rewrite match_allows_plain by (exact Pv || apply C). unfold veqb. cbn [version_eqb]. rewrite (spo_sym _ _ spo_sv w v).
    destruct (sv_eqb v w), (set_mem (VStd w) bl), (allows sp (VStd w)); reflexivity.
Qed.
Lemma hetro_range_uf : forall f bl sp mn mx i j, union_free (Hetro bl sp) -> wf_interval (mn, mx, i, j) ->
  uf_ok (S (S (S f))) (Hetro bl sp) (Range mn mx i j).
Proof.
  intros f bl sp mn mx i j (N & F & S) W. 
  destruct (simple_inter f sp (Range mn mx i j) S (or_intror W)) as (s & E & Ss & V).
  destruct (hetro_create_ok bl s F Ss) as (r & E' & U & V').
  exists r. split.
  { change (intersect (Datatypes.S (Datatypes.S (Datatypes.S f))) (Hetro bl sp) (Range mn mx i j))
      with (do s <- intersect (Datatypes.S (Datatypes.S f)) sp (Range mn mx i j); hetro_create bl s).
    rewrite E. exact E'. }
  split; [exact U|]. intros v C. rewrite (V' v C), (V v C), hetro_allows, andb_assoc. reflexivity.
Qed.
Lemma hetro_hetro_uf : forall f bl sp bl' sp', union_free (Hetro bl sp) -> union_free (Hetro bl' sp') ->
  uf_ok (S (S (S f))) (Hetro bl sp) (Hetro bl' sp').
Proof.
  intros f bl sp bl' sp' (N & F & S) (N' & F' & S').
  destruct (simple_inter f sp sp' S S') as (s & E & Ss & V).
  assert (Fu : Forall std_plain (set_union bl bl')).
  { destruct bl as [|x bl]; [congruence|]. inversion F as [|? ? Px _]; subst. destruct x as [| |x]; try contradiction Px.
    apply (mem_union bl' (VStd x :: bl) x Px F F' N). }
  destruct (hetro_create_ok (set_union bl bl') s Fu Ss) as (r & E' & U & V').
  exists r. split.
  { change (intersect (Datatypes.S (Datatypes.S (Datatypes.S f))) (Hetro bl sp) (Hetro bl' sp'))
      with (do s <- intersect (Datatypes.S (Datatypes.S f)) sp sp'; hetro_create (set_union bl bl') s).
    rewrite E. exact E'. }
  split; [exact U|]. intros v C. rewrite (V' v C), (V v C), !hetro_allows.
  destruct (mem_union bl' bl v (proj1 C) F F' N) as (_ & _ & ->).
  destruct (set_mem (VStd v) bl), (set_mem (VStd v) bl'), (allows sp (VStd v)); reflexivity.
Qed.

Lemma inter_union_free : forall f a b, union_free a -> union_free b -> uf_ok (S (S (S (S f)))) a b.
Proof.
  intros f a b Ua Ub.
  assert (SW : forall a b, intersect (S (S (S (S f)))) a b = intersect (S (S (S f))) b a -> uf_ok (S (S (S f))) b a ->
               uf_ok (S (S (S (S f)))) a b).
  { intros x y E H. apply uf_ok_sym in H. destruct H as (r & E' & H). exists r. split; [rewrite E; exact E'|exact H]. }
  assert (AL : forall a, union_free a -> intersect (S (S (S (S f)))) a AllowAll = Ok a -> uf_ok (S (S (S (S f)))) a AllowAll).
  { intros x U E. exists x. split; [exact E|]. split; [exact U|]. intros v C. cbn. rewrite andb_true_r. reflexivity. }
  assert (RS : forall a, intersect (S (S (S (S f)))) a RestrictAll = Ok RestrictAll -> uf_ok (S (S (S (S f)))) a RestrictAll).
  { intros x E. exists RestrictAll. split; [exact E|]. split; [exact I|]. intros v C. cbn. rewrite andb_false_r. reflexivity. }
  destruct a as [| |la|bla sa|[| |va] ala|mna mxa ia ja]; try contradiction Ua.
  - exists RestrictAll. split; [reflexivity|]. split; [exact I|reflexivity].
  - exists b. split; [reflexivity|]. split; [exact Ub|reflexivity].
  - destruct b as [| |lb|blb sb|[| |vb] alb|mnb mxb ib jb]; try contradiction Ub.
    + apply RS; reflexivity.
    + apply AL; [exact Ua|reflexivity].
    + apply hetro_hetro_uf; assumption.
    + apply hetro_match_uf; assumption.
    + apply hetro_range_uf; assumption.
  - destruct b as [| |lb|blb sb|[| |vb] alb|mnb mxb ib jb]; try contradiction Ub.
    + apply RS; reflexivity.
    + apply AL; [exact Ua|reflexivity].
    + apply SW; [reflexivity|]. apply hetro_match_uf; assumption.
    + apply match_match_uf; assumption.
    + apply match_range_uf; assumption.
  - destruct b as [| |lb|blb sb|[| |vb] alb|mnb mxb ib jb]; try contradiction Ub.
    + apply RS; reflexivity.
    + apply AL; [exact Ua|reflexivity].
    + apply SW; [reflexivity|]. apply hetro_range_uf; assumption.
    + apply SW; [reflexivity|]. apply match_range_uf; assumption.
    + destruct (simple_inter (S (S f)) (Range mna mxa ia ja) (Range mnb mxb ib jb)) as (r & E & Ss & V);
        [right; exact Ua|right; exact Ub|].
      exists r. split; [exact E|]. split; [apply simple_uf; exact Ss|exact V].
Qed.

Lemma fuel_ge : forall a b, exists f, intersect_fuel a b = S (S (S (S (S f)))).
Proof.
  intros a b. unfold intersect_fuel. pose proof (size_pos a). pose proof (size_pos b).
  exists (4 * (spec_size a + spec_size b) + 3). lia.
Qed.

Lemma intersect_correct : forall a b, (deny_free a /\ deny_free b) \/ (union_free a /\ union_free b) ->
  exists r, intersect_with a b = Ok r /\
    ((deny_free a /\ deny_free b) -> deny_free r) /\ ((union_free a /\ union_free b) -> union_free r) /\
    forall v, candidate v -> (allows r (VStd v) = true <-> allows a (VStd v) = true /\ allows b (VStd v) = true).
Proof.
  intros a b H. unfold intersect_with. destruct (fuel_ge a b) as [f ->].
  assert (X : forall r, (forall v, candidate v -> allows r (VStd v) = allows a (VStd v) && allows b (VStd v)) ->
    forall v, candidate v -> (allows r (VStd v) = true <-> allows a (VStd v) = true /\ allows b (VStd v) = true)).
  { intros r V v C. rewrite (V v C). apply andb_true_iff. }
  destruct H as [[Da Db]|[Ua Ub]].
  - destruct (inter_deny_free f a b Da Db) as (r & E & D & V). exists r. split; [exact E|]. split; [auto|]. split; [|apply X; exact V].
    intros [Ua Ub]. destruct (inter_union_free (S f) a b Ua Ub) as (r' & E' & U & _). congruence.
  - destruct (inter_union_free (S f) a b Ua Ub) as (r & E & U & V). exists r. split; [exact E|]. split; [|split; [auto|apply X; exact V]].
    intros [Da Db]. destruct (inter_deny_free f a b Da Db) as (r' & E' & D & _). congruence.
Qed.
