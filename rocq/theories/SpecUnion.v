(** Proofs about version specifiers: union, inverse, inclusion. *)
From Coq Require Import String Ascii List Bool NArith Arith Lia Permutation.
From Verif Require Import Base BaseFacts OrderFacts VersionModel VersionSpec VersionProofs
  SpecifierModel SpecifierSpec SpecRange SpecifierProofs.
Import ListNotations.
Open Scope string_scope.
Open Scope nat_scope.
Open Scope list_scope.
Open Scope bool_scope.

(** there is no version between the end of [a] and the start of [b] *)
Definition connectedb (h l : option sv * bool) : bool :=
  match fst h, fst l with
  | Some n, Some m => sv_ltb m n || (sv_eqb m n && (snd h || snd l))
  | _, _ => true
  end.
Definition opt_plain (o : option sv) : Prop := forall m, o = Some m -> plain m.
Lemma span_union : forall mn i mx j mn' i' mx' j' v,
  opt_plain mn -> opt_plain mx -> opt_plain mn' -> opt_plain mx' -> nolab v ->
  lo_leb (mn, i) (mn', i') = true -> hi_leb (mx', j') (mx, j) = true -> connectedb (mx, j) (mn', i') = true ->
  in_lo mn i v && in_hi mx' j' v = (in_lo mn i v && in_hi mx j v) || (in_lo mn' i' v && in_hi mx' j' v).
Proof.
  intros mn i mx j mn' i' mx' j' v P1 P2 P3 P4 Pv L H C.
  assert (A : in_lo mn' i' v = true -> in_lo mn i v = true).
  { intro X. apply (lo_leb_in _ _ v L). exact X. }
  assert (B : in_hi mx j v = true -> in_hi mx' j' v = true).
  { intro X. apply (hi_leb_in _ _ v H). exact X. }
  assert (D : in_hi mx j v = true \/ in_lo mn' i' v = true).
  { unfold connectedb in C. cbn [fst snd] in C. destruct mx as [n|]; [|left; reflexivity].
    destruct mn' as [m|]; [|right; reflexivity]. specialize (P2 _ eq_refl). specialize (P3 _ eq_refl).
    unfold in_hi, in_lo. clear A B L H. ranks [n; m; v]. revert C. destruct j, i'; bcase; auto; discriminate. }
  destruct (in_lo mn i v), (in_hi mx j v), (in_lo mn' i' v), (in_hi mx' j' v); cbn in *; try reflexivity; destruct D; try discriminate;
  try (specialize (A eq_refl); discriminate); try (specialize (B eq_refl); discriminate).
Qed.

Definition startsb (a b : interval) : bool :=
  let '(mn, _, _, _) := a in let '(mn', _, _, _) := b in
  match mn, mn' with
  | None, Some _ => true
  | Some m, Some m' => sv_ltb m m'
  | _, None => false
  end.
Lemma startsb_spec : forall a b, starts_before a b <-> startsb a b = true.
Proof. intros [[[[|] ?] ?] ?] [[[[|] ?] ?] ?]; cbn; intuition discriminate. Qed.
Lemma ends_spec : forall a b, ends_no_later a b <-> hi_leb (hi b) (hi a) = true.
Proof.
  intros [[[mn mx] i] j] [[[mn' mx'] i'] j']. unfold ends_no_later, hi_leb, hi. cbn [fst snd].
  destruct mx as [n|], mx' as [n'|]; try (intuition discriminate).
  rewrite orb_true_iff, andb_true_iff, sv_eqb_spec. destruct j, j'; cbn; intuition discriminate.
Qed.

Lemma range_union_startsb : forall mn mx i j mn' mx' i' j',
  startsb (mn, mx, i, j) (mn', mx', i', j') = true ->
  range_ltb (mn, mx, i, j) (mn', mx', i', j') = true /\ range_ltb (mn', mx', i', j') (mn, mx, i, j) = false
  /\ opt_sv_eqb mn mn' = false.
Proof.
  intros mn mx i j mn' mx' i' j' H. unfold startsb in H. unfold range_ltb, opt_sv_eqb.
  destruct mn as [m|], mn' as [m'|]; try discriminate H; cbn [opt_eqb].
  - assert (E1 : sv_eqb m m' = false).
    { destruct (sv_eqb m m') eqn:E; [|reflexivity]. destruct (spo_sv_eq_lt _ _ E H). }
    rewrite (spo_sym _ _ spo_sv m' m), E1, (spo_asym _ _ _ spo_sv _ _ H), H. rewrite !andb_false_r. cbn. auto.
  - rewrite !andb_false_r. cbn. auto.
Qed.

Lemma wf_opt_plain : forall mn mx i j, wf_interval (mn, mx, i, j) -> opt_plain mn /\ opt_plain mx.
Proof. intros mn mx i j (_ & _ & _ & A & B & _). split; intros m E; auto. Qed.

Lemma range_union_staggered : forall mn mx i j mn' mx' i' j',
  wf_interval (mn, mx, i, j) -> wf_interval (mn', mx', i', j') ->
  startsb (mn, mx, i, j) (mn', mx', i', j') = true ->
  hi_leb (mx', j') (mx, j) = true ->
  exists r, range_union_ordered (mn, mx, i, j) (mn', mx', i', j') = Ok r /\
   forall v, candidate v -> allows r (VStd v) = in_rng (mn, mx, i, j) v || in_rng (mn', mx', i', j') v.
Proof.
  intros mn mx i j mn' mx' i' j' Wa Wb St En.
  destruct (range_union_startsb mn mx i j mn' mx' i' j' St) as (L1 & L2 & E).
  destruct (wf_opt_plain _ _ _ _ Wa) as [P1 P2]. destruct (wf_opt_plain _ _ _ _ Wb) as [P3 P4].
  assert (LO : lo_leb (mn, i) (mn', i') = true).
  { unfold lo_leb. cbn [fst snd]. cbn in St. destruct mn as [m|], mn' as [m'|]; try discriminate St; [|reflexivity].
    rewrite St. reflexivity. }
  (* the created range *)
  assert (CR : forall k, connectedb (mx, j) (mn', i') = true -> (mx' = None -> k = false) ->
     (forall v, candidate v -> in_hi mx' k v = in_hi mx' j' v) ->
     exists r, create_range mn mx' i k = Ok r /\
      forall v, candidate v -> allows r (VStd v) = in_rng (mn, mx, i, j) v || in_rng (mn', mx', i', j') v).
  { intros k Cn Hk Hv.
    assert (SP : forall v, candidate v -> in_rng (mn, mx', i, k) v = in_rng (mn, mx, i, j) v || in_rng (mn', mx', i', j') v).
    { intros v C. unfold in_rng. rewrite (Hv v C). apply span_union; eauto using candidate_nolab. }
    destruct mn as [m|], mx' as [n'|].
    - assert (LT : sv_ltb m n' = true).
      { destruct mn' as [m'|]; [|discriminate St]. cbn in St. destruct Wb as (_ & _ & _ & _ & _ & W6).
        specialize (W6 _ _ eq_refl eq_refl). exact (spo_trans _ _ spo_sv _ _ _ St W6). }
      exists (Range (Some m) (Some n') i k). split.
      + unfold create_range, opt_sv_eqb. cbn [opt_eqb].
        assert (sv_eqb m n' = false) as ->.
        { destruct (sv_eqb m n') eqn:E'; [|reflexivity]. destruct (spo_sv_eq_lt _ _ E' LT). }
        cbn [andb]. unfold mk_range. cbn [is_none andb]. rewrite !andb_false_r, LT. reflexivity.
      + intros v C. rewrite <- (SP v C). apply range_allows_in; [|exact C].
        repeat split; try discriminate; try (left; discriminate); try (apply P1; congruence); try (apply P4; congruence).
        intros a b Ea Eb. congruence.
    - specialize (Hk eq_refl). subst k. exists (Range (Some m) None i false). split.
      + unfold create_range, mk_range. cbn. destruct i; reflexivity.
      + intros v C. rewrite <- (SP v C). apply range_allows_in; [|exact C].
        repeat split; try discriminate; try (left; discriminate); try (apply P1; congruence).
    - assert (i = false). { destruct i; [|reflexivity]. destruct Wa as (_ & A & _). destruct (A eq_refl eq_refl). } subst i.
      exists (Range None (Some n') false k). split.
      + unfold create_range, mk_range. cbn. destruct k; reflexivity.
      + intros v C. rewrite <- (SP v C). apply range_allows_in; [|exact C].
        repeat split; try discriminate; try (right; discriminate); try (apply P4; congruence).
    - specialize (Hk eq_refl). subst k.
      assert (i = false). { destruct i; [|reflexivity]. destruct Wa as (_ & A & _). destruct (A eq_refl eq_refl). } subst i.
      exists AllowAll. split; [reflexivity|]. intros v C. rewrite <- (SP v C). reflexivity. }
  assert (J' : mx' = None -> j' = false).
  { intros ->. destruct j'; [|reflexivity]. destruct Wb as (_ & _ & A & _). destruct (A eq_refl eq_refl). }
  cbn [range_union_ordered]. rewrite E.
  destruct (match mn' with Some m' => match mx with Some m => sv_ltb m' m | None => true end | None => true end) eqn:OV.
  - apply CR.
    + unfold connectedb. cbn [fst snd]. destruct mx as [n|], mn' as [m'|]; try reflexivity. rewrite OV. reflexivity.
    + intros ->. unfold opt_sv_eqb. destruct mx as [n|]; cbn; [auto|].
      destruct j; [destruct Wa as (_ & _ & A & _); destruct (A eq_refl eq_refl)|]. auto.
    + intros v C. destruct (opt_sv_eqb mx mx') eqn:EX; [|reflexivity].
      unfold hi_leb in En. cbn [fst snd] in En. unfold opt_sv_eqb in EX.
      destruct mx as [n|], mx' as [n'|]; try discriminate EX; [|reflexivity]. cbn [opt_eqb] in EX.
      rewrite EX in En. apply orb_true_iff in En. destruct En as [En|En]; [destruct (spo_sv_eq_lt _ _ EX En)|].
      cbn in En. destruct j, j'; try reflexivity. discriminate.
  - destruct mn' as [m'|]; [|discriminate OV]. destruct mx as [n|]; [|discriminate OV].
    destruct ((negb j && negb i') || negb (opt_sv_eqb (Some m') (Some n))) eqn:G.
    + rewrite mk_union_atoms; [|cbn; lia|constructor; [exact Wa|constructor; [exact Wb|constructor]]].
      eexists. split; [reflexivity|]. intros v C. cbn [allows].
      rewrite (existsb_perm _ _ _ _ (sort_by_perm _ _ _)). cbn [existsb allows].
      rewrite !range_allows_in by assumption. rewrite orb_false_r. reflexivity.
    + apply orb_false_iff in G. destruct G as [G1 G2]. apply negb_false_iff in G2. unfold opt_sv_eqb in G2. cbn [opt_eqb] in G2.
      apply CR; [|exact J'|reflexivity].
      unfold connectedb. cbn [fst snd]. rewrite G2. destruct j, i'; try discriminate G1; apply orb_true_r.
Qed.

Lemma union_fuel_ge : forall a b, exists f, union_fuel a b = S (S (S (S f))).
Proof.
  intros a b. unfold union_fuel. exists (8 * (spec_size a + spec_size b) + 12). lia.
Qed.

Lemma range_union_correct : forall mn mx i j mn' mx' i' j',
  wf_interval (mn, mx, i, j) -> wf_interval (mn', mx', i', j') ->
  staggered (mn, mx, i, j) (mn', mx', i', j') ->
  exists r, union_with (Range mn mx i j) (Range mn' mx' i' j') = Ok r /\
   forall v, candidate v -> allows r (VStd v) = allows (Range mn mx i j) (VStd v) || allows (Range mn' mx' i' j') (VStd v).
Proof.
  intros mn mx i j mn' mx' i' j' Wa Wb St. unfold union_with.
  destruct (union_fuel_ge (Range mn mx i j) (Range mn' mx' i' j')) as [f ->]. cbn [union].
  unfold staggered in St. rewrite !startsb_spec, !ends_spec in St.
  assert (NE : spec_eqb (Range mn mx i j) (Range mn' mx' i' j') = false).
  { destruct (spec_eqb (Range mn mx i j) (Range mn' mx' i' j')) eqn:X; [|reflexivity].
    apply range_eq_sub in X. destruct X as (_ & _ & X & _).
    destruct St as [[S1 _]|[S1 _]]; apply range_union_startsb in S1; destruct S1 as (_ & _ & S1); [congruence|].
    unfold opt_sv_eqb in *. destruct mn as [m|], mn' as [m'|]; try discriminate. cbn [opt_eqb] in X, S1.
    rewrite (spo_sym _ _ spo_sv) in S1. congruence. }
  rewrite NE. unfold range_union. cbn [allows].
  destruct St as [[S1 S2]|[S1 S2]]; pose proof (range_union_startsb _ _ _ _ _ _ _ _ S1) as (L1 & L2 & _).
  - rewrite L2. destruct (range_union_staggered _ _ _ _ _ _ _ _ Wa Wb S1 S2) as (r & E & V).
    exists r. split; [exact E|]. intros v C. rewrite (V v C), !range_allows_in by assumption. reflexivity.
  - rewrite L1. destruct (range_union_staggered _ _ _ _ _ _ _ _ Wb Wa S1 S2) as (r & E & V).
    exists r. split; [exact E|]. intros v C. rewrite (V v C), !range_allows_in by assumption. apply orb_comm.
Qed.

(** "==v" or "!=v" with a range *)
Lemma match_range_union : forall f v al mn mx i j, plain v -> wf_interval (mn, mx, i, j) ->
  exists r, union (S f) (Match (VStd v) al) (Range mn mx i j) = Ok r /\
   forall w, candidate w -> allows r (VStd w) = allows (Match (VStd v) al) (VStd w) || allows (Range mn mx i j) (VStd w).
Proof.
  intros f v al mn mx i j Pv W. cbn [union].
  destruct (wf_opt_plain _ _ _ _ W) as [P1 P2].
  assert (K : forall w, candidate w -> sv_eqb v w = true -> range_allows mn mx i j (VStd v) = range_allows mn mx i j (VStd w)).
  { intros w C E. assert (Cv := candidate_equal _ _ C Pv E). rewrite !range_allows_in by assumption. apply in_rng_congr. exact E. }
  assert (MA : forall w, candidate w -> allows (Match (VStd v) al) (VStd w) = Bool.eqb al (sv_eqb v w)).
  { intros w C. cbn [allows]. rewrite match_allows_plain by (exact Pv || apply C). destruct al, (sv_eqb v w); reflexivity. }
  destruct (range_allows mn mx i j (VStd v)) eqn:A.
  - destruct al; (eexists; split; [reflexivity|]); intros w C; rewrite (MA w C); cbn [allows Bool.eqb].
    + destruct (sv_eqb v w) eqn:E; [|reflexivity]. rewrite <- (K w C E). reflexivity.
    + destruct (sv_eqb v w) eqn:E; [|reflexivity]. rewrite <- (K w C E). reflexivity.
  - destruct al; cbn [negb].
    2: { eexists. split; [reflexivity|]. intros w C. rewrite (MA w C). cbn [allows Bool.eqb].
         destruct (sv_eqb v w) eqn:E; [|reflexivity]. rewrite <- (K w C E). reflexivity. }
    destruct (negb i && match mn with Some m => version_eqb (VStd v) (VStd m) | None => false end) eqn:G1.
    + apply andb_true_iff in G1. destruct G1 as [Gi G1]. apply negb_true_iff in Gi. subst i.
      destruct mn as [m|]; [|discriminate]. cbn [version_eqb] in G1.
      assert (W' : wf_interval (Some m, mx, true, j)).
      { destruct W as (W1 & W2 & W3 & W4 & W5 & W6). repeat split; try assumption; try (left; discriminate); try discriminate; try (apply W4; congruence).
        - apply (W5 m0 H). - apply (W5 m0 H). - apply (W5 m0 H). }
      exists (Range (Some m) mx true j). split.
      { destruct W' as (_ & _ & W3 & _ & _ & W6). unfold mk_range. cbn [is_none andb].
        destruct mx as [n|]; [rewrite (W6 _ _ eq_refl eq_refl); destruct j; reflexivity|].
        destruct j; [destruct (W3 eq_refl eq_refl)|reflexivity]. }
      intros w C. rewrite (MA w C). cbn [allows]. rewrite !range_allows_in by assumption. unfold in_rng, in_lo, in_hi.
      cbn [andb Bool.eqb]. specialize (P1 _ eq_refl).
      destruct mx as [n|].
      * specialize (P2 _ eq_refl). destruct W as (_ & _ & _ & _ & _ & W6). specialize (W6 _ _ eq_refl eq_refl).
        assert (Hw := candidate_nolab _ C). clear W' MA K A. ranks [v; m; n; w]. destruct j; bcase; reflexivity.
      * assert (Hw := candidate_nolab _ C). clear W' MA K A. ranks [v; m; w]. bcase; reflexivity.
    + destruct (negb j && match mx with Some m => version_eqb (VStd v) (VStd m) | None => false end) eqn:G2.
      * apply andb_true_iff in G2. destruct G2 as [Gi G2]. apply negb_true_iff in Gi. subst j.
        destruct mx as [n|]; [|discriminate]. cbn [version_eqb] in G2.
        assert (W' : wf_interval (mn, Some n, i, true)).
        { destruct W as (W1 & W2 & W3 & W4 & W5 & W6). repeat split; try assumption; try (right; discriminate); try discriminate; try (apply W5; congruence).
          - apply (W4 m H). - apply (W4 m H). - apply (W4 m H). }
        exists (Range mn (Some n) i true). split.
        { destruct W' as (_ & W2 & _ & _ & _ & W6). unfold mk_range. rewrite andb_false_r.
          destruct mn as [m|]; [rewrite (W6 _ _ eq_refl eq_refl); destruct i; reflexivity|].
          destruct i; [destruct (W2 eq_refl eq_refl)|reflexivity]. }
        intros w C. rewrite (MA w C). cbn [allows]. rewrite !range_allows_in by assumption. unfold in_rng, in_lo, in_hi.
        cbn [andb Bool.eqb]. specialize (P2 _ eq_refl).
        destruct mn as [m|].
        -- specialize (P1 _ eq_refl). destruct W as (_ & _ & _ & _ & _ & W6). specialize (W6 _ _ eq_refl eq_refl).
           assert (Hw := candidate_nolab _ C). clear W' MA K A G1. ranks [v; m; n; w]. destruct i; bcase; reflexivity.
        -- assert (Hw := candidate_nolab _ C). clear W' MA K A G1. ranks [v; n; w]. bcase; reflexivity.
      * rewrite mk_union_atoms; [|cbn; lia|constructor; [exact Pv|constructor; [exact W|constructor]]].
        eexists. split; [reflexivity|]. intros w C. cbn [allows].
        rewrite (existsb_perm _ _ _ _ (sort_by_perm _ _ _)). cbn [existsb allows]. rewrite orb_false_r. reflexivity.
Qed.

(** "==v1" or "!=v1" with "==v2" or "!=v2": not both denying two different versions *)
Lemma mk_union_two : forall a b, is_restrict a || is_allow a = false -> is_restrict b || is_allow b = false ->
  exists r, mk_union [a; b] = Ok r /\ forall w, allows r (VStd w) = allows a (VStd w) || allows b (VStd w).
Proof.
  intros a b Ha Hb. unfold mk_union. cbn [length Nat.leb existsb]. rewrite Ha, Hb. cbn [orb].
  eexists. split; [reflexivity|]. intro w. cbn [allows].
  rewrite (existsb_perm _ _ _ _ (sort_by_perm _ _ _)). cbn [existsb]. rewrite orb_false_r. reflexivity.
Qed.
Lemma match_match_union : forall f v al v' al', plain v -> plain v' ->
  exists r, union (S f) (Match (VStd v) al) (Match (VStd v') al') = Ok r /\
   forall w, candidate w -> allows r (VStd w) = allows (Match (VStd v) al) (VStd w) || allows (Match (VStd v') al') (VStd w).
Proof.
  intros f v al v' al' Pv Pv'. cbn [union spec_eqb version_eqb].
  destruct (Bool.eqb al al' && sv_eqb v v') eqn:E.
  - apply andb_true_iff in E. destruct E as [E1 E2]. apply eqb_prop in E1. subst al'.
    eexists. split; [reflexivity|]. intros w C. cbn [allows]. rewrite !match_allows_plain by (assumption || apply C).
    rewrite (spo_eq_left _ _ _ spo_sv _ _ _ E2). destruct al, (sv_eqb v' w); reflexivity.
  - destruct (sv_eqb v v' && negb (Bool.eqb al al')) eqn:G.
    + apply andb_true_iff in G. destruct G as [G1 G2].
      eexists. split; [reflexivity|]. intros w C. cbn [allows]. rewrite !match_allows_plain by (assumption || apply C).
      rewrite (spo_eq_left _ _ _ spo_sv _ _ _ G1). destruct al, al'; try discriminate G2; destruct (sv_eqb v' w); reflexivity.
    + destruct (mk_union_two (Match (VStd v) al) (Match (VStd v') al') eq_refl eq_refl) as (r & E' & V).
      exists r. split; [exact E'|]. intros w _. apply V.
Qed.

(** Operands of a two-operand union for which the code is right. *)
Lemma union_simple_correct : forall a b,
  (a = AllowAll \/ a = RestrictAll \/ atom a \/ exists v, a = Match (VStd v) false /\ plain v) ->
  (b = AllowAll \/ b = RestrictAll \/ atom b \/ exists v, b = Match (VStd v) false /\ plain v) ->
  (forall mn mx i j mn' mx' i' j', a = Range mn mx i j -> b = Range mn' mx' i' j' -> staggered (mn, mx, i, j) (mn', mx', i', j')) ->
  exists r, union_with a b = Ok r /\
   forall v, candidate v -> allows r (VStd v) = allows a (VStd v) || allows b (VStd v).
Proof.
  intros a b Ha Hb St.
  assert (OR : forall x, (x = AllowAll \/ x = RestrictAll \/ atom x \/ exists v, x = Match (VStd v) false /\ plain v) ->
    x = AllowAll \/ x = RestrictAll \/ (exists v al, x = Match (VStd v) al /\ plain v) \/
    exists mn mx i j, x = Range mn mx i j /\ wf_interval (mn, mx, i, j)).
  { intros x [H|[H|[H|(v & H & P)]]]; auto; [|right; right; left; eauto].
    right; right. destruct x as [| | | |[| |v] [|]|mn mx i j]; try contradiction H; [left|right].
    - exists v, true. auto.
    - exists mn, mx, i, j. auto. }
  apply OR in Ha. apply OR in Hb. unfold union_with.
  destruct Ha as [->|[->|[(v & al & -> & Pv)|(mn & mx & i & j & -> & W)]]].
  - destruct (union_fuel_ge AllowAll b) as [f ->]. exists AllowAll. split; reflexivity.
  - destruct (union_fuel_ge RestrictAll b) as [f ->]. exists b. split; reflexivity.
  - destruct (union_fuel_ge (Match (VStd v) al) b) as [f ->].
    destruct Hb as [->|[->|[(v' & al' & -> & Pv')|(mn & mx & i & j & -> & W)]]].
    + exists AllowAll. split; [reflexivity|]. intros w C. cbn. rewrite orb_true_r. reflexivity.
    + exists (Match (VStd v) al). split; [reflexivity|]. intros w C. cbn. rewrite orb_false_r. reflexivity.
    + apply match_match_union; assumption.
    + apply match_range_union; assumption.
  - destruct Hb as [->|[->|[(v' & al' & -> & Pv')|(mn' & mx' & i' & j' & -> & W')]]].
    + destruct (union_fuel_ge (Range mn mx i j) AllowAll) as [f ->].
      exists AllowAll. split; [reflexivity|]. intros w C. cbn. rewrite orb_true_r. reflexivity.
    + destruct (union_fuel_ge (Range mn mx i j) RestrictAll) as [f ->].
      exists (Range mn mx i j). split; [reflexivity|]. intros w C. cbn [allows]. rewrite orb_false_r. reflexivity.
    + destruct (union_fuel_ge (Range mn mx i j) (Match (VStd v') al')) as [f ->].
      destruct (match_range_union (S (S f)) v' al' mn mx i j Pv' W) as (r & E & V).
      exists r. split; [exact E|]. intros w C. rewrite (V w C). apply orb_comm.
    + apply range_union_correct; [exact W|exact W'|eapply St; reflexivity].
Qed.
