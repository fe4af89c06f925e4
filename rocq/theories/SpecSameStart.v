(** Unions of two ranges that begin at the same version. *)
From Coq Require Import String Ascii List Bool NArith Arith Lia Permutation.
From Verif Require Import Base BaseFacts OrderFacts VersionModel VersionSpec VersionProofs
  SpecifierModel SpecifierSpec SpecRange SpecifierProofs SpecUnion.
Import ListNotations.
Open Scope string_scope.
Open Scope nat_scope.
Open Scope list_scope.
Open Scope bool_scope.


Lemma same_start_eqb : forall mn mx i j mn' mx' i' j', wf_interval (mn, mx, i, j) -> wf_interval (mn', mx', i', j') ->
  same_start (mn, mx, i, j) (mn', mx', i', j') -> opt_sv_eqb mn mn' = true /\ implb i i' = true.
Proof.
  intros mn mx i j mn' mx' i' j' Wa Wb H. unfold same_start in H. unfold opt_sv_eqb.
  destruct mn as [m|], mn' as [m'|]; try contradiction; cbn [opt_eqb].
  - destruct H as [H I]. split; [apply sv_eqb_spec; exact H|]. destruct i, i'; try reflexivity. discriminate (I eq_refl).
  - split; [reflexivity|]. destruct i; [|reflexivity]. destruct Wa as (_ & A & _). destruct (A eq_refl eq_refl).
Qed.

(** the code puts the range that ends first in front *)
Lemma same_start_order : forall mn mx i j mn' mx' i' j', 
  (mn' = None -> i' = false) -> opt_sv_eqb mn mn' = true -> implb i i' = true -> hi_leb (mx', j') (mx, j) = true ->
  range_ltb (mn', mx', i', j') (mn, mx, i, j) = false.
Proof.
  intros mn mx i j mn' mx' i' j' NI E I H. unfold range_ltb.
  destruct (Bool.eqb i' i && Bool.eqb j' j && opt_sv_eqb mn' mn && opt_sv_eqb mx' mx) eqn:G; [reflexivity|].
  assert (E' : opt_sv_eqb mn' mn = true).
  { unfold opt_sv_eqb in *. destruct mn, mn'; try discriminate E; [|reflexivity]. cbn [opt_eqb] in *.
    rewrite (spo_sym _ _ spo_sv). exact E. }
  assert (BM : Bool.eqb i' i = true -> match mx', mx with
    | Some m, Some m' => if negb (sv_eqb m m') then sv_ltb m m' else j
    | _, _ => is_some mx' end = false).
  { intro EI. rewrite EI, E' in G. unfold hi_leb in H. cbn [fst snd] in H. unfold opt_sv_eqb in G.
    destruct mx as [n|], mx' as [n'|]; try discriminate H; try reflexivity. cbn [opt_eqb] in G.
    destruct (sv_eqb n' n) eqn:EN; cbn [negb].
    - rewrite (spo_sym _ _ spo_sv) in EN. apply orb_true_iff in H. destruct H as [H|H]; [destruct (spo_sv_eq_lt _ _ EN H)|].
      rewrite EN in H. destruct j, j'; try reflexivity; try discriminate H. discriminate G.
    - rewrite (spo_sym _ _ spo_sv) in EN. rewrite EN in H. rewrite orb_false_r in H. exact (spo_asym _ _ _ spo_sv _ _ H). }
  unfold opt_sv_eqb in E'. destruct mn as [m|], mn' as [m'|]; try discriminate E'; cbn [opt_eqb] in E'.
  - rewrite E'. cbn [negb]. destruct (Bool.eqb i' i) eqn:EI; cbn [negb]; [exact (BM eq_refl)|].
    destruct i, i'; try reflexivity; discriminate.
  - destruct (Bool.eqb i' i) eqn:EI; [exact (BM eq_refl)|]. 
    rewrite (NI eq_refl) in *. destruct i; discriminate.
Qed.

Lemma range_union_same_start : forall mn mx i j mn' mx' i' j',
  wf_interval (mn, mx, i, j) -> wf_interval (mn', mx', i', j') ->
  opt_sv_eqb mn mn' = true -> implb i i' = true -> hi_leb (mx', j') (mx, j) = true ->
  exists r, range_union_ordered (mn, mx, i, j) (mn', mx', i', j') = Ok r /\
   forall v, candidate v -> allows r (VStd v) = in_rng (mn, mx, i, j) v || in_rng (mn', mx', i', j') v.
Proof.
  intros mn mx i j mn' mx' i' j' Wa Wb E I H.
  destruct (wf_opt_plain _ _ _ _ Wa) as [P1 P2]. destruct (wf_opt_plain _ _ _ _ Wb) as [P3 P4].
  assert (LO : forall v, in_lo mn i' v = in_lo mn' i' v).
  { intro v. unfold opt_sv_eqb in E. unfold in_lo. destruct mn as [m|], mn' as [m'|]; try discriminate E; [|reflexivity].
    cbn [opt_eqb] in E. rewrite (spo_left _ _ spo_sv _ _ _ E), (spo_eq_left _ _ _ spo_sv _ _ _ E). reflexivity. }
  assert (LI : forall v, in_lo mn i v = true -> in_lo mn i' v = true).
  { intro v. unfold in_lo. destruct mn as [m|]; [|reflexivity]. destruct i, i'; try discriminate I; auto.
    cbn. rewrite orb_false_r. intros ->. reflexivity. }
  assert (NI : mn = None -> i' = false).
  { intros ->. destruct mn'; [discriminate E|]. destruct i'; [|reflexivity]. destruct Wb as (_ & A & _). destruct (A eq_refl eq_refl). }
  assert (J' : mx' = None -> j' = false).
  { intros ->. destruct j'; [|reflexivity]. destruct Wb as (_ & _ & A & _). destruct (A eq_refl eq_refl). }
  set (k := if opt_sv_eqb mx mx' then j || j' else j').
  assert (Hk : mx' = None -> k = false).
  { intros ->. unfold k, opt_sv_eqb. destruct mx as [n|]; cbn [opt_eqb]; [auto|]. rewrite (J' eq_refl).
    destruct j; [|reflexivity]. destruct Wa as (_ & _ & A & _). destruct (A eq_refl eq_refl). }
  assert (Hv : k = j' \/ mx' = None).
  { unfold k. destruct (opt_sv_eqb mx mx') eqn:EX; [|auto]. unfold hi_leb in H. cbn [fst snd] in H. unfold opt_sv_eqb in EX.
    destruct mx as [n|], mx' as [n'|]; try discriminate EX; [|auto]. cbn [opt_eqb] in EX. left.
    apply orb_true_iff in H. destruct H as [H|H]; [destruct (spo_sv_eq_lt _ _ EX H)|].
    rewrite EX in H. destruct j, j'; try reflexivity; discriminate. }
  assert (SP : forall v, candidate v -> in_rng (mn, mx', i', k) v = in_rng (mn, mx, i, j) v || in_rng (mn', mx', i', j') v).
  { intros v C. unfold in_rng. rewrite <- LO.
    assert (in_hi mx' k v = in_hi mx' j' v) as ->. { destruct Hv as [->| ->]; reflexivity. }
    pose proof (LI v) as X. pose proof (hi_leb_in (mx', j') (mx, j) v H) as Y. cbn [fst snd] in Y.
    destruct (in_lo mn i v), (in_lo mn i' v), (in_hi mx j v), (in_hi mx' j' v); cbn; try reflexivity;
    try (specialize (X eq_refl); discriminate); try (specialize (Y eq_refl); discriminate). }
  assert (OV : match mn' with Some m' => match mx with Some m => sv_ltb m' m | None => true end | None => true end = true).
  { destruct mn' as [m'|]; [|reflexivity]. destruct mx as [n|]; [|reflexivity].
    unfold opt_sv_eqb in E. destruct mn as [m|]; [|discriminate E]. cbn [opt_eqb] in E.
    destruct Wa as (_ & _ & _ & _ & _ & W6). specialize (W6 _ _ eq_refl eq_refl).
    rewrite <- (spo_left _ _ spo_sv _ _ _ E). exact W6. }
  cbn [range_union_ordered]. rewrite E, OV. fold k.
  assert (i || i' = i') as ->. { destruct i, i'; try reflexivity; discriminate I. }
  clearbody k.
  destruct mn as [m|], mx' as [n'|].
  - destruct mn' as [m'|]; [|discriminate E]. unfold opt_sv_eqb in E. cbn [opt_eqb] in E.
    assert (LT : sv_ltb m n' = true).
    { destruct Wb as (_ & _ & _ & _ & _ & W6). specialize (W6 _ _ eq_refl eq_refl). rewrite (spo_left _ _ spo_sv _ _ _ E). exact W6. }
    exists (Range (Some m) (Some n') i' k). split.
    + unfold create_range, opt_sv_eqb. cbn [opt_eqb].
      assert (sv_eqb m n' = false) as ->.
      { destruct (sv_eqb m n') eqn:E'; [|reflexivity]. destruct (spo_sv_eq_lt _ _ E' LT). }
      cbn [andb]. unfold mk_range. cbn [is_none andb]. rewrite !andb_false_r, LT. reflexivity.
    + intros v C. rewrite <- (SP v C). apply range_allows_in; [|exact C].
      repeat split; try discriminate; try (left; discriminate); try (apply P1; congruence); try (apply P4; congruence).
      intros a b Ea Eb. congruence.
  - specialize (Hk eq_refl). subst k. exists (Range (Some m) None i' false). split.
    + unfold create_range, mk_range. cbn. destruct i'; reflexivity.
    + intros v C. rewrite <- (SP v C). apply range_allows_in; [|exact C].
      repeat split; try discriminate; try (left; discriminate); try (apply P1; congruence).
  - specialize (NI eq_refl). subst i'.
    exists (Range None (Some n') false k). split.
    + unfold create_range, mk_range. cbn. destruct k; reflexivity.
    + intros v C. rewrite <- (SP v C). apply range_allows_in; [|exact C].
      repeat split; try discriminate; try (right; discriminate); try (apply P4; congruence).
  - specialize (Hk eq_refl). subst k. specialize (NI eq_refl). subst i'.
    exists AllowAll. split; [reflexivity|]. intros v C. rewrite <- (SP v C). reflexivity.
Qed.

Lemma same_start_order' : forall mn mx i j mn' mx' i' j',
  (mn' = None -> i' = false) -> (mx = None -> j = false) -> (mx' = None -> j' = false) -> opt_sv_eqb mn mn' = true -> implb i i' = true -> hi_leb (mx', j') (mx, j) = true ->
  spec_eqb (Range mn' mx' i' j') (Range mn mx i j) = false ->
  range_ltb (mn, mx, i, j) (mn', mx', i', j') = true.
Proof.
  intros mn mx i j mn' mx' i' j' NI NJ NJ' E I H Q.
  assert (E' : opt_sv_eqb mn' mn = true).
  { unfold opt_sv_eqb in *. destruct mn, mn'; try discriminate E; [|reflexivity]. cbn [opt_eqb] in *.
    rewrite (spo_sym _ _ spo_sv). exact E. }
  cbn [spec_eqb] in Q. rewrite E' in Q. unfold range_ltb. rewrite E.
  assert (BM : Bool.eqb i i' = true -> match mx, mx' with
    | Some m, Some m' => if negb (sv_eqb m m') then sv_ltb m m' else j'
    | _, _ => is_some mx end = true /\ Bool.eqb j j' && opt_sv_eqb mx mx' = false).
  { intro EI. apply eqb_prop in EI. subst i'. unfold hi_leb in H. cbn [fst snd] in H. unfold opt_sv_eqb in *.
    rewrite eqb_reflx in Q.
    destruct mx as [n|], mx' as [n'|]; try discriminate H; cbn [opt_eqb is_some] in *; rewrite ?andb_false_r; auto.
    - rewrite (spo_sym _ _ spo_sv n' n) in Q. destruct (sv_eqb n n') eqn:EN; cbn [negb].
      + apply orb_true_iff in H. destruct H as [H|H]; [destruct (spo_sv_eq_lt _ _ EN H)|].
        destruct j, j'; try discriminate; auto.
      + rewrite andb_false_r in *. rewrite orb_false_r in H. auto.
    - rewrite (NJ eq_refl), (NJ' eq_refl) in *. discriminate. }
  unfold opt_sv_eqb in E. destruct (Bool.eqb i i') eqn:EI.
  - destruct (BM eq_refl) as [B1 B2]. rewrite andb_true_r. cbn [andb]. rewrite B2.
    destruct mn as [m|], mn' as [m'|]; try discriminate E; [|exact B1]. cbn [opt_eqb] in E. rewrite E. cbn [negb]. exact B1.
  - cbn [andb]. destruct mn as [m|], mn' as [m'|]; try discriminate E.
    + cbn [opt_eqb] in E. rewrite E. cbn [negb]. destruct i, i'; try reflexivity; discriminate.
    + rewrite (NI eq_refl) in *. destruct i; discriminate.
Qed.

Lemma same_start_union : forall mn mx i j mn' mx' i' j',
  wf_interval (mn, mx, i, j) -> wf_interval (mn', mx', i', j') ->
  same_start (mn, mx, i, j) (mn', mx', i', j') -> ends_no_later (mn, mx, i, j) (mn', mx', i', j') ->
  (exists r, union_with (Range mn mx i j) (Range mn' mx' i' j') = Ok r /\
    forall v, candidate v -> allows r (VStd v) = allows (Range mn mx i j) (VStd v) || allows (Range mn' mx' i' j') (VStd v)) /\
  (exists r, union_with (Range mn' mx' i' j') (Range mn mx i j) = Ok r /\
    forall v, candidate v -> allows r (VStd v) = allows (Range mn mx i j) (VStd v) || allows (Range mn' mx' i' j') (VStd v)).
Proof.
  intros mn mx i j mn' mx' i' j' Wa Wb S En. apply ends_spec in En. cbn [hi] in En.
  destruct (same_start_eqb _ _ _ _ _ _ _ _ Wa Wb S) as [E I].
  destruct (range_union_same_start _ _ _ _ _ _ _ _ Wa Wb E I En) as (r & R & V).
  assert (NI : mn' = None -> i' = false).
  { intros ->. destruct i'; [|reflexivity]. destruct Wb as (_ & A & _). destruct (A eq_refl eq_refl). }
  assert (NJ : mx = None -> j = false).
  { intros ->. destruct j; [|reflexivity]. destruct Wa as (_ & _ & A & _). destruct (A eq_refl eq_refl). }
  assert (NJ' : mx' = None -> j' = false).
  { intros ->. destruct j'; [|reflexivity]. destruct Wb as (_ & _ & A & _). destruct (A eq_refl eq_refl). }
  pose proof (same_start_order mn mx i j mn' mx' i' j' NI E I En) as O.
  unfold union_with. split.
  - destruct (union_fuel_ge (Range mn mx i j) (Range mn' mx' i' j')) as [f ->]. cbn [union].
    destruct (spec_eqb (Range mn mx i j) (Range mn' mx' i' j')) eqn:Q.
    + exists (Range mn mx i j). split; [reflexivity|]. intros v C. cbn [allows]. rewrite !range_allows_in by assumption.
      destruct (range_eq_subb _ _ _ _ _ _ _ _ Q) as [_ Q2]. rewrite (Q2 v). symmetry. apply orb_diag.
    + exists r. unfold range_union. rewrite O. split; [exact R|]. intros v C. rewrite (V v C). cbn [allows].
      rewrite !range_allows_in by assumption. reflexivity.
  - destruct (union_fuel_ge (Range mn' mx' i' j') (Range mn mx i j)) as [f ->]. cbn [union].
    destruct (spec_eqb (Range mn' mx' i' j') (Range mn mx i j)) eqn:Q.
    + exists (Range mn' mx' i' j'). split; [reflexivity|]. intros v C. cbn [allows]. rewrite !range_allows_in by assumption.
      destruct (range_eq_subb _ _ _ _ _ _ _ _ Q) as [_ Q2]. rewrite (Q2 v). symmetry. apply orb_diag.
    + unfold range_union. rewrite (same_start_order' _ _ _ _ _ _ _ _ NI NJ NJ' E I En Q).
      exists r. split; [exact R|]. intros v C. rewrite (V v C). cbn [allows]. rewrite !range_allows_in by assumption. reflexivity.
Qed.
