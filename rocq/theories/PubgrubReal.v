(** The windows of the resolver with the specifiers of version_specifiers.py (C16). *)
From Coq Require Import String Ascii List Bool NArith Arith Lia.
From Verif Require Import Base OrderFacts VersionModel VersionSpec VersionProofs SpecifierModel SpecifierSpec SpecRange SpecifierProofs PubgrubModel PubgrubSolution PubgrubLaws.
Import ListNotations.
Open Scope nat_scope.
Open Scope list_scope.
Open Scope bool_scope.

Definition candidate_version (v : version) : Prop := match v with VStd s => candidate s | _ => False end.

Lemma candidate_total : forall a b, candidate a -> candidate b -> sv_ltb a b = false -> sv_ltb b a = false -> same_version a b.
Proof. intros a b A B H1 H2. apply sv_eqb_spec. apply nolab_total; [exact (candidate_nolab a A)|exact (candidate_nolab b B)|exact H1|exact H2]. Qed.

Section Real.
Variable vs : list sv.
Hypothesis all_candidates : Forall candidate vs.
Hypothesis all_distinct : forall i j a b, nth_error vs i = Some a -> nth_error vs j = Some b -> same_version a b -> i = j.

Lemma listed_candidate : forall v, In v (map VStd vs) -> candidate_version v.
Proof. intros v I. apply in_map_iff in I. destruct I as (s & <- & I). cbn. rewrite Forall_forall in all_candidates. auto. Qed.
Lemma ltb_asym : forall v w, candidate_version v -> candidate_version w -> version_ltb v w = true -> version_ltb w v = false.
Proof. intros v w Cv Cw H. destruct v as [| |a], w as [| |b]; try contradiction. cbn in *. exact (spo_asym _ _ _ spo_sv _ _ H). Qed.
Lemma ltb_trans : forall u v w, candidate_version u -> candidate_version v -> candidate_version w -> version_ltb u v = true -> version_ltb v w = true -> version_ltb u w = true.
Proof. intros u v w Cu Cv Cw H1 H2. destruct u as [| |a], v as [| |b], w as [| |c]; try contradiction. cbn in *. exact (spo_trans _ _ spo_sv _ _ _ H1 H2). Qed.
Lemma ltb_total : forall i j v w, nth_error (map VStd vs) i = Some v -> nth_error (map VStd vs) j = Some w -> version_ltb v w = false -> version_ltb w v = false -> i = j.
Proof.
  intros i j v w Hi Hj H1 H2. rewrite nth_error_map in *. destruct (nth_error vs i) as [a|] eqn:Ea; [|discriminate]. destruct (nth_error vs j) as [b|] eqn:Eb; [|discriminate]. cbn in *. injection Hi as <-. injection Hj as <-.
  rewrite Forall_forall in all_candidates. apply (all_distinct i j a b Ea Eb). apply candidate_total; [apply all_candidates; exact (nth_error_In _ _ Ea)|apply all_candidates; exact (nth_error_In _ _ Eb)|exact H1|exact H2].
Qed.
Lemma window_real : forall a b s w, (forall v, a = Some v -> In v (map VStd vs)) -> (forall v, b = Some v -> In v (map VStd vs)) -> (a <> None \/ b <> None) ->
  (forall v v', a = Some v -> b = Some v' -> version_ltb v v' = true) -> candidate_version w -> real_window a b = Ok s ->
  allows s w = match a with Some a => version_ltb a w | None => true end && match b with Some b => negb (version_ltb b w) | None => true end.
Proof.
  intros a b s w Ha Hb NE LT Cw H.
  assert (Pa : forall v, a = Some v -> candidate_version v) by (intros v E; apply listed_candidate; auto).
  assert (Pb : forall v, b = Some v -> candidate_version v) by (intros v E; apply listed_candidate; auto).
  destruct w as [| |x]; try contradiction. cbn in Cw.
  assert (R : forall mn mx j, wf_interval (mn, mx, false, j) -> allows (Range mn mx false j) (VStd x) = in_rng (mn, mx, false, j) x).
  { intros mn mx j W. cbn [allows]. apply range_allows_in; assumption. }
  destruct a as [[| |m]|], b as [[| |n]|]; try (specialize (Pa _ eq_refl); contradiction); try (specialize (Pb _ eq_refl); contradiction).
  - specialize (Pa _ eq_refl). specialize (Pb _ eq_refl). specialize (LT _ _ eq_refl eq_refl). cbn in Pa, Pb, LT.
    assert (W : wf_interval (Some m, Some n, false, true)).
    { split; [left; discriminate|]. split; [discriminate|]. split; [discriminate|]. split; [intros z E; injection E as <-; apply Pa|]. split; [intros z E; injection E as <-; apply Pb|]. intros p q E E'. injection E as <-. injection E' as <-. exact LT. }
    unfold real_window in H. cbn [bind is_some] in H. assert (ES : s = Range (Some m) (Some n) false true).
    { unfold create_range, opt_sv_eqb in H. cbn [opt_eqb] in H. destruct (sv_eqb m n) eqn:E; [exfalso; exact (spo_sv_eq_lt _ _ E LT)|]. cbn [andb] in H. unfold mk_range in H. cbn in H. rewrite LT in H. cbn in H. congruence. }
    subst s. rewrite (R _ _ _ W). unfold in_rng, in_lo, in_hi. cbn [version_ltb andb orb]. rewrite orb_false_r. f_equal.
    pose proof (candidate_nolab _ Cw) as Nx. pose proof (candidate_nolab _ Pb) as Nn. destruct (sv_ltb x n) eqn:E1; cbn [orb].
    + symmetry. apply negb_true_iff. exact (spo_asym _ _ _ spo_sv _ _ E1).
    + destruct (sv_ltb n x) eqn:E2; cbn [negb]; [|exact (nolab_total _ _ Nx Nn E1 E2)]. destruct (sv_eqb x n) eqn:E3; [|reflexivity]. exfalso. apply (spo_sv_eq_lt n x); [|exact E2]. rewrite (spo_sym _ _ spo_sv). exact E3.
  - specialize (Pa _ eq_refl). cbn in Pa. assert (W : wf_interval (Some m, None, false, false)).
    { split; [left; discriminate|]. split; [discriminate|]. split; [discriminate|]. split; [intros z E; injection E as <-; apply Pa|]. split; [discriminate|]. intros p q E E'. discriminate. }
    unfold real_window in H. cbn in H. injection H as <-. rewrite (R _ _ _ W). unfold in_rng, in_lo, in_hi. cbn [version_ltb]. rewrite orb_false_r. reflexivity.
  - specialize (Pb _ eq_refl). cbn in Pb. assert (W : wf_interval (None, Some n, false, true)).
    { split; [right; discriminate|]. split; [discriminate|]. split; [discriminate|]. split; [discriminate|]. split; [intros z E; injection E as <-; apply Pb|]. intros p q E E'. discriminate. }
    unfold real_window in H. cbn in H. injection H as <-. rewrite (R _ _ _ W). unfold in_rng, in_lo, in_hi. cbn [version_ltb andb].
    pose proof (candidate_nolab _ Cw) as Nx. pose proof (candidate_nolab _ Pb) as Nn. destruct (sv_ltb x n) eqn:E1; cbn [orb].
    + symmetry. apply negb_true_iff. exact (spo_asym _ _ _ spo_sv _ _ E1).
    + destruct (sv_ltb n x) eqn:E2; cbn [negb]; [|exact (nolab_total _ _ Nx Nn E1 E2)]. destruct (sv_eqb x n) eqn:E3; [|reflexivity]. exfalso. apply (spo_sv_eq_lt n x); [|exact E2]. rewrite (spo_sym _ _ spo_sv). exact E3.
  - destruct NE; congruence.
Qed.
Lemma real_windows : forall out, build_versions spec version real_ops (map VStd vs) 0 (sort_positions spec version real_ops (map VStd vs)) = Ok out ->
  map (v_version spec version) out = map VStd vs /\
  (forall j pv, nth_error out j = Some pv -> allows (v_range spec version pv) (v_version spec version pv) = true) /\
  (forall i j a b w, candidate w -> nth_error out i = Some a -> nth_error out j = Some b -> allows (v_range spec version a) (VStd w) = true -> allows (v_range spec version b) (VStd w) = true -> i = j) /\
  (forall w, vs <> [] -> candidate w -> exists j pv, nth_error out j = Some pv /\ allows (v_range spec version pv) (VStd w) = true).
Proof.
  intros out H. destruct (windows_partition spec version real_ops (map VStd vs)) with (K := candidate_version) (out := out) as (A & B & C & D).
  - intros v w Iv Iw. apply ltb_asym; apply listed_candidate; assumption.
  - intros u v w Iu Iv Iw. apply ltb_trans; apply listed_candidate; assumption.
  - exact ltb_total.
  - exact listed_candidate.
  - exact ltb_asym.
  - exact ltb_trans.
  - reflexivity.
  - exact window_real.
  - exact H.
  - split; [exact A|]. split; [exact B|]. split; [intros i j a b w Cw; exact (C i j a b (VStd w) Cw)|]. intros w NE Cw. apply (D (VStd w)); [destruct vs; [congruence|discriminate]|exact Cw].
Qed.
Lemma real_window_total : forall a b, (forall v, a = Some v -> In v (map VStd vs)) -> (forall v, b = Some v -> In v (map VStd vs)) -> (a <> None \/ b <> None) ->
  (forall v v', a = Some v -> b = Some v' -> version_ltb v v' = true) -> exists s, real_window a b = Ok s.
Proof.
  intros a b Ha Hb NE LT.
  assert (Pa : forall v, a = Some v -> candidate_version v) by (intros v E; apply listed_candidate; auto).
  assert (Pb : forall v, b = Some v -> candidate_version v) by (intros v E; apply listed_candidate; auto).
  destruct a as [[| |m]|], b as [[| |n]|]; try (specialize (Pa _ eq_refl); contradiction); try (specialize (Pb _ eq_refl); contradiction).
  - specialize (LT _ _ eq_refl eq_refl). cbn in LT. unfold real_window. cbn [bind is_some]. unfold create_range, opt_sv_eqb. cbn [opt_eqb]. destruct (sv_eqb m n) eqn:E; [exfalso; exact (spo_sv_eq_lt _ _ E LT)|]. cbn [andb]. unfold mk_range. cbn. rewrite LT. cbn. eauto.
  - unfold real_window. cbn. eauto.
  - unfold real_window. cbn. eauto.
  - destruct NE; congruence.
Qed.
Lemma real_build : exists out, build_versions spec version real_ops (map VStd vs) 0 (sort_positions spec version real_ops (map VStd vs)) = Ok out.
Proof.
  apply build_total.
  - intros u v w Iu Iv Iw. apply ltb_trans; apply listed_candidate; assumption.
  - exact ltb_total.
  - exact real_window_total.
Qed.
End Real.
