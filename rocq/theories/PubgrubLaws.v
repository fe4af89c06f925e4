(** What the resolver needs from the specifier operations, what a solution is, and the windows of the versions. *)
From Coq Require Import String Ascii List Bool NArith Arith Lia Sorted.
From Verif Require Import Base PubgrubModel PubgrubSolution.
Import ListNotations.
Open Scope nat_scope.
Open Scope list_scope.
Open Scope bool_scope.

(** The operations compute on sets of versions: [o_allows s] is the set of [s]. *)
Record lawful {S V} (O : ops S V) : Prop := {
  law_match : forall v w, o_allows O (o_match O v) w = true <-> w = v;
  law_inter : forall a b c w, o_inter O a b = Ok c -> o_allows O c w = o_allows O a w && o_allows O b w;
  law_inverse : forall a c w, o_inverse O a = Ok c -> o_allows O c w = negb (o_allows O a w);
  law_union : forall a b c w, o_union O a b = Ok c -> o_allows O c w = o_allows O a w || o_allows O b w;
  law_nothing : forall a w, o_is_nothing O a = true -> o_allows O a w = false;
  law_everything : forall w, o_allows O (o_everything O) w = true;
  law_all : forall a b r, o_all O a b = Ok r -> (exists w, o_allows O b w = true) -> (r = true <-> forall w, o_allows O b w = true -> o_allows O a w = true);
  law_any : forall a b r, o_any O a b = Ok r -> (r = true <-> exists w, o_allows O a w = true /\ o_allows O b w = true);
  law_eqb : forall a b w, o_eqb O a b = true -> o_allows O a w = o_allows O b w;
  law_special : forall a v, o_special O a = Some v -> o_allows O a v = true;
  law_window : forall a b s w, o_window O a b = Ok s ->
    o_allows O s w = match a with Some a => o_vlt O a w | None => true end && match b with Some b => negb (o_vlt O b w) | None => true end;
  law_lt : forall v w, o_vlt O v w = true -> o_vlt O w v = false;
  law_lt_trans : forall u v w, o_vlt O u v = true -> o_vlt O v w = true -> o_vlt O u w = true;
  law_total : forall v w, o_vlt O v w = false -> o_vlt O w v = false -> v = w }.

(** [ds] selects one version of each package in it, and whatever these versions require *)
Definition is_solution {S V} (O : ops S V) (P : problem S V) (root : pkg) (ds : list (pkg * S)) : Prop :=
  NoDup (map fst ds) /\ (exists v, In (root, o_match O v) ds) /\
  forall p c, In (p, c) ds -> exists v ts, c = o_match O v /\ (In v (p_versions P p) \/ p_has P p v = true) /\ p_deps P p v = Some ts /\
    forall t, In t ts -> exists w, In (t_pkg t, o_match O w) ds /\ o_allows O (t_con t) w = true.
(** every version is listed once and requires each package at most once *)
Definition tidy {S V} (P : problem S V) : Prop :=
  (forall p, NoDup (p_versions P p)) /\ (forall p v ts, p_deps P p v = Some ts -> NoDup (map t_pkg ts)).
(** no two versions of a package put the same constraint on another package *)
Definition unshared {S V} (O : ops S V) (P : problem S V) : Prop :=
  forall p v w ts us t u, In v (p_versions P p) -> In w (p_versions P p) -> v <> w -> p_deps P p v = Some ts -> p_deps P p w = Some us ->
  In t ts -> In u us -> t_pkg t = t_pkg u -> o_eqb O (t_con u) (t_con t) = false.

Lemma list_eq_nth : forall A (l l' : list A), (forall j, nth_error l j = nth_error l' j) -> l = l'.
Proof.
  intros A l. induction l as [|x l IH]; intros l' H; destruct l' as [|y l']; [reflexivity|specialize (H 0); discriminate|specialize (H 0); discriminate|].
  pose proof (H 0) as H0. cbn in H0. injection H0 as ->. f_equal. apply IH. intro j. exact (H (Datatypes.S j)).
Qed.
(** ** the windows *)
Section Windows.
Variables S V : Type.
Variable O : ops S V.
(** the order of the listed versions *)
Variable vs : list V.
Hypothesis lt_asym : forall v w, In v vs -> In w vs -> o_vlt O v w = true -> o_vlt O w v = false.
Hypothesis lt_trans : forall u v w, In u vs -> In v vs -> In w vs -> o_vlt O u v = true -> o_vlt O v w = true -> o_vlt O u w = true.
Hypothesis lt_total : forall i j v w, nth_error vs i = Some v -> nth_error vs j = Some w -> o_vlt O v w = false -> o_vlt O w v = false -> i = j.

Definition entry (e : V * nat) : Prop := nth_error vs (snd e) = Some (fst e).
Definition before (a b : V * nat) : Prop := o_vlt O (fst a) (fst b) = true.

Lemma insert_pos_in : forall v n l e, In e (insert_pos S V O v n l) <-> e = (v, n) \/ In e l.
Proof.
  intros v n l e. induction l as [|[w m] l IH]; [cbn; split; [intros [<-|[]]; auto|intros [->|[]]; auto]|]. cbn. destruct (o_vlt O v w); cbn; [|rewrite IH]; split; intros; intuition congruence.
Qed.
Lemma entry_in : forall e, entry e -> In (fst e) vs.
Proof. intros e H. exact (nth_error_In _ _ H). Qed.
Lemma insert_sorted : forall v n l, entry (v, n) -> Forall entry l -> ~ In n (map snd l) -> StronglySorted before l -> StronglySorted before (insert_pos S V O v n l).
Proof.
  intros v n l. induction l as [|[w m] l IH]; intros Hv Hl Hn Hs; [cbn; constructor; [constructor|constructor]|]. cbn.
  inversion Hl as [|? ? Hw Hl']; subst. inversion Hs as [|? ? Hs' Hf]; subst. destruct (o_vlt O v w) eqn:E.
  - constructor; [exact Hs|]. constructor; [exact E|]. rewrite Forall_forall in *. intros e I. unfold before. cbn. apply (lt_trans v w (fst e)); [exact (entry_in _ Hv)|exact (entry_in _ Hw)|exact (entry_in _ (Hl' e I))|exact E|exact (Hf e I)].
  - constructor; [apply IH; auto; intro I; apply Hn; right; exact I|]. rewrite Forall_forall in *. intros e I. apply insert_pos_in in I. destruct I as [->|I]; [|exact (Hf e I)].
    unfold before. cbn. destruct (o_vlt O w v) eqn:E2; [reflexivity|]. exfalso. apply Hn. left. cbn. symmetry. apply (lt_total n m v w Hv Hw E E2).
Qed.
Lemma insert_pos_nodup : forall v n l, ~ In n (map snd l) -> NoDup (map snd l) -> NoDup (map snd (insert_pos S V O v n l)).
Proof.
  intros v n l. induction l as [|[w m] l IH]; intros Hn Hd; [cbn; constructor; [intros []|constructor]|]. cbn. destruct (o_vlt O v w); [cbn; constructor; assumption|]. cbn in *. inversion Hd as [|? ? H1 H2]; subst.
  constructor; [|apply IH; auto]. intro I. apply in_map_iff in I. destruct I as ([u k] & E & I). cbn in E. subst k. apply insert_pos_in in I. destruct I as [E|I]; [injection E as -> ->; apply Hn; left; reflexivity|]. apply H1. apply in_map_iff. exists (u, m). auto.
Qed.
Lemma insert_pos_length : forall v n l, length (insert_pos S V O v n l) = Datatypes.S (length l).
Proof. intros v n l. induction l as [|[w m] l IH]; [reflexivity|]. cbn. destruct (o_vlt O v w); cbn; [reflexivity|]. rewrite IH. reflexivity. Qed.
Lemma combine_seq : forall (l : list V) k e, In e (combine l (seq k (length l))) -> k <= snd e /\ nth_error l (snd e - k) = Some (fst e).
Proof.
  intros l. induction l as [|v l IH]; intros k e I; [contradiction|]. cbn in I. destruct I as [<-|I].
  - cbn. split; [lia|]. rewrite Nat.sub_diag. reflexivity.
  - destruct (IH (Datatypes.S k) e I) as [A B]. split; [lia|]. replace (snd e - k) with (Datatypes.S (snd e - Datatypes.S k)) by lia. exact B.
Qed.
Lemma combine_snd : forall (l : list V) k, map snd (combine l (seq k (length l))) = seq k (length l).
Proof. intros l. induction l as [|v l IH]; intro k; [reflexivity|]. cbn. rewrite IH. reflexivity. Qed.
Lemma sort_fold : forall es acc, Forall entry es -> Forall entry acc -> NoDup (map snd es ++ map snd acc) -> StronglySorted before acc ->
  let l := fold_left (fun acc e => insert_pos S V O (fst e) (snd e) acc) es acc in
  StronglySorted before l /\ NoDup (map snd l) /\ (forall e, In e l <-> In e es \/ In e acc) /\ length l = length es + length acc.
Proof.
  intros es. induction es as [|[v n] es IH]; intros acc He Ha Hn Hs; cbn [fold_left fst snd].
  - split; [exact Hs|]. split; [exact Hn|]. split; [intro e; split; [auto|intros [[]|H]; exact H]|reflexivity].
  - inversion He as [|? ? Hv He']; subst. cbn in Hn. inversion Hn as [|? ? N1 N2]; subst.
    assert (Nn : ~ In n (map snd acc)) by (intro I; apply N1; apply in_or_app; right; exact I).
    assert (Ha' : Forall entry (insert_pos S V O v n acc)).
    { rewrite Forall_forall in *. intros e I. apply insert_pos_in in I. destruct I as [->|I]; [exact Hv|exact (Ha e I)]. }
    assert (Nd : NoDup (map snd es ++ map snd (insert_pos S V O v n acc))).
    { assert (NA : NoDup (map snd acc)) by (clear -N2; induction (map snd es) as [|x l IH]; [exact N2|inversion N2; auto]).
      pose proof (insert_pos_nodup v n acc Nn NA) as NI. clear -N1 N2 NI.
      assert (D : forall x, In x (map snd es) -> ~ In x (map snd (insert_pos S V O v n acc))).
      { intros x I J. apply in_map_iff in J. destruct J as ([u k] & E & J). cbn in E. subst k. apply insert_pos_in in J. destruct J as [E|J].
        - injection E as -> ->. apply N1. apply in_or_app. left. exact I.
        - assert (K : In x (map snd acc)) by (apply in_map_iff; exists (u, x); auto). clear -N2 I K. induction (map snd es) as [|y l IH]; [contradiction|]. cbn in N2. inversion N2 as [|? ? M1 M2]; subst. destruct I as [->|I]; [apply M1, in_or_app; right; exact K|exact (IH M2 I)]. }
      assert (NE : NoDup (map snd es)) by (clear -N2; induction (map snd es) as [|x l IH]; [constructor|]; cbn in N2; inversion N2 as [|? ? M1 M2]; subst; constructor; [intro I; apply M1, in_or_app; left; exact I|exact (IH M2)]).
      clear -D NE NI. induction (map snd es) as [|x l IH]; [exact NI|]. inversion NE as [|? ? M1 M2]; subst. cbn. constructor.
      - intro I. apply in_app_iff in I. destruct I as [I|I]; [exact (M1 I)|exact (D x (or_introl eq_refl) I)].
      - apply IH; [intros y I; apply D; right; exact I|exact M2]. }
    destruct (IH (insert_pos S V O v n acc) He' Ha' Nd (insert_sorted v n acc Hv Ha Nn Hs)) as (A & B & C & D). split; [exact A|]. split; [exact B|]. split.
    + intro e. rewrite C, insert_pos_in. cbn. split; intros H; intuition congruence.
    + rewrite D, insert_pos_length. cbn. lia.
Qed.
Lemma sorted_facts : let l := sort_positions S V O vs in
  StronglySorted before l /\ NoDup (map snd l) /\ (forall e, In e l <-> In e (combine vs (seq 0 (length vs)))) /\ length l = length vs.
Proof.
  cbv zeta. unfold sort_positions.
  destruct (sort_fold (combine vs (seq 0 (length vs))) []) as (A & B & C & D).
  - apply Forall_forall. intros e I. apply combine_seq in I. rewrite Nat.sub_0_r in I. exact (proj2 I).
  - constructor.
  - cbn. rewrite app_nil_r, combine_snd. apply seq_NoDup.
  - constructor.
  - split; [exact A|]. split; [exact B|]. split; [intro e; rewrite C; cbn; tauto|]. rewrite D, combine_length, seq_length. cbn. lia.
Qed.
Lemma sorted_entry : forall e, In e (sort_positions S V O vs) -> entry e.
Proof. intros e I. apply sorted_facts in I. apply combine_seq in I. rewrite Nat.sub_0_r in I. exact (proj2 I). Qed.
Lemma position_spec : forall n l k, In n (map snd l) -> exists j v, position V n l k = k + j /\ nth_error l j = Some (v, n).
Proof.
  intros n l. induction l as [|[v m] l IH]; intros k I; [contradiction|]. cbn. destruct (m =? n) eqn:E.
  - apply Nat.eqb_eq in E. subst. exists 0, v. split; [lia|reflexivity].
  - apply Nat.eqb_neq in E. destruct I as [I|I]; [cbn in I; congruence|]. destruct (IH (Datatypes.S k) I) as (j & w & A & B). exists (Datatypes.S j), w. split; [lia|exact B].
Qed.
Lemma sorted_nth : forall A (R : A -> A -> Prop) l i j a b, StronglySorted R l -> nth_error l i = Some a -> nth_error l j = Some b -> i < j -> R a b.
Proof.
  intros A R l. induction l as [|x l IH]; intros i j a b Hs Hi Hj Hl; [destruct i; discriminate|]. inversion Hs as [|? ? Hs' Hf]; subst. destruct j as [|j]; [lia|]. cbn in Hj. destruct i as [|i].
  - cbn in Hi. injection Hi as ->. rewrite Forall_forall in Hf. apply Hf. exact (nth_error_In _ _ Hj).
  - cbn in Hi. apply (IH i j a b Hs' Hi Hj). lia.
Qed.
(** the position of the version at index [n] *)
Lemma position_in_sorted : forall n v, nth_error vs n = Some v -> exists k, position V n (sort_positions S V O vs) 0 = k /\ nth_error (sort_positions S V O vs) k = Some (v, n).
Proof.
  intros n v H. assert (I : In (v, n) (sort_positions S V O vs)).
  { apply sorted_facts. assert (L : n < length vs) by (apply nth_error_Some; congruence). clear -H L.
    assert (G : forall k (l : list V) n, nth_error l n = Some v -> In (v, k + n) (combine l (seq k (length l)))).
    { intros k l. revert k. induction l as [|x l IH]; intros k m E; [destruct m; discriminate|]. cbn. destruct m as [|m]; cbn in E; [injection E as ->; left; rewrite Nat.add_0_r; reflexivity|]. right. replace (k + Datatypes.S m) with (Datatypes.S k + m) by lia. apply IH. exact E. }
    exact (G 0 vs n H). }
  destruct (position_spec n (sort_positions S V O vs) 0) as (j & w & A & B); [apply in_map_iff; exists (v, n); auto|]. exists j. split; [exact A|].
  assert (W : entry (w, n)) by (apply sorted_entry; exact (nth_error_In _ _ B)). unfold entry in W. cbn in W. rewrite H in W. injection W as ->. exact B.
Qed.
Lemma build_spec : forall l n out, (exists l1, vs = l1 ++ l /\ length l1 = n) -> build_versions S V O l n (sort_positions S V O vs) = Ok out ->
  length out = length l /\ forall j pv, nth_error out j = Some pv -> exists k, nth_error l j = Some (v_version S V pv) /\
    nth_error (sort_positions S V O vs) k = Some (v_version S V pv, n + j) /\ v_deps S V pv = None /\
    window_of S V O (sort_positions S V O vs) k = Ok (v_range S V pv) /\ v_next S V pv = option_map snd (nth_error (sort_positions S V O vs) (Datatypes.S k)).
Proof.
  intros l. induction l as [|v l IH]; intros n out (l1 & E & L) H; cbn [build_versions] in H.
  - injection H as <-. split; [reflexivity|]. intros j pv X. destruct j; discriminate.
  - assert (NV : nth_error vs n = Some v). { rewrite E, nth_error_app2 by lia. rewrite L, Nat.sub_diag. reflexivity. }
    destruct (position_in_sorted n v NV) as (k & EK & NK). rewrite EK in H. destruct (window_of S V O (sort_positions S V O vs) k) as [w|] eqn:EW; [|discriminate]. cbn [bind] in H.
    destruct (build_versions S V O l (Datatypes.S n) (sort_positions S V O vs)) as [rest|] eqn:EB; [|discriminate]. cbn [bind] in H. injection H as <-.
    destruct (IH (Datatypes.S n) rest) as [LR IR]; [exists (l1 ++ [v]); split; [rewrite <- app_assoc; exact E|rewrite app_length; cbn; lia]|exact EB|]. split; [cbn; lia|].
    intros j pv X. destruct j as [|j].
    + cbn in X. injection X as <-. exists k. cbn [v_version v_range v_deps v_next]. rewrite Nat.add_0_r. split; [reflexivity|]. split; [exact NK|]. split; [reflexivity|]. split; [exact EW|reflexivity].
    + cbn in X. destruct (IR j pv X) as (k' & A & B). exists k'. replace (n + Datatypes.S j) with (Datatypes.S n + j) by lia. split; [exact A|exact B].
Qed.

(** what the windows contain *)
Variable K : V -> Prop.
Hypothesis K_listed : forall v, In v vs -> K v.
Hypothesis K_asym : forall v w, K v -> K w -> o_vlt O v w = true -> o_vlt O w v = false.
Hypothesis K_trans : forall u v w, K u -> K v -> K w -> o_vlt O u v = true -> o_vlt O v w = true -> o_vlt O u w = true.
Hypothesis K_everything : forall w, K w -> o_allows O (o_everything O) w = true.
Hypothesis K_window : forall a b s w, (forall v, a = Some v -> In v vs) -> (forall v, b = Some v -> In v vs) -> (a <> None \/ b <> None) ->
  (forall v v', a = Some v -> b = Some v' -> o_vlt O v v' = true) -> K w -> o_window O a b = Ok s ->
  o_allows O s w = match a with Some a => o_vlt O a w | None => true end && match b with Some b => negb (o_vlt O b w) | None => true end.

Notation srt := (sort_positions S V O vs).
Lemma sorted_len : length srt = length vs.
Proof. apply sorted_facts. Qed.
(** membership in the window at position [k] *)
Definition in_window (k : nat) (w : V) : Prop :=
  (forall j e, j < k -> nth_error srt j = Some e -> o_vlt O (fst e) w = true) /\
  (forall e, Datatypes.S k < length vs -> nth_error srt k = Some e -> o_vlt O (fst e) w = false).
Lemma window_spec : forall k s w, k < length vs -> K w -> window_of S V O srt k = Ok s -> (o_allows O s w = true <-> in_window k w).
Proof.
  intros k s w L Kw H. destruct sorted_facts as (SS & ND & IN & LEN). unfold window_of in H. rewrite LEN in H.
  assert (EN : forall j, j < length vs -> exists e, nth_error srt j = Some e).
  { intros j Lj. destruct (nth_error srt j) eqn:E; [eauto|]. apply nth_error_None in E. lia. }
  assert (Ke : forall e, In e srt -> K (fst e)) by (intros e I; apply K_listed, (entry_in e), sorted_entry; exact I).
  assert (Kl : forall j v, option_map fst (nth_error srt j) = Some v -> In v vs).
  { intros j v X. destruct (nth_error srt j) as [e|] eqn:E; [|discriminate]. cbn in X. injection X as <-. apply (entry_in e), sorted_entry. exact (nth_error_In _ _ E). }
  (* the elements before k are all below w as soon as the last of them is *)
  assert (LOW : forall e, 0 < k -> nth_error srt (k - 1) = Some e -> o_vlt O (fst e) w = true -> forall j e', j < k -> nth_error srt j = Some e' -> o_vlt O (fst e') w = true).
  { intros e K0 E B j e' Lj Ej. destruct (Nat.eq_dec j (k - 1)) as [->|NE]; [rewrite E in Ej; injection Ej as <-; exact B|].
    apply (K_trans (fst e') (fst e) w); [exact (Ke _ (nth_error_In _ _ Ej))|exact (Ke _ (nth_error_In _ _ E))|exact Kw| |exact B]. exact (sorted_nth _ _ _ j (k - 1) e' e SS Ej E ltac:(lia)). }
  destruct (length vs =? 1) eqn:E1.
  - apply Nat.eqb_eq in E1. injection H as <-. rewrite (K_everything w Kw). split; [|reflexivity]. intros _. split; [intros j e Lj; lia|intros e L2; lia].
  - apply Nat.eqb_neq in E1. destruct (k =? 0) eqn:E0.
    + apply Nat.eqb_eq in E0. subst k. rewrite (K_window None _ s w ltac:(discriminate) (Kl 0) ltac:(right; destruct (EN 0 L) as (e & ->); discriminate) ltac:(discriminate) Kw H).
      destruct (EN 0 L) as (e & Ee). rewrite Ee. cbn [option_map andb]. unfold in_window. split.
      * intro B. split; [intros j e' Lj; lia|]. intros e' _ Ee'. rewrite Ee in Ee'. injection Ee' as <-. apply negb_true_iff. exact B.
      * intros [_ B]. apply negb_true_iff. apply (B e); [lia|exact Ee].
    + apply Nat.eqb_neq in E0. destruct (EN (k - 1) ltac:(lia)) as (e & Ee). destruct (Datatypes.S k =? length vs) eqn:E2.
      * apply Nat.eqb_eq in E2. rewrite (K_window _ None s w (Kl (k - 1)) ltac:(discriminate) ltac:(left; rewrite Ee; discriminate) ltac:(discriminate) Kw H), Ee. cbn [option_map]. rewrite andb_true_r. unfold in_window. split.
        -- intro B. split; [exact (LOW e ltac:(lia) Ee B)|]. intros e' L2. lia.
        -- intros [B _]. apply (B (k - 1) e); [lia|exact Ee].
      * apply Nat.eqb_neq in E2. destruct (EN k L) as (e' & Ee').
        assert (OO : forall v v', option_map fst (nth_error srt (k - 1)) = Some v -> option_map fst (nth_error srt k) = Some v' -> o_vlt O v v' = true).
        { intros v v' X X'. rewrite Ee in X. rewrite Ee' in X'. cbn in X, X'. injection X as <-. injection X' as <-. exact (sorted_nth _ _ _ (k - 1) k e e' SS Ee Ee' ltac:(lia)). }
        rewrite (K_window _ _ s w (Kl (k - 1)) (Kl k) ltac:(left; rewrite Ee; discriminate) OO Kw H), Ee, Ee'. cbn [option_map]. rewrite andb_true_iff, negb_true_iff. unfold in_window. split.
        -- intros [B C]. split; [exact (LOW e ltac:(lia) Ee B)|]. intros x _ Ex. rewrite Ee' in Ex. injection Ex as <-. exact C.
        -- intros [B C]. split; [apply (B (k - 1) e); [lia|exact Ee]|apply (C e'); [lia|exact Ee']].
Qed.
Lemma in_window_own : forall k v n, nth_error srt k = Some (v, n) -> in_window k v.
Proof.
  intros k v n E. destruct sorted_facts as (SS & _). split.
  - intros j e Lj Ej. exact (sorted_nth _ _ _ j k e (v, n) SS Ej E Lj).
  - intros e _ Ee. rewrite E in Ee. injection Ee as <-. cbn. destruct (o_vlt O v v) eqn:X; [|reflexivity]. assert (Kv : K v) by (apply K_listed, (entry_in (v, n)), sorted_entry; exact (nth_error_In _ _ E)). pose proof (K_asym v v Kv Kv X). congruence.
Qed.
Lemma in_window_unique : forall k k' w, k < length vs -> k' < length vs -> in_window k w -> in_window k' w -> k = k'.
Proof.
  assert (G : forall k k' w, k < k' -> k' < length vs -> in_window k w -> in_window k' w -> False).
  { intros k k' w L L' [_ B] [A _]. destruct (nth_error srt k) as [e|] eqn:E; [|apply nth_error_None in E; rewrite sorted_len in E; lia]. specialize (A k e L E). specialize (B e ltac:(lia) eq_refl). congruence. }
  intros k k' w L L' I I'. destruct (lt_eq_lt_dec k k') as [[X|X]|X]; [exfalso; eauto|exact X|exfalso; eauto].
Qed.
Lemma in_window_exists : forall w, 0 < length vs -> K w -> exists k, k < length vs /\ in_window k w.
Proof.
  intros w L Kw. assert (G : forall n, n < length vs -> (exists k, k < length vs /\ in_window k w) \/ (forall j e, j <= n -> nth_error srt j = Some e -> o_vlt O (fst e) w = true)).
  { induction n as [|n IH]; intro Ln.
    - destruct (nth_error srt 0) as [e|] eqn:E; [|apply nth_error_None in E; rewrite sorted_len in E; lia]. destruct (o_vlt O (fst e) w) eqn:B.
      + right. intros j e' Lj Ej. assert (j = 0) by lia. subst j. rewrite E in Ej. injection Ej as <-. exact B.
      + left. exists 0. split; [exact L|]. split; [intros j e' Lj; lia|]. intros e' _ Ee. rewrite E in Ee. injection Ee as <-. exact B.
    - destruct (IH ltac:(lia)) as [X|X]; [left; exact X|]. destruct (nth_error srt (Datatypes.S n)) as [e|] eqn:E; [|apply nth_error_None in E; rewrite sorted_len in E; lia]. destruct (o_vlt O (fst e) w) eqn:B.
      + right. intros j e' Lj Ej. destruct (Nat.eq_dec j (Datatypes.S n)) as [->|NE]; [rewrite E in Ej; injection Ej as <-; exact B|]. apply (X j e'); [lia|exact Ej].
      + left. exists (Datatypes.S n). split; [exact Ln|]. split; [intros j e' Lj Ej; apply (X j e'); [lia|exact Ej]|]. intros e' _ Ee. rewrite E in Ee. injection Ee as <-. exact B. }
  destruct (G (length vs - 1) ltac:(lia)) as [X|X]; [exact X|]. exists (length vs - 1). split; [lia|]. split; [intros j e Lj Ej; apply (X j e); [lia|exact Ej]|]. intros e L2. lia.
Qed.
(** C16: every version of the class is in exactly one window, a listed version in its own *)
Lemma windows_partition : forall out, build_versions S V O vs 0 srt = Ok out ->
  map (v_version S V) out = vs /\
  (forall j pv, nth_error out j = Some pv -> o_allows O (v_range S V pv) (v_version S V pv) = true) /\
  (forall i j a b w, K w -> nth_error out i = Some a -> nth_error out j = Some b -> o_allows O (v_range S V a) w = true -> o_allows O (v_range S V b) w = true -> i = j) /\
  (forall w, vs <> [] -> K w -> exists j pv, nth_error out j = Some pv /\ o_allows O (v_range S V pv) w = true).
Proof.
  intros out H. destruct (build_spec vs 0 out) as [LO SP]; [exists []; auto|exact H|].
  assert (KL : forall k e, nth_error srt k = Some e -> k < length vs) by (intros k e E; rewrite <- sorted_len; apply nth_error_Some; congruence).
  split; [|split; [|split]].
  - apply list_eq_nth. intro j. rewrite nth_error_map. destruct (nth_error out j) as [pv|] eqn:E; cbn.
    + destruct (SP j pv E) as (k & A & _). symmetry. exact A.
    + symmetry. apply nth_error_None. apply nth_error_None in E. lia.
  - intros j pv E. destruct (SP j pv E) as (k & A & B & _ & W & _). apply (window_spec k _ (v_version S V pv) (KL _ _ B)) in W; [|apply K_listed; exact (nth_error_In _ _ A)]. apply W. exact (in_window_own k _ _ B).
  - intros i j a b w Kw Ei Ej Ai Aj. destruct (SP i a Ei) as (k & _ & B & _ & W & _). destruct (SP j b Ej) as (k' & _ & B' & _ & W' & _).
    apply (window_spec k _ w (KL _ _ B) Kw) in W. apply (window_spec k' _ w (KL _ _ B') Kw) in W'. apply W in Ai. apply W' in Aj. assert (k = k') by (apply (in_window_unique k k' w); eauto). subst k'. rewrite B in B'. injection B' as _ X. lia.
  - intros w NE Kw. destruct (in_window_exists w) as (k & Lk & IW); [destruct vs; [congruence|cbn; lia]|exact Kw|]. destruct (nth_error srt k) as [[v n]|] eqn:E; [|apply nth_error_None in E; rewrite sorted_len in E; lia].
    assert (EN : nth_error vs n = Some v) by (exact (sorted_entry (v, n) (nth_error_In _ _ E))).
    destruct (nth_error out n) as [pv|] eqn:EP; [|apply nth_error_None in EP; assert (n < length vs) by (apply nth_error_Some; congruence); lia].
    exists n, pv. split; [exact EP|]. destruct (SP n pv EP) as (k' & A & B & _ & W & _). assert (k' = k).
    { destruct sorted_facts as (_ & ND & _). rewrite Nat.add_0_l in B. assert (X : nth_error (map snd srt) k' = nth_error (map snd srt) k) by (rewrite !nth_error_map, B, E; reflexivity). apply (proj1 (NoDup_nth_error (map snd srt)) ND); [rewrite map_length; apply nth_error_Some; congruence|exact X]. }
    subst k'. apply (window_spec k _ w Lk Kw) in W. apply W. exact IW.
Qed.
(** the windows can be computed *)
Hypothesis window_total : forall a b, (forall v, a = Some v -> In v vs) -> (forall v, b = Some v -> In v vs) -> (a <> None \/ b <> None) ->
  (forall v v', a = Some v -> b = Some v' -> o_vlt O v v' = true) -> exists s, o_window O a b = Ok s.
Lemma window_of_total : forall k, k < length vs -> exists s, window_of S V O srt k = Ok s.
Proof.
  intros k L. destruct sorted_facts as (SS & ND & IN & LEN). unfold window_of. rewrite LEN.
  assert (EN : forall j, j < length vs -> exists e, nth_error srt j = Some e).
  { intros j Lj. destruct (nth_error srt j) eqn:E; [eauto|]. apply nth_error_None in E. lia. }
  assert (Kl : forall j v, option_map fst (nth_error srt j) = Some v -> In v vs).
  { intros j v X. destruct (nth_error srt j) as [e|] eqn:E; [|discriminate]. cbn in X. injection X as <-. apply (entry_in e), sorted_entry. exact (nth_error_In _ _ E). }
  destruct (length vs =? 1) eqn:E1; [eauto|]. apply Nat.eqb_neq in E1. destruct (EN k L) as (e & Ee). destruct (k =? 0) eqn:E0.
  - apply Nat.eqb_eq in E0. subst k. apply window_total; [discriminate|exact (Kl 0)|right; rewrite Ee; discriminate|discriminate].
  - apply Nat.eqb_neq in E0. destruct (EN (k - 1) ltac:(lia)) as (e' & Ee'). destruct (Datatypes.S k =? length vs).
    + apply window_total; [exact (Kl (k - 1))|discriminate|left; rewrite Ee'; discriminate|discriminate].
    + apply window_total; [exact (Kl (k - 1))|exact (Kl k)|left; rewrite Ee'; discriminate|]. intros v v' X X'. rewrite Ee' in X. rewrite Ee in X'. cbn in X, X'. injection X as <-. injection X' as <-. exact (sorted_nth _ _ _ (k - 1) k e' e SS Ee' Ee ltac:(lia)).
Qed.
Lemma build_total : exists out, build_versions S V O vs 0 srt = Ok out.
Proof.
  assert (G : forall l n l1, vs = l1 ++ l -> length l1 = n -> exists out, build_versions S V O l n srt = Ok out).
  { intros l. induction l as [|v l IH]; intros n l1 E L; [exists []; reflexivity|]. cbn [build_versions].
    assert (NV : nth_error vs n = Some v). { rewrite E, nth_error_app2 by lia. rewrite L, Nat.sub_diag. reflexivity. }
    destruct (position_in_sorted n v NV) as (k & EK & NK). rewrite EK. destruct (window_of_total k) as (w & W); [rewrite <- sorted_len; apply nth_error_Some; congruence|]. rewrite W. cbn [bind].
    destruct (IH (Datatypes.S n) (l1 ++ [v])) as (out & EO); [rewrite <- app_assoc; exact E|rewrite app_length; cbn; lia|]. rewrite EO. cbn [bind]. eauto. }
  exact (G vs 0 [] eq_refl eq_refl).
Qed.
(** the next larger version is another one *)
Lemma next_other : forall out j pv k, build_versions S V O vs 0 srt = Ok out -> nth_error out j = Some pv -> v_next S V pv = Some k -> k <> j /\ k < length out.
Proof.
  intros out j pv k H E N. destruct (build_spec vs 0 out) as [LO SP]; [exists []; auto|exact H|]. destruct (SP j pv E) as (i & _ & B & _ & _ & W). rewrite N in W.
  destruct (nth_error srt (Datatypes.S i)) as [[w m]|] eqn:E2; [|discriminate]. cbn in W. injection W as ->. destruct sorted_facts as (_ & ND & _). split.
  - intro X. subst m. rewrite Nat.add_0_l in B. assert (Y : i = Datatypes.S i); [|lia]. apply (proj1 (NoDup_nth_error (map snd srt)) ND); [rewrite map_length; apply nth_error_Some; congruence|rewrite !nth_error_map, B, E2; reflexivity].
  - rewrite LO. apply nth_error_Some. pose proof (sorted_entry (w, m) (nth_error_In _ _ E2)) as X. unfold entry in X. cbn in X. congruence.
Qed.
End Windows.
