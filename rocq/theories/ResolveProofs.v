(** Facts about the translation between packages and the solver. *)
From Coq Require Import String Ascii List Bool NArith Arith Lia.
From Verif Require Import Base BaseFacts NamesModel VersionModel VersionProofs SpecifierModel MarkerModel DependencyModel PubgrubModel PubgrubLaws ResolveModel.
Import ListNotations.
Open Scope nat_scope.
Open Scope list_scope.
Open Scope bool_scope.

Lemma list_str_eqb : forall a b : list str, list_eqb str_eqb a b = true <-> a = b.
Proof.
  induction a as [|x a IH]; intros [|y b]; cbn; split; intro H; try reflexivity; try discriminate.
  - apply andb_true_iff in H. destruct H as [H1 H2]. apply str_eqb_eq in H1. apply IH in H2. congruence.
  - injection H as -> ->. apply andb_true_iff. split; [apply str_eqb_refl|apply IH; reflexivity].
Qed.
Lemma rpkg_eqb_eq : forall a b, rpkg_eqb a b = true <-> a = b.
Proof.
  intros [n e] [m f]. unfold rpkg_eqb. cbn [g_name g_extras]. rewrite andb_true_iff, str_eqb_eq. destruct e as [e|], f as [f|]; cbn [opt_eqb]; split.
  - intros [-> H]. apply list_str_eqb in H. congruence.
  - intro H. injection H as -> ->. split; [reflexivity|apply list_str_eqb; reflexivity].
  - intros [_ H]. discriminate.
  - discriminate.
  - intros [_ H]. discriminate.
  - discriminate.
  - intros [-> _]. reflexivity.
  - intro H. injection H as ->. auto.
Qed.

(** ** Versions listed once *)
Definition apart (p q : package) : Prop := version_eqb (k_version p) (k_version q) = false.
Definition distinct (l : list package) : Prop := ForallOrdPairs apart l.
Lemma apart_sym : forall p q, apart p q -> apart q p.
Proof. unfold apart. intros p q H. rewrite version_eqb_sym. exact H. Qed.
Lemma set_version_in : forall p l q, In q (set_version p l) -> q = p \/ In q l.
Proof.
  intros p l. induction l as [|x l IH]; intros q H; cbn in H; [destruct H as [<-|[]]; auto|].
  destruct (version_eqb (k_version p) (k_version x)); destruct H as [<-|H]; auto; [right; right; exact H|right; left; reflexivity|].
  destruct (IH q H); [auto|right; right; assumption].
Qed.
Lemma set_version_distinct : forall p l, distinct l -> distinct (set_version p l).
Proof.
  intros p l D. induction D as [|x l F D IH]; cbn; [constructor; [constructor|constructor]|].
  destruct (version_eqb (k_version p) (k_version x)) eqn:E.
  - constructor; [|exact D]. rewrite Forall_forall in *. intros q Hq. specialize (F q Hq). unfold apart in *. destruct (version_eqb (k_version p) (k_version q)) eqn:X; [|reflexivity].
    rewrite <- F. symmetry. apply (version_eqb_trans _ (k_version p)); [rewrite version_eqb_sym; exact E|exact X].
  - constructor; [|exact IH]. rewrite Forall_forall in *. intros q Hq. destruct (set_version_in _ _ _ Hq) as [->|Hq']; [|apply F; exact Hq']. apply apart_sym. exact E.
Qed.
Lemma unique_distinct : forall l, distinct (unique_versions l).
Proof.
  intro l. unfold unique_versions. assert (G : forall l acc, distinct acc -> distinct (fold_left (fun acc p => set_version p acc) l acc)).
  { clear l. intro l. induction l as [|x l IH]; intros acc D; [exact D|]. cbn. apply IH, set_version_distinct, D. }
  apply G. constructor.
Qed.
Lemma distinct_eq : forall l p q, distinct l -> In p l -> In q l -> version_eqb (k_version p) (k_version q) = true -> p = q.
Proof.
  intros l p q D Hp Hq E. destruct (ForallOrdPairs_In D _ _ Hp Hq) as [H|[H|H]]; [exact H| |]; unfold apart in H; [congruence|rewrite version_eqb_sym in H; congruence].
Qed.
Lemma find_version_in : forall v l p, find_version v l = Some p -> In p l /\ version_eqb (k_version p) v = true.
Proof. intros v l p H. apply find_some in H. exact H. Qed.
Lemma find_version_exact : forall l p, distinct l -> In p l -> find_version (k_version p) l = Some p.
Proof.
  intros l p D Hp. destruct (find_version (k_version p) l) as [q|] eqn:E.
  - apply find_version_in in E. destruct E as [Hq E]. f_equal. exact (distinct_eq l q p D Hq Hp E).
  - apply (find_none _ _ E) in Hp. rewrite version_eqb_refl in Hp. discriminate.
Qed.
(** every version that is offered is listed, up to equality *)
Lemma set_version_has : forall p l, exists q, In q (set_version p l) /\ version_eqb (k_version p) (k_version q) = true.
Proof.
  intros p l. induction l as [|x l (q & Hq & E)]; cbn; [exists p; split; [left; reflexivity|apply version_eqb_refl]|].
  destruct (version_eqb (k_version p) (k_version x)) eqn:X; [exists p; split; [left; reflexivity|apply version_eqb_refl]|]. exists q. split; [right; exact Hq|exact E].
Qed.
Lemma set_version_keeps : forall p l x, In x l -> exists q, In q (set_version p l) /\ version_eqb (k_version x) (k_version q) = true.
Proof.
  intros p l. induction l as [|y l IH]; intros x Hx; [destruct Hx|]. cbn. destruct (version_eqb (k_version p) (k_version y)) eqn:E.
  - destruct Hx as [<-|Hx]; [exists p; split; [left; reflexivity|rewrite version_eqb_sym; exact E]|exists x; split; [right; exact Hx|apply version_eqb_refl]].
  - destruct Hx as [<-|Hx]; [exists y; split; [left; reflexivity|apply version_eqb_refl]|]. destruct (IH x Hx) as (q & Hq & X). exists q. split; [right; exact Hq|exact X].
Qed.
Lemma unique_has : forall l p, In p l -> exists q, In q (unique_versions l) /\ version_eqb (k_version p) (k_version q) = true.
Proof.
  intro l. unfold unique_versions.
  assert (G : forall l acc p, In p l \/ (exists q, In q acc /\ version_eqb (k_version p) (k_version q) = true) ->
    exists q, In q (fold_left (fun acc p => set_version p acc) l acc) /\ version_eqb (k_version p) (k_version q) = true).
  { clear l. intro l. induction l as [|x l IH]; intros acc p H; [destruct H as [[]|H]; exact H|]. cbn. apply IH. destruct H as [[->|H]|(q & Hq & E)].
    - right. apply set_version_has.
    - left. exact H.
    - right. destruct (set_version_keeps x acc q Hq) as (r & Hr & X). exists r. split; [exact Hr|]. exact (version_eqb_trans _ _ _ E X). }
  intros p Hp. apply G. left. exact Hp.
Qed.
Lemma unique_in : forall l p, In p (unique_versions l) -> In p l.
Proof.
  intro l. unfold unique_versions.
  assert (G : forall l acc p, In p (fold_left (fun acc p => set_version p acc) l acc) -> In p l \/ In p acc).
  { clear l. intro l. induction l as [|x l IH]; intros acc p H; [right; exact H|]. cbn in H. destruct (IH _ _ H) as [X|X]; [left; right; exact X|]. apply set_version_in in X. destruct X as [->|X]; [left; left; reflexivity|right; exact X]. }
  intros p H. destruct (G _ _ _ H) as [X|[]]. exact X.
Qed.

(** ** Opened packages *)
Lemma key_eqb_refl : forall k, key_eqb k k = true.
Proof. intros [n v]. unfold key_eqb. cbn. rewrite str_eqb_refl, version_eqb_refl. reflexivity. Qed.
Lemma key_eqb_sym : forall a b, key_eqb a b = key_eqb b a.
Proof. intros [n v] [m w]. unfold key_eqb. cbn [fst snd]. rewrite (version_eqb_sym v w), (str_eqb_sym n m). reflexivity. Qed.
Lemma key_eqb_trans : forall a b c, key_eqb a b = true -> key_eqb b c = true -> key_eqb a c = true.
Proof.
  intros [n v] [m w] [o u]. unfold key_eqb. cbn [fst snd]. rewrite !andb_true_iff, !str_eqb_eq. intros [-> A] [-> B]. split; [reflexivity|]. exact (version_eqb_trans _ _ _ A B).
Qed.
Lemma opened_get_set : forall k k' p o, opened_get k (opened_set k' p o) = if key_eqb k k' then Some p else opened_get k o.
Proof.
  intros k k' p o. induction o as [|[j q] o IH]; cbn.
  - destruct (key_eqb k k'); reflexivity.
  - destruct (key_eqb k' j) eqn:E; cbn.
    + destruct (key_eqb k j) eqn:X.
      * assert (Y : key_eqb k k' = true) by (apply (key_eqb_trans _ j); [exact X|rewrite key_eqb_sym; exact E]). rewrite Y. reflexivity.
      * destruct (key_eqb k k') eqn:Y; [|reflexivity]. rewrite (key_eqb_trans _ _ _ Y E) in X. discriminate.
    + rewrite IH. destruct (key_eqb k j) eqn:X; [|reflexivity]. destruct (key_eqb k k') eqn:Y; [|reflexivity].
      rewrite (key_eqb_trans k' k j) in E; [discriminate|rewrite key_eqb_sym; exact Y|exact X].
Qed.

(** ** Numbers *)
Lemma decode_code : forall universe g, In g universe -> decode universe (code universe g) = Some g.
Proof.
  intros universe g H. unfold decode, code. rewrite Nat2N.id. induction universe as [|h u IH]; [destruct H|]. cbn. destruct (rpkg_eqb g h) eqn:E.
  - apply rpkg_eqb_eq in E. subst. reflexivity.
  - destruct H as [->|H]; [rewrite (proj2 (rpkg_eqb_eq g g) eq_refl) in E; discriminate|]. cbn. apply IH, H.
Qed.
Lemma decode_in : forall universe n g, decode universe n = Some g -> In g universe.
Proof. intros universe n g H. exact (nth_error_In _ _ H). Qed.
Lemma code_decode : forall universe n g, NoDup universe -> decode universe n = Some g -> n = code universe g.
Proof.
  intros universe n g N H. assert (G := decode_code universe g (decode_in _ _ _ H)). unfold decode in *.
  apply N2Nat.inj. apply (proj1 (NoDup_nth_error universe) N); [apply nth_error_Some; congruence|congruence].
Qed.

Section Resolve.
  Variable as_uri : str -> str.
  Variable env : list (str * str).
  Variable repo_match : dep -> list package.
  Variable overrides : list (str * dep).
  Variable universe : list rpkg.
  Notation listed := (listed repo_match).
  Notation versions_of := (versions_of repo_match).
  Notation get_versions := (get_versions repo_match).
  Notation opened_by := (opened_by repo_match).
  Notation dependencies_of := (dependencies_of as_uri env repo_match overrides).
  Notation solver_problem := (solver_problem as_uri env repo_match overrides universe).

  (** the repository answers with packages of the name that it was asked for *)
  Definition well_named : Prop := forall g p, In g universe -> In p (listed g) -> in_descriptor (lower (k_name p)) = in_descriptor (g_name g).
  (** no package comes up under two spellings of its name *)
  Definition one_spelling : Prop := forall g h, In g universe -> In h universe -> in_descriptor (g_name g) = in_descriptor (g_name h) -> g_name g = g_name h.
  (** all packages that come up are in the list *)
  Definition closed : Prop := forall g v ts t, In g universe -> dependencies_of g v = Some ts -> In t ts -> In (fst t) universe.

  Lemma listed_distinct : forall g, distinct (listed g).
  Proof. intro g. apply unique_distinct. Qed.
  Lemma listed_name : forall g h, g_name g = g_name h -> listed g = listed h.
  Proof. intros g h E. unfold ResolveModel.listed. rewrite E. reflexivity. Qed.
  Lemma fold_open : forall (n : str) l o (k : key), distinct l -> (forall p, In p l -> in_descriptor (lower (k_name p)) = n) ->
    opened_get k (fold_left (fun o p => opened_set (in_descriptor (lower (k_name p)), k_version p) p o) l o) =
    (if str_eqb (fst k) n then match find_version (snd k) l with Some p => Some p | None => opened_get k o end else opened_get k o).
  Proof.
    intros n l. induction l as [|p l IH]; intros o k D N; [cbn; destruct (str_eqb (fst k) n); reflexivity|]. cbn [fold_left]. inversion D as [|? ? F D']. subst.
    rewrite (IH _ k D') by (intros q Hq; apply N; right; exact Hq). rewrite (N p (or_introl eq_refl)). rewrite opened_get_set. unfold find_version. cbn [find]. unfold key_eqb. cbn [fst snd].
    destruct (str_eqb (fst k) n) eqn:E; [|reflexivity]. cbn [andb]. rewrite (version_eqb_sym (k_version p) (snd k)). destruct (version_eqb (snd k) (k_version p)) eqn:X; [|reflexivity].
    destruct (find (fun p0 => version_eqb (k_version p0) (snd k)) l) as [q|] eqn:Q; [|reflexivity]. apply find_some in Q. destruct Q as [Hq Q].
    rewrite Forall_forall in F. specialize (F q Hq). unfold apart in F. rewrite (version_eqb_trans _ (snd k)) in F; [discriminate|rewrite version_eqb_sym; exact X|rewrite version_eqb_sym; exact Q].
  Qed.
  Hypothesis names : well_named.
  Hypothesis spelling : one_spelling.
  Lemma opened_by_get : forall asked g v, In g universe -> (forall h, In h asked -> In h universe) ->
    opened_get (in_descriptor (g_name g), v) (opened_by asked) = if existsb (fun h => str_eqb (g_name h) (g_name g)) asked then find_version v (listed g) else None.
  Proof.
    intros asked g v G. induction asked as [|h asked IH] using rev_ind; intro A; [reflexivity|]. unfold ResolveModel.opened_by. rewrite fold_left_app. cbn [fold_left].
    unfold ResolveModel.get_versions at 1. cbn [snd]. assert (H : In h universe) by (apply A, in_or_app; right; left; reflexivity).
    rewrite (fold_open (in_descriptor (g_name h))); [|apply listed_distinct|intros p Hp; apply names; assumption]. cbn [fst snd].
    fold (opened_by asked). rewrite IH by (intros x Hx; apply A, in_or_app; left; exact Hx). rewrite existsb_app. cbn [existsb]. rewrite orb_false_r.
    destruct (str_eqb (in_descriptor (g_name g)) (in_descriptor (g_name h))) eqn:E.
    - apply str_eqb_eq in E. apply (spelling g h G H) in E. rewrite (listed_name h g) by congruence. rewrite <- E, str_eqb_refl, orb_true_r.
      destruct (find_version v (listed g)); [reflexivity|]. destruct (existsb _ asked); reflexivity.
    - destruct (str_eqb (g_name h) (g_name g)) eqn:X; [|rewrite orb_false_r; reflexivity]. apply str_eqb_eq in X. rewrite X, str_eqb_refl in E. discriminate.
  Qed.
  Lemma opened_find : forall asked g v, In g asked -> (forall h, In h asked -> In h universe) -> opened_get (in_descriptor (g_name g), v) (opened_by asked) = find_version v (listed g).
  Proof.
    intros asked g v G A. rewrite opened_by_get by auto. replace (existsb (fun h => str_eqb (g_name h) (g_name g)) asked) with true; [reflexivity|].
    symmetry. apply existsb_exists. exists g. split; [exact G|apply str_eqb_refl].
  Qed.

  Lemma code_inj : forall g h, In g universe -> In h universe -> code universe g = code universe h -> g = h.
  Proof. intros g h Hg Hh E. apply (decode_code universe) in Hg, Hh. congruence. Qed.
  Lemma versions_listed : forall g v, In v (versions_of g) -> exists p, In p (listed g) /\ k_version p = v /\ find_version v (listed g) = Some p.
  Proof.
    intros g v H. unfold ResolveModel.versions_of in H. apply filter_In in H. destruct H as [H _]. apply in_map_iff in H. destruct H as (p & <- & Hp).
    exists p. split; [exact Hp|]. split; [reflexivity|]. apply find_version_exact; [apply listed_distinct|exact Hp].
  Qed.
  (** ** what a solution says about packages *)
  Hypothesis all_in : closed.
  Hypothesis once : NoDup universe.
  Variable root : rpkg.
  Variable ds : list (pkg * spec).
  Hypothesis root_in : In root universe.
  Hypothesis solution : is_solution real_ops solver_problem (code universe root) ds.
  (** [g] is decided to be [p] *)
  Definition chosen (g : rpkg) (p : package) : Prop := In g universe /\ In p (listed g) /\ In (code universe g, Match (k_version p) true) ds.
  Lemma nodup_snd : forall n c c', In (n, c) ds -> In (n, c') ds -> c = c'.
  Proof.
    destruct solution as [N _]. revert N. clear. induction ds as [|[m x] l IH]; intros N n c c' H H'; [destruct H|]. inversion N as [|? ? A B]. subst.
    destruct H as [H|H], H' as [H'|H']; try (injection H as -> ->); try (injection H' as -> ->); try congruence.
    - exfalso. apply A. apply in_map_iff. exists (n, c'). auto.
    - exfalso. apply A. apply in_map_iff. exists (n, c). auto.
    - exact (IH B n c c' H H').
  Qed.
  Lemma chosen_once : forall g p q, chosen g p -> chosen g q -> p = q.
  Proof.
    intros g p q (A & B & C) (_ & B' & C'). assert (E := nodup_snd _ _ _ C C'). injection E as E. apply (distinct_eq (listed g)); [apply listed_distinct|exact B|exact B'|]. rewrite E. apply version_eqb_refl.
  Qed.
  Lemma decided : forall n c, In (n, c) ds -> exists g p, chosen g p /\ n = code universe g /\ c = Match (k_version p) true /\ decode universe n = Some g.
  Proof.
    intros n c H. destruct solution as (_ & _ & S). destruct (S n c H) as (v & ts & -> & [V|V] & D & _); [|discriminate]. cbn [p_versions ResolveModel.solver_problem] in V. destruct (decode universe n) as [g|] eqn:E; [|destruct V].
    destruct (versions_listed g v V) as (p & Hp & <- & F). assert (G := decode_in universe n g E).
    assert (X := code_decode universe n g once E). exists g, p. split; [|split; [exact X|split; [reflexivity|reflexivity]]]. split; [exact G|]. split; [exact Hp|]. rewrite <- X. exact H.
  Qed.
  Lemma chosen_needs : forall g p, chosen g p -> exists ts, terms_of as_uri env overrides g (k_version p) p = Some ts /\
    forall t, In t ts -> exists q, chosen (fst t) q /\ allows (snd t) (k_version q) = true.
  Proof.
    intros g p (G & P & H). destruct solution as (_ & _ & S). destruct (S _ _ H) as (v & ts & E & _ & D & X). cbn in E. injection E as <-. cbn [p_deps ResolveModel.solver_problem] in D.
    rewrite (decode_code universe g G) in D. unfold ResolveModel.dependencies_of in D. rewrite (find_version_exact (listed g) p (listed_distinct g) P) in D.
    destruct (terms_of as_uri env overrides g (k_version p) p) as [us|] eqn:U; [|discriminate]. cbn in D. injection D as <-. exists us. split; [reflexivity|].
    intros t T. destruct (X (PubgrubModel.T (code universe (fst t)) (snd t))) as (w & W & A); [apply in_map_iff; exists t; auto|]. cbn [t_pkg t_con] in *.
    destruct (decided _ _ W) as (g' & q & C & E & E' & _). cbn in E'. injection E' as ->. exists q. split; [|exact A].
    replace (fst t) with g'; [exact C|]. symmetry. apply code_inj; [| |exact E].
    - apply (all_in g (k_version p) us t G); [|exact T]. unfold ResolveModel.dependencies_of. rewrite (find_version_exact (listed g) p (listed_distinct g) P). exact U.
    - apply C.
  Qed.
  Lemma chosen_root : exists p, chosen root p.
  Proof.
    destruct solution as (_ & (v & H) & _). cbn in H. destruct (decided _ _ H) as (g & p & C & E & _ & _). exists p. replace root with g; [exact C|]. symmetry. apply code_inj; [exact root_in|apply C|exact E].
  Qed.
  Lemma decoded_in : forall h, In h (decoded universe ds) -> In h universe.
  Proof.
    intros h H. unfold decoded in H. apply in_flat_map in H. destruct H as ([n c] & _ & H). cbn in H. destruct (decode universe n) as [g|] eqn:E; [|destruct H]. destruct H as [<-|[]]. exact (decode_in _ _ _ E).
  Qed.
  Lemma collect_ok : forall o l, (forall e, In e l -> In e ds) -> (forall g p, chosen g p -> opened_get (in_descriptor (g_name g), k_version p) o = Some p) ->
    exists r, collect universe o l = Ok r /\ forall p, In p r <-> exists g, chosen g p /\ has_extras g = false /\ In (code universe g, Match (k_version p) true) l.
  Proof.
    intros o l. induction l as [|[n c] l IH]; intros Sub Op.
    - exists []. split; [reflexivity|]. intro p. split; [intros []|intros (g & _ & _ & [])].
    - destruct IH as (r & C & R); [intros e He; apply Sub; right; exact He|exact Op|].
      destruct (decided n c (Sub _ (or_introl eq_refl))) as (g & p & Ch & En & -> & D). cbn [collect]. rewrite D. destruct (has_extras g) eqn:X.
      + exists r. split; [exact C|]. intro q. rewrite R. split.
        * intros (h & A & B & I). exists h. split; [exact A|]. split; [exact B|right; exact I].
        * intros (h & A & B & [I|I]); [|exists h; auto]. injection I as I1 I2. exfalso. rewrite I1 in En. apply code_inj in En; [|apply A|apply Ch]. subst h. congruence.
      + rewrite (Op g p Ch). rewrite C. cbn. exists (p :: r). split; [reflexivity|]. intro q. cbn [In]. rewrite R. split.
        * intros [<-|(h & A & B & I)]; [exists g; split; [exact Ch|]; split; [exact X|left; rewrite En; reflexivity]|exists h; auto].
        * intros (h & A & B & [I|I]); [|right; exists h; auto]. left. injection I as I1 I2. rewrite I1 in En. apply code_inj in En; [|apply A|apply Ch]. subst h.
          apply (chosen_once g); assumption.
  Qed.
  (** what is returned *)
  Lemma collect_solution : forall asked, (forall h, In h asked -> In h universe) -> (forall h, In h (decoded universe ds) -> In h asked) ->
    exists r, collect universe (opened_by asked) ds = Ok r /\ forall p, In p r <-> exists g, chosen g p /\ has_extras g = false.
  Proof.
    intros asked A B. destruct (collect_ok (opened_by asked) ds) as (r & C & R); [auto| |].
    - intros g p (G & P & H). rewrite opened_find; [apply find_version_exact; [apply listed_distinct|exact P]| |exact A]. apply B. unfold decoded. apply in_flat_map. exists (code universe g, Match (k_version p) true). split; [exact H|]. cbn [fst]. rewrite (decode_code universe g G). left. reflexivity.
    - exists r. split; [exact C|]. intro p. rewrite R. split; [intros (g & X & Y & _); eauto|intros (g & X & Y); exists g; split; [exact X|]; split; [exact Y|apply X]].
  Qed.
End Resolve.
