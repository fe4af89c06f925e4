(** Lemmas about indexes. *)
From Coq Require Import String Ascii List Bool NArith Arith Lia Permutation.
From Verif Require Import UrlModel HttpProofs Base BaseFacts NamesModel VersionModel VersionSpec VersionParse VersionProofs VersionProps SpecifierModel SpecParse CollectionModel CollectionProofs ConfigModel ConfigProofs ConfigProps UrlModel IndexModel.
Import ListNotations.
Open Scope string_scope.
Open Scope nat_scope.
Open Scope list_scope.
Open Scope bool_scope.

(** ** Sorting *)
(** versions as an index has them: no urls, no local labels *)
Definition orderly (v : version) : Prop := match v with VUrl _ _ _ => False | VNamed _ => True | VStd s => local_label s = None end.
Lemma orderly_not_url : forall v, orderly v -> not_url v.
Proof. intros [u p s|n|s] H; [destruct H|exact I|exact I]. Qed.
Lemma orderly_comparable : forall a b, orderly a -> orderly b -> exactly_one_order a b.
Proof.
  intros a b A B. apply C01_trichotomy_partial. destruct a as [u p s|n|a], b as [u' p' s'|n'|b]; try exact I; cbn in A, B; try contradiction.
  assert (E : segs a = segs b) by (unfold segs, local_segments; rewrite A, B; reflexivity). split.
  - intro C. destruct (clash_incomparable _ _ C) as (_ & _ & X). apply X. rewrite E. reflexivity.
  - intros [[X Y]|[X Y]]; congruence.
Qed.
Lemma negative_trans : forall a b c, orderly a -> orderly b -> orderly c -> version_ltb a b = false -> version_ltb b c = false -> version_ltb a c = false.
Proof.
  intros a b c A B C H1 H2. destruct (version_ltb a c) eqn:E; [exfalso|reflexivity]. destruct (orderly_comparable a b A B) as [(X & _)|[(_ & X & _)|(_ & _ & X)]]; [congruence| |].
  - destruct (C02_congruence_partial a b c (orderly_not_url a A) X) as [Y _]. congruence.
  - rewrite (C01_transitive b a c X E) in H2. discriminate.
Qed.
Section Sort.
  Context {A : Type} (version_of : A -> version).
  Notation insert := (insert_desc version_of).
  Definition not_before (x y : A) : Prop := version_ltb (version_of x) (version_of y) = false.
  Lemma insert_perm : forall x l, Permutation (insert x l) (x :: l).
  Proof. intros x l. induction l as [|y l IH]; [reflexivity|]. cbn. destruct (version_ltb _ _); [reflexivity|]. rewrite IH. apply perm_swap. Qed.
  Lemma sort_acc : forall l acc, Permutation (fold_left (fun acc x => insert x acc) l acc) (acc ++ l).
  Proof.
    induction l as [|x l IH]; intro acc; [rewrite app_nil_r; reflexivity|]. cbn [fold_left]. rewrite IH, insert_perm. cbn. apply Permutation_middle.
  Qed.
  Lemma sort_perm : forall l, Permutation (sorted_by_version version_of l) l.
  Proof. intro l. exact (sort_acc l []). Qed.
  Lemma insert_sorted : forall x l, orderly (version_of x) -> Forall (fun y => orderly (version_of y)) l -> ForallOrdPairs not_before l -> ForallOrdPairs not_before (insert x l).
  Proof.
    intros x l Ox Ol S. induction S as [|y l Y S IH]; cbn; [constructor; constructor|]. inversion Ol as [|? ? Oy Or]; subst. destruct (version_ltb (version_of y) (version_of x)) eqn:E.
    - assert (X : version_ltb (version_of x) (version_of y) = false). { destruct (version_ltb (version_of x) (version_of y)) eqn:F; [|reflexivity]. pose proof (C01_transitive _ _ _ E F) as G. rewrite C01_irreflexive in G. discriminate. }
      constructor; [|constructor; assumption]. constructor; [exact X|]. rewrite Forall_forall in *. intros z Z. exact (negative_trans _ _ _ Ox Oy (Or z Z) X (Y z Z)).
    - constructor; [|apply IH, Or]. rewrite Forall_forall in *. intros z Z. apply (Permutation_in _ (insert_perm x l)) in Z. destruct Z as [<-|Z]; [exact E|exact (Y z Z)].
  Qed.
  Lemma sort_sorted : forall l, Forall (fun y => orderly (version_of y)) l -> ForallOrdPairs not_before (sorted_by_version version_of l).
  Proof.
    intros l H. unfold sorted_by_version. assert (G : forall l acc, Forall (fun y => orderly (version_of y)) l -> Forall (fun y => orderly (version_of y)) acc -> ForallOrdPairs not_before acc ->
      ForallOrdPairs not_before (fold_left (fun acc x => insert x acc) l acc)).
    { clear. induction l as [|x l IH]; intros acc L Ac S; [exact S|]. inversion L; subst. cbn. apply IH; [assumption| |apply insert_sorted; assumption].
      eapply Permutation_Forall; [apply Permutation_sym, insert_perm|]. constructor; assumption. }
    apply G; [exact H|constructor|constructor].
  Qed.
End Sort.

(** ** PyPI *)
(** the files that can be installed: not yanked, a source distribution or a wheel, with a name *)
Definition usable (f : file) : bool :=
  negb (f_yanked f) && match f_type f with Some t => str_eqb t "sdist" || str_eqb t "bdist_wheel" | None => false end
  && match f_filename f with Some (_ :: _) => true | _ => false end.
Definition readable_python (as_uri : str -> str) (f : file) : Prop := forall t, f_python f = Some t -> t <> [] -> exists s, parse_specifier as_uri t = Ok s.
Lemma artifacts_usable : forall as_uri l r, relevant_artifacts as_uri l = Ok r -> map a_info r = filter usable l.
Proof.
  intros as_uri l. induction l as [|f l IH]; intros r H; cbn [relevant_artifacts] in H; [injection H as <-; reflexivity|]. cbn [filter]. unfold usable at 1. unfold relevant in H. destruct (_ && _) eqn:R in H; rewrite R; cbn [andb].
  - unfold create_artifact in H. destruct (f_filename f) as [[|c n]|] eqn:N; cbn [nonempty] in H; cbn [bind] in H.
    + destruct (relevant_artifacts as_uri l) as [x|]; [|discriminate]. injection H as <-. exact (IH x eq_refl).
    + destruct (nonempty (f_python f)) as [t|].
      * destruct (parse_specifier as_uri t) as [s|]; [|discriminate]. cbn [bind] in H. destruct (relevant_artifacts as_uri l) as [x|]; [|discriminate]. injection H as <-. cbn [map a_info]. f_equal. exact (IH x eq_refl).
      * cbn [bind] in H. destruct (relevant_artifacts as_uri l) as [x|]; [|discriminate]. injection H as <-. cbn [map a_info]. f_equal. exact (IH x eq_refl).
    + destruct (relevant_artifacts as_uri l) as [x|]; [|discriminate]. injection H as <-. exact (IH x eq_refl).
  - exact (IH r H).
Qed.
Lemma artifacts_names : forall as_uri l r a, relevant_artifacts as_uri l = Ok r -> In a r -> f_filename (a_info a) = Some (a_name a).
Proof.
  intros as_uri l. induction l as [|f l IH]; intros r a H I; cbn [relevant_artifacts] in H; [injection H as <-; destruct I|]. destruct (relevant f); [|exact (IH r a H I)].
  destruct (create_artifact as_uri f) as [x|] eqn:C; [|discriminate]. cbn [bind] in H. destruct (relevant_artifacts as_uri l) as [y|]; [|discriminate]. injection H as <-. destruct x as [x|]; [|exact (IH y a eq_refl I)].
  destruct I as [<-|I]; [|exact (IH y a eq_refl I)]. unfold create_artifact in C. destruct (f_filename f) as [[|c n]|] eqn:N; cbn in C; try discriminate. destruct (nonempty (f_python f)) as [t|].
  - destruct (parse_specifier as_uri t) as [s|]; [|discriminate]. injection C as <-. exact N.
  - injection C as <-. exact N.
Qed.
Lemma artifacts_ok_iff : forall as_uri l, (exists r, relevant_artifacts as_uri l = Ok r) <-> forall f, In f l -> usable f = true -> readable_python as_uri f.
Proof.
  intros as_uri l. induction l as [|f l IH]; cbn [relevant_artifacts].
  - split; [intros _ f []|intros _; eexists; reflexivity].
  - assert (U : usable f = relevant f && match nonempty (f_filename f) with Some _ => true | None => false end) by (unfold usable, relevant; destruct (f_filename f) as [[|c n]|]; reflexivity).
    destruct (relevant f) eqn:R; cbn [andb] in U.
    + unfold create_artifact. destruct (nonempty (f_filename f)) as [n|].
      * split.
        -- intros (r & H) g [<-|G] V.
           ++ intros t Ht Nt. rewrite Ht in H. destruct t as [|c t]; [congruence|]. cbn [nonempty] in H. destruct (parse_specifier as_uri (c :: t)) as [s|]; [exists s; reflexivity|discriminate].
           ++ apply (proj1 IH); [|exact G|exact V]. destruct (relevant_artifacts as_uri l) as [x|]; [exists x; reflexivity|]. destruct (nonempty (f_python f)) as [t|]; [destruct (parse_specifier as_uri t)|]; cbn in H; discriminate.
        -- intro H. destruct (proj2 IH) as (x & ->); [intros g G; apply H; right; exact G|]. assert (P := H f (or_introl eq_refl) U). unfold readable_python in P. destruct (f_python f) as [[|c t]|]; cbn [nonempty]; [eexists; reflexivity| |eexists; reflexivity].
           destruct (P (c :: t) eq_refl ltac:(discriminate)) as (s & ->). eexists. reflexivity.
      * cbn [bind]. split.
        -- intros (r & H) g [<-|G] V; [congruence|]. apply (proj1 IH); [|exact G|exact V]. destruct (relevant_artifacts as_uri l) as [x|]; [exists x; reflexivity|discriminate].
        -- intro H. destruct (proj2 IH) as (x & ->); [intros g G; apply H; right; exact G|]. eexists. reflexivity.
    + rewrite IH. split; [intros H g [<-|G] V; [congruence|exact (H g G V)]|intros H g G; apply H; right; exact G].
Qed.
(** what an index offers for a specifier, in its order *)
Definition offered (s : spec) (releases : list (str * list file)) : list (version * list file) :=
  flat_map (fun e => match parse_version (fst e), filter usable (snd e) with
                     | Ok v, f :: l => if allows s v then [(v, f :: l)] else []
                     | _, _ => []
                     end) releases.
Lemma packages_offered : forall as_uri s releases info l info', pypi_packages as_uri s releases info = Ok (l, info') -> map (fun p => (p_version p, map a_info (p_artifacts p))) l = offered s releases.
Proof.
  intros as_uri s releases. induction releases as [|[text files] r IH]; intros info l info' H; cbn [pypi_packages] in H; [injection H as <- <-; reflexivity|].
  destruct (relevant_artifacts as_uri files) as [arts|] eqn:E; [|discriminate]. cbn [bind] in H. apply artifacts_usable in E. unfold offered. cbn [flat_map fst snd]. fold (offered s r). rewrite <- E. destruct arts as [|a arts].
  - cbn [map]. destruct (parse_version text); exact (IH _ _ _ H).
  - destruct (parse_version text) as [v|] eqn:V; [|discriminate]. cbn [bind] in H. cbn [map]. destruct (allows s v); [|exact (IH _ _ _ H)].
    destruct (parse_fields (metadata_schema as_uri) info) as [m|]; [|discriminate]. cbn [bind] in H. destruct (pypi_packages as_uri s r (snd m)) as [[x i]|] eqn:P; [|discriminate]. injection H as <- <-. cbn [fst map app p_version p_artifacts]. f_equal. exact (IH _ _ _ P).
Qed.
(** the metadata of a package of which nothing was read *)
Definition no_metadata (as_uri : str -> str) : list (str * slot val) :=
  map (fun s => (f_name s, if f_leftover s then Rest else Value (f_default s))) (metadata_schema as_uri).
Definition spent (as_uri : str -> str) (info : table) : Prop := forall s, In s (metadata_schema as_uri) -> f_leftover s = false -> get info (split_on "." (key_of s)) = None.
Lemma metadata_spent : forall as_uri info m, parse_fields (metadata_schema as_uri) info = Ok m -> spent as_uri (snd m).
Proof. intros as_uri info [o c] H s I L. exact (C111_consumed _ _ _ _ _ _ H I L). Qed.
Lemma spent_ok : forall as_uri info, spent as_uri info -> exists c, parse_fields (metadata_schema as_uri) info = Ok (no_metadata as_uri, c).
Proof.
  intros as_uri info S.
  assert (P : forall schema c, (forall s, In s schema -> f_leftover s = false -> ~ In "."%char (key_of s) /\ f_required s = false /\ get c (split_on "." (key_of s)) = None) ->
    exists c', parse_fields schema c = Ok (map (fun s : field val => (f_name s, if f_leftover s then Rest else Value (f_default s))) schema, c')).
  { induction schema as [|s r IH]; intros c H; cbn [parse_fields map]; [eexists; reflexivity|]. destruct (f_leftover s) eqn:L.
    - destruct (IH c) as (c' & ->); [intros x X; apply H; right; exact X|]. cbn. eexists. reflexivity.
    - destruct (H s (or_introl eq_refl) L) as (D & R & G). rewrite pop_simple by exact D. cbn [bind fst snd].
      assert (N : dict_get_or_none (key_of s) c = VNull). { unfold dict_get_or_none. rewrite <- key_parts_eq, (key_parts_simple _ D) in G. cbn in G. rewrite G. reflexivity. }
      rewrite N. cbn [parse_value]. rewrite R. cbn [bind]. destruct (IH (dict_without (key_of s) c)) as (c' & ->).
      + intros x X Lx. destruct (H x (or_intror X) Lx) as (Dx & Rx & Gx). split; [exact Dx|]. split; [exact Rx|]. apply (proj1 (pop_only_removes c (key_of s) _ (dict_without (key_of s) c) _ (pop_simple _ _ D) (split_nonempty _ _))). exact Gx.
      + cbn. eexists. reflexivity. }
  apply P. intros s I L. split; [|split; [|apply S; assumption]]; cbn [metadata_schema In] in I; repeat (destruct I as [<-|I]); try contradiction; try reflexivity; cbn; intuition discriminate.
Qed.
Lemma packages_spent : forall as_uri s releases info l info', spent as_uri info -> pypi_packages as_uri s releases info = Ok (l, info') -> Forall (fun p => p_meta p = no_metadata as_uri) l.
Proof.
  intros as_uri s releases. induction releases as [|[text files] r IH]; intros info l info' S H; cbn [pypi_packages] in H; [injection H as <- <-; constructor|].
  destruct (relevant_artifacts as_uri files) as [[|a arts]|]; [exact (IH _ _ _ S H)| |discriminate]. cbn [bind] in H. destruct (parse_version text) as [v|]; [|discriminate]. cbn [bind] in H. destruct (allows s v); [|exact (IH _ _ _ S H)].
  destruct (spent_ok as_uri info S) as (c & E). rewrite E in H. cbn [bind snd fst] in H. destruct (pypi_packages as_uri s r c) as [[x i]|] eqn:P; [|discriminate]. injection H as <- <-. constructor; [reflexivity|].
  apply (IH c x i); [|exact P]. exact (metadata_spent as_uri info (_, c) E).
Qed.
Lemma packages_first : forall as_uri s releases info l info', pypi_packages as_uri s releases info = Ok (l, info') -> Forall (fun p => p_meta p = no_metadata as_uri) (tl l).
Proof.
  intros as_uri s releases. induction releases as [|[text files] r IH]; intros info l info' H; cbn [pypi_packages] in H; [injection H as <- <-; constructor|].
  destruct (relevant_artifacts as_uri files) as [[|a arts]|]; [exact (IH _ _ _ H)| |discriminate]. cbn [bind] in H. destruct (parse_version text) as [v|]; [|discriminate]. cbn [bind] in H. destruct (allows s v); [|exact (IH _ _ _ H)].
  destruct (parse_fields (metadata_schema as_uri) info) as [m|] eqn:M; [|discriminate]. cbn [bind] in H. destruct (pypi_packages as_uri s r (snd m)) as [[x i]|] eqn:P; [|discriminate]. injection H as <- <-. cbn [fst tl].
  exact (packages_spent as_uri s r (snd m) x i (metadata_spent _ _ _ M) P).
Qed.
Lemma packages_ok_iff : forall as_uri s releases info, (exists x, pypi_packages as_uri s releases info = Ok x) <->
  (forall text files f, In (text, files) releases -> In f files -> usable f = true -> readable_python as_uri f) /\
  (offered s releases <> [] -> exists m, parse_fields (metadata_schema as_uri) info = Ok m).
Proof.
  intros as_uri s releases. induction releases as [|[text files] r IH]; intro info; cbn [pypi_packages].
  - split; [|intros _; eexists; reflexivity]. intros _. split; [intros ? ? ? []|intro X; exfalso; apply X; reflexivity].
  - assert (A := artifacts_ok_iff as_uri files). unfold offered. cbn [flat_map fst snd]. fold (offered s r). destruct (relevant_artifacts as_uri files) as [arts|] eqn:E.
    + assert (F : forall f, In f files -> usable f = true -> readable_python as_uri f) by (apply A; eexists; reflexivity). apply artifacts_usable in E. rewrite <- E. cbn [bind].
      assert (Q : (forall t l f, In (t, l) ((text, files) :: r) -> In f l -> usable f = true -> readable_python as_uri f) <-> (forall t l f, In (t, l) r -> In f l -> usable f = true -> readable_python as_uri f)).
      { split; [intros H t l f I; exact (H t l f (or_intror I))|]. intros H t l f [I|I]; [injection I as <- <-; apply F|exact (H t l f I)]. }
      destruct (C05_total text) as (v & V). rewrite V. destruct arts as [|a arts]; cbn [map]; [rewrite (IH info), Q; reflexivity|]. cbn [bind]. destruct (allows s v); [|rewrite (IH info), Q; reflexivity].
      rewrite Q. split.
      * intros (x & H). destruct (parse_fields (metadata_schema as_uri) info) as [m|] eqn:M; [|discriminate]. split; [|intros _; eexists; reflexivity]. cbn [bind] in H. destruct (pypi_packages as_uri s r (snd m)) as [y|] eqn:P; [|discriminate]. apply (proj1 (IH (snd m))). eexists. exact P.
      * intros [H M]. destruct M as (m & M); [discriminate|]. rewrite M. cbn [bind]. destruct (proj2 (IH (snd m))) as (y & ->); [|eexists; reflexivity]. split; [exact H|]. intros _. destruct (spent_ok as_uri (snd m) (metadata_spent _ _ _ M)) as (c & ->). eexists. reflexivity.
    + split; [intros (x & H); discriminate|]. intros [H _]. exfalso. destruct (proj2 A) as (x & X); [|discriminate]. intros f I. exact (H text files f (or_introl eq_refl) I).
Qed.

(** ** Verified downloads *)
(** the hashes that are remembered are hashes of the data *)
Definition sound (digest : str -> option (str -> str)) (c : cache) : Prop :=
  forall url r, dict_get url c = Some r -> forall fn x, dict_get fn (r_hashes r) = Some x -> exists h, digest fn = Some h /\ h (r_data r) = x.
Definition sound_resource (digest : str -> option (str -> str)) (r : resource) : Prop := forall fn x, dict_get fn (r_hashes r) = Some x -> exists h, digest fn = Some h /\ h (r_data r) = x.
Section Downloads.
  Variable digest : str -> option (str -> str).
  Lemma nonempty_some : forall o x, nonempty o = Some x -> o = Some x.
  Proof. intros [y|] x H; [|discriminate]. destruct y as [|a y]; [discriminate|exact H]. Qed.
  Lemma hash_valid : forall fn hex r b r', sound_resource digest r -> is_hash_valid digest fn hex r = (b, r') ->
    sound_resource digest r' /\ r_data r' = r_data r /\ (b = Ok true -> exists h, digest fn = Some h /\ h (r_data r) = hex).
  Proof.
    intros fn hex r b r' S H. unfold is_hash_valid in H. destruct (nonempty (dict_get fn (r_hashes r))) as [h|] eqn:E.
    - injection H as <- <-. split; [exact S|]. split; [reflexivity|]. intro B. injection B as B. apply str_eqb_eq in B. subst hex. apply S, nonempty_some, E.
    - destruct (digest fn) as [f|] eqn:D; [|injection H as <- <-; split; [exact S|split; [reflexivity|discriminate]]]. injection H as <- <-. split; [|split; [reflexivity|]].
      + intros fn2 x G. cbn [r_hashes r_data] in *. destruct (str_eqb fn2 fn) eqn:Q.
        * apply str_eqb_eq in Q. subst fn2. rewrite dict_get_set_same in G. injection G as <-. eauto.
        * rewrite dict_get_set_other in G by (intro X; subst fn2; rewrite str_eqb_refl in Q; discriminate). exact (S fn2 x G).
      + intro B. injection B as B. apply str_eqb_eq in B. exists f. auto.
  Qed.
  Lemma set_sound : forall c url r, sound digest c -> sound_resource digest r -> sound digest (dict_set url r c).
  Proof.
    intros c url r S R url2 r2 G. destruct (str_eqb url2 url) eqn:Q.
    - apply str_eqb_eq in Q. subst url2. rewrite dict_get_set_same in G. injection G as <-. exact R.
    - rewrite dict_get_set_other in G by (intro X; subst url2; rewrite str_eqb_refl in Q; discriminate). exact (S url2 r2 G).
  Qed.
  (** what was in the cache stays there *)
  Definition keeps (c c' : cache) : Prop := forall url r, dict_get url c = Some r -> exists r', dict_get url c' = Some r' /\ r_data r' = r_data r.
  Lemma keeps_refl : forall c, keeps c c.
  Proof. intros c url r H. eauto. Qed.
  Lemma keeps_trans : forall a b c, keeps a b -> keeps b c -> keeps a c.
  Proof. intros a b c H K url r G. destruct (H url r G) as (r1 & G1 & E1). destruct (K url r1 G1) as (r2 & G2 & E2). exists r2. split; [exact G2|congruence]. Qed.
  Lemma keeps_set : forall c url r, (forall r0, dict_get url c = Some r0 -> r_data r = r_data r0) -> keeps c (dict_set url r c).
  Proof.
    intros c url r H url2 r2 G. destruct (str_eqb url2 url) eqn:Q.
    - apply str_eqb_eq in Q. subst url2. exists r. split; [apply dict_get_set_same|apply H, G].
    - exists r2. split; [|reflexivity]. rewrite dict_get_set_other; [exact G|]. intro X. subst url2. rewrite str_eqb_refl in Q. discriminate.
  Qed.
  Lemma fetch_spec : forall c url served x c', sound digest c -> fetch c url served = (x, c') -> sound digest c' /\ keeps c c' /\ (forall r, x = Ok r -> dict_get url c' = Some r).
  Proof.
    intros c url served x c' S H. unfold fetch in H. destruct (dict_get url c) as [r|] eqn:E.
    - injection H as <- <-. split; [exact S|]. split; [apply keeps_refl|]. intros r0 X. injection X as <-. exact E.
    - destruct served as [data|]; injection H as <- <-.
      + split; [apply set_sound; [exact S|intros fn h G; discriminate]|]. split; [apply keeps_set; intros r0 X; congruence|]. intros r X. injection X as <-. apply dict_get_set_same.
      + split; [exact S|]. split; [apply keeps_refl|discriminate].
  Qed.
  Lemma check_data : forall c url fn hex r data c', check digest c url fn hex r = (Ok data, c') -> data = r_data r.
  Proof.
    intros c url fn hex r data c' H. unfold check in H. destruct (is_hash_valid digest fn hex r) as [[[]|] r'] eqn:E; try discriminate. injection H as <- _.
    unfold is_hash_valid in E. destruct (nonempty (dict_get fn (r_hashes r))); [injection E as _ <-; reflexivity|]. destruct (digest fn); [injection E as _ <-; reflexivity|discriminate].
  Qed.
  Lemma check_spec : forall c url fn hex r x c', sound digest c -> dict_get url c = Some r -> check digest c url fn hex r = (x, c') ->
    sound digest c' /\ keeps c c' /\ (forall data, x = Ok data -> exists h, digest fn = Some h /\ h data = hex).
  Proof.
    intros c url fn hex r x c' S G H. unfold check in H. destruct (is_hash_valid digest fn hex r) as [b r'] eqn:E. apply hash_valid in E; [|exact (S url r G)]. destruct E as (R & D & V).
    assert (S' : sound digest (dict_set url r' c)) by (apply set_sound; assumption). assert (K : keeps c (dict_set url r' c)) by (apply keeps_set; congruence).
    destruct b as [[]|e]; injection H as <- <-; (split; [exact S'|]); (split; [exact K|]); intros data X; try discriminate. injection X as <-. rewrite D. apply V. reflexivity.
  Qed.
  Lemma pypi_spec : forall c f served x c', sound digest c -> retrieve_pypi digest c f served = (x, c') -> sound digest c' /\ keeps c c' /\
    (forall data, x = Ok data -> match f_digests f with Some ds => match chosen_digest ds with Some (fn, hex) => exists h, digest fn = Some h /\ h data = hex | None => True end | None => True end).
  Proof.
    intros c f served x c' S H. unfold retrieve_pypi in H. destruct (nonempty (f_url f)) as [url|]; [|injection H as <- <-; split; [exact S|split; [apply keeps_refl|discriminate]]].
    destruct (fetch c url served) as [y c1] eqn:F. apply fetch_spec in F; [|exact S]. destruct F as (S1 & K1 & G). destruct y as [r|e]; [|injection H as <- <-; split; [exact S1|split; [exact K1|discriminate]]].
    specialize (G r eq_refl). destruct (f_digests f) as [ds|]; [|injection H as <- <-; split; [exact S1|split; [exact K1|discriminate]]].
    destruct (chosen_digest ds) as [[fn hex]|]; [|injection H as <- <-; split; [exact S1|split; [exact K1|trivial]]].
    apply check_spec in H; [|exact S1|exact G]. destruct H as (S2 & K2 & V). split; [exact S2|]. split; [eapply keeps_trans; eassumption|exact V].
  Qed.
  Lemma simple_spec : forall c url served x c', sound digest c -> retrieve_simple digest c url served = (x, c') -> sound digest c' /\ keeps c c' /\
    (forall data, x = Ok data -> forall u fn hex, url_parse url = Ok u -> u_fragment u = fn ++ lit "=" ++ hex -> ~ In "="%char fn -> fn <> [] -> hex <> [] -> exists h, digest fn = Some h /\ h data = hex).
  Proof.
    intros c url served x c' S H. unfold retrieve_simple in H. destruct (fetch c url served) as [y c1] eqn:F. apply fetch_spec in F; [|exact S]. destruct F as (S1 & K1 & G). destruct y as [r|e]; [|injection H as <- <-; split; [exact S1|split; [exact K1|discriminate]]].
    specialize (G r eq_refl). destruct (url_parse url) as [u|] eqn:U; [|injection H as <- <-; split; [exact S1|split; [exact K1|discriminate]]].
    destruct (partition_eq (u_fragment u)) as [fn hex] eqn:P. destruct (is_empty fn || is_empty hex) eqn:Z.
    - injection H as <- <-. split; [exact S1|]. split; [exact K1|]. intros data X u' fn' hex' U' Q N F1 F2. injection U' as <-. unfold partition_eq in P. rewrite Q in P. change (fn' ++ lit "=" ++ hex') with (fn' ++ "="%char :: hex') in P. rewrite split_once_hit in P.
      + injection P as <- <-. destruct fn', hex'; [congruence..|]. discriminate.
      + apply forallb_forall. intros a A. unfold not_char. destruct (Ascii.eqb a "=") eqn:E; [|reflexivity]. apply Ascii.eqb_eq in E. subst a. contradiction.
    - apply check_spec in H; [|exact S1|exact G]. destruct H as (S2 & K2 & V). split; [exact S2|]. split; [eapply keeps_trans; eassumption|].
      intros data X u' fn' hex' U' Q N F1 F2. injection U' as <-. unfold partition_eq in P. rewrite Q in P. change (fn' ++ lit "=" ++ hex') with (fn' ++ "="%char :: hex') in P. rewrite split_once_hit in P.
      + injection P as <- <-. exact (V data X).
      + apply forallb_forall. intros a A. unfold not_char. destruct (Ascii.eqb a "=") eqn:E; [|reflexivity]. apply Ascii.eqb_eq in E. subst a. contradiction.
  Qed.
  Lemma pypi_verified : forall c f served data c', sound digest c -> retrieve_pypi digest c f served = (Ok data, c') ->
    match f_digests f with Some ds => match chosen_digest ds with Some (fn, hex) => exists h, digest fn = Some h /\ h data = hex | None => True end | None => True end.
  Proof. intros c f served data c' S H. apply pypi_spec in H; [|exact S]. destruct H as (_ & _ & H). exact (H data eq_refl). Qed.
  Lemma simple_verified : forall c url served data c', sound digest c -> retrieve_simple digest c url served = (Ok data, c') ->
    forall u fn hex, url_parse url = Ok u -> u_fragment u = fn ++ lit "=" ++ hex -> ~ In "="%char fn -> fn <> [] -> hex <> [] -> exists h, digest fn = Some h /\ h data = hex.
  Proof. intros c url served data c' S H. apply simple_spec in H; [|exact S]. destruct H as (_ & _ & H). exact (H data eq_refl). Qed.
  Lemma retrieve_sound : forall c q, sound digest c -> sound digest (snd (retrieve digest c q)).
  Proof.
    intros c q S. destruct (retrieve digest c q) as [x c'] eqn:E. destruct q as [f served|url served]; cbn [retrieve] in E.
    - apply pypi_spec in E; [apply E|exact S].
    - apply simple_spec in E; [apply E|exact S].
  Qed.
  Lemma retrieve_keeps : forall c q, sound digest c -> keeps c (snd (retrieve digest c q)).
  Proof.
    intros c q S. destruct (retrieve digest c q) as [x c'] eqn:E. destruct q as [f served|url served]; cbn [retrieve] in E.
    - apply pypi_spec in E; [apply E|exact S].
    - apply simple_spec in E; [apply E|exact S].
  Qed.
  Lemma kept_all : forall qs c url r, sound digest c -> dict_get url c = Some r ->
    exists r', dict_get url (snd (retrieve_all digest c qs)) = Some r' /\ r_data r' = r_data r /\ sound digest (snd (retrieve_all digest c qs)).
  Proof.
    intro qs. induction qs as [|q qs IH]; intros c url r S G; [eauto|]. cbn [retrieve_all]. pose proof (retrieve_sound c q S) as S1. destruct (retrieve_keeps c q S url r G) as (r1 & G1 & E1). destruct (retrieve digest c q) as [x c1]. cbn [snd] in *.
    destruct (IH c1 url r1 S1 G1) as (r2 & G2 & E2 & S2). destruct (retrieve_all digest c1 qs) as [xs c2]. cbn [snd] in *. exists r2. split; [exact G2|]. split; [congruence|exact S2].
  Qed.
End Downloads.

(** ** Places *)
Lemma place_fold : forall p acc, ~ In (lit "..") p -> fold_left (fun acc x => if str_eqb x ".." then tl acc else x :: acc) p acc = rev p ++ acc.
Proof.
  induction p as [|x p IH]; intros acc N; [reflexivity|]. cbn [fold_left]. replace (str_eqb x "..") with false.
  - rewrite IH by (intro I; apply N; right; exact I). cbn [rev]. rewrite <- app_assoc. reflexivity.
  - symmetry. destruct (str_eqb x "..") eqn:E; [|reflexivity]. apply str_eqb_eq in E. exfalso. apply N. left. exact E.
Qed.
Lemma place_plain : forall p, ~ In (lit "..") p -> rev (fold_left (fun acc x => if str_eqb x ".." then tl acc else x :: acc) p []) = p.
Proof. intros p N. rewrite place_fold by exact N. rewrite app_nil_r. apply rev_involutive. Qed.
Lemma removelast_in : forall (A : Type) (x : A) l, In x (removelast l) -> In x l.
Proof. intros A x l. induction l as [|y l IH]; [intros []|]. cbn [removelast]. destruct l as [|z l]; [intros []|]. intros [->|I]; [left; reflexivity|right; apply IH, I]. Qed.

(** ** Pages *)
Definition has_version (text : str) (k : link) : bool := match extract_version (l_name k) with Ok t => str_eqb t text | Err _ => false end.
Lemma str_eqb_iff : forall a b, str_eqb a b = true <-> a = b.
Proof. intros a b. split; [apply str_eqb_eq|intros ->; apply str_eqb_refl]. Qed.
Lemma link_versions_spec : forall l named, link_versions l = Ok named -> Forall2 (fun k e => extract_version (l_name k) = Ok (fst e) /\ snd e = k) l named.
Proof.
  induction l as [|k l IH]; intros named H; cbn [link_versions] in H; [injection H as <-; constructor|]. destruct (extract_version (l_name k)) as [v|] eqn:E; [|discriminate]. cbn [bind] in H. destruct (link_versions l) as [r|]; [|discriminate]. injection H as <-. constructor; [split; [exact E|reflexivity]|apply IH; reflexivity].
Qed.
Lemma simple_packages_spec : forall g l, simple_packages g = Ok l -> Forall2 (fun e p => parse_version (fst e) = Ok (q_version p) /\ q_links p = map snd (snd e)) g l.
Proof.
  induction g as [|[t ks] g IH]; intros l H; cbn [simple_packages] in H; [injection H as <-; constructor|]. destruct (parse_version t) as [v|] eqn:E; [|discriminate]. cbn [bind] in H. destruct (simple_packages g) as [r|]; [|discriminate]. injection H as <-. constructor; [split; [exact E|reflexivity]|apply IH; reflexivity].
Qed.
Lemma Forall2_in_right : forall (A B : Type) (R : A -> B -> Prop) l m, Forall2 R l m -> forall y, In y m -> exists x, In x l /\ R x y.
Proof. intros A B R l m H. induction H as [|x y l m E H IH]; intros z I; [destruct I|]. destruct I as [<-|I]; [exists x; split; [left; reflexivity|exact E]|]. destruct (IH z I) as (w & W1 & W2). exists w. split; [right; exact W1|exact W2]. Qed.
Lemma Forall2_in_left : forall (A B : Type) (R : A -> B -> Prop) l m, Forall2 R l m -> forall x, In x l -> exists y, In y m /\ R x y.
Proof. intros A B R l m H. induction H as [|x y l m E H IH]; intros z I; [destruct I|]. destruct I as [<-|I]; [exists y; split; [left; reflexivity|exact E]|]. destruct (IH z I) as (w & W1 & W2). exists w. split; [right; exact W1|exact W2]. Qed.
Lemma named_in : forall links named, Forall2 (fun k e => extract_version (l_name k) = Ok (fst e) /\ snd e = k) links named -> forall text k, In (text, k) named <-> In k links /\ extract_version (l_name k) = Ok text.
Proof.
  intros links named H text k. split.
  - intro I. destruct (Forall2_in_right _ _ _ _ _ H _ I) as (k' & I' & E & <-). auto.
  - intros [I E]. destruct (Forall2_in_left _ _ _ _ _ H _ I) as ([t k'] & I' & E' & Q). cbn in *. subst k'. rewrite E in E'. injection E' as ->. exact I'.
Qed.
Lemma having_links : forall links named, Forall2 (fun k e => extract_version (l_name k) = Ok (fst e) /\ snd e = k) links named -> forall text, map snd (having str_eqb fst text named) = filter (has_version text) links.
Proof.
  intros links named H text. unfold having. induction H as [|k e links named [E Q] H IH]; [reflexivity|]. cbn [filter]. unfold has_version at 1. rewrite E. destruct (str_eqb (fst e) text); [cbn [map]; rewrite IH, Q; reflexivity|exact IH].
Qed.
Lemma packages_nodup : forall g l, Forall2 (fun (e : str * list (str * link)) p => parse_version (fst e) = Ok (q_version p) /\ q_links p = map snd (snd e)) g l -> NoDup (map fst g) ->
  (forall text ks, In (text, ks) g -> ks <> [] /\ forall x, In x ks -> extract_version (l_name (snd x)) = Ok text) -> NoDup l.
Proof.
  intros g l H. induction H as [|[text ks] p g l [E Q] H IH]; intros N K; [constructor|]. cbn [map fst] in N. inversion N as [|? ? N1 N2 [X Y]]; subst. constructor.
  - intro I. destruct (Forall2_in_right _ _ _ _ _ H _ I) as ([text2 ks2] & I2 & E2 & Q2). cbn [fst snd] in *. apply N1. apply in_map_iff. exists (text2, ks2). split; [|exact I2]. cbn.
    destruct (K text ks (or_introl eq_refl)) as [Z1 Z2]. destruct (K text2 ks2 (or_intror I2)) as [_ Z3]. destruct ks as [|x ks]; [congruence|]. specialize (Z2 x (or_introl eq_refl)).
    assert (J : In (snd x) (map snd ks2)) by (rewrite <- Q2, Q; left; reflexivity). apply in_map_iff in J as (y & J1 & J2). specialize (Z3 y J2). rewrite J1 in Z3. congruence.
  - apply IH; [exact N2|]. intros t k I. apply K. right. exact I.
Qed.
Lemma lstrip_segments : forall s x, In x (split_on "/" (lstrip "/" s)) -> In x (split_on "/" s).
Proof.
  intros s x H. induction s as [|c s IH]; [exact H|]. cbn [lstrip] in H. destruct (Ascii.eqb c "/") eqn:E; [|exact H]. apply Ascii.eqb_eq in E. subst c.
  change ("/"%char :: s) with (@nil ascii ++ "/"%char :: s). rewrite split_on_app by intros []. right. apply IH, H.
Qed.
