(** Properties C07-C14 (version specifiers). *)
From Coq Require Import String Ascii List Bool NArith Arith Lia.
From Verif Require Import Base VersionModel VersionSpec VersionParse SpecifierModel SpecifierSpec
  SpecParse SpecParseSpec SpecRange SpecifierProofs SpecUnion SpecSameStart SpecExactProofs SpecInverse SpecParseProofs VersionProps.
Import ListNotations.
Open Scope string_scope.
Open Scope nat_scope.
Open Scope list_scope.
Open Scope bool_scope.

(** objects named by their texts, for the examples and witnesses below *)
Definition the_spec (t : str) : spec := match parse_specifier (fun u => u) t with Ok s => s | Err _ => RestrictAll end.
Definition parses (t : str) (s : spec) : Prop := parse_specifier (fun u => u) t = Ok s.
Definition fragment (a b : spec) : Prop := (deny_free a /\ deny_free b) \/ (union_free a /\ union_free b).

Lemma plain_vs : forall r, r <> [] -> plain (sv_plain r).
Proof. intros r H. split; [exact H|]. split; [reflexivity|discriminate]. Qed.
Ltac wf := try discriminate; try (left; discriminate); try (right; discriminate);
  try (intros ? H; injection H as <-; apply plain_vs; discriminate);
  try (intros ? ? H1 H2; first [discriminate H1 | discriminate H2 | injection H1 as <-; injection H2 as <-; reflexivity]).
Lemma wfr : forall mn mx i j, (mn <> None \/ mx <> None) -> (i = true -> mn <> None) -> (j = true -> mx <> None) ->
  (forall m, mn = Some m -> plain m) -> (forall m, mx = Some m -> plain m) ->
  (forall a b, mn = Some a -> mx = Some b -> sv_ltb a b = true) -> wf_interval (mn, mx, i, j).
Proof. intros. split; [assumption|]. repeat (split; [assumption|]). assumption. Qed.

(** C07.  Missing for the full claim: "!=v" together with unions, post-releases, local labels, url and named versions. *)
Theorem C07_intersection_partial : forall a b, fragment a b ->
  exists r, intersect_with a b = Ok r /\
    ((deny_free a /\ deny_free b) -> deny_free r) /\ ((union_free a /\ union_free b) -> union_free r) /\
    forall v, candidate v -> (allows r (VStd v) = true <-> allows a (VStd v) = true /\ allows b (VStd v) = true).
Proof. exact intersect_correct. Qed.
Print Assumptions C07_intersection_partial.
Example C07_intersection_example :
  let a := Union [Range None (Some (sv_plain [2]%N)) false false; Range (Some (sv_plain [3]%N)) None true false] in
  let b := Range (Some (sv_plain [1]%N)) (Some (sv_plain [5]%N)) true true in
  parses "!=2.*" a /\ parses ">=1, <=5" b /\ fragment a b /\ candidate (sv_plain [1; 5]%N) /\
  allows a (VStd (sv_plain [1; 5]%N)) = true.
Proof.
  cbv zeta. split; [reflexivity|]. split; [reflexivity|]. split; [|split; [split; [apply plain_vs; discriminate|reflexivity]|reflexivity]].
  left. split.
  - split; [cbn; lia|]. split.
    + constructor; [apply wfr; wf|constructor; [apply wfr; wf|constructor]].
    + constructor; [constructor; [|constructor]|constructor; [constructor|constructor]].
      left. do 8 eexists. split; [reflexivity|]. split; [reflexivity|]. left. reflexivity.
  - apply wfr; wf.
Qed.
(** ">=1.0.post1" and ">=1.0": 1.0.post2 is allowed by the intersection but not by the second *)
Theorem C07_post_refuted : exists a b r v, parses ">=1.0.post1" a /\ parses ">=1.0" b /\ parse_version "1.0.post2" = Ok v /\
  intersect_with a b = Ok r /\ allows r v = true /\ allows b v = false.
Proof. do 4 eexists. repeat split. Qed.
Print Assumptions C07_post_refuted.
(** the exclusions are lost when intersecting with a union *)
Theorem C07_blacklist_refuted : exists a b r v, parses "!=1.5, !=3.5" a /\ parses "!=2.*" b /\ parse_version "1.5" = Ok v /\
  intersect_with a b = Ok r /\ allows r v = true /\ allows a v = false.
Proof. do 4 eexists. repeat split. Qed.
Print Assumptions C07_blacklist_refuted.
Theorem C07_named_refuted : exists a b r v, parses "<2" a /\ parses "===foo" b /\ parse_version "foo" = Ok v /\
  intersect_with a b = Ok r /\ allows a v = true /\ allows b v = true /\ allows r v = false.
Proof. do 4 eexists. repeat split. Qed.
Print Assumptions C07_named_refuted.

(** two "==" on versions of any kind, local labels included, and a named version against an exclusion list *)
Theorem C07_exact_partial : forall v w, exists r, intersect_with (Match v true) (Match w true) = Ok r /\
  forall x, allows r x = allows (Match v true) x && allows (Match w true) x.
Proof. exact exact_intersect. Qed.
Print Assumptions C07_exact_partial.
Example C07_exact_example : exists a b r v, parses "==1.0" a /\ parses "==1+x" b /\ intersect_with a b = Ok r /\
  parse_version "1+x" = Ok v /\ allows r v = true /\ r = b.
Proof. do 4 eexists. repeat split. Qed.
Theorem C07_named_excluded_partial : forall bl sp n, exists r, intersect_with (Hetro bl sp) (Match (VNamed n) true) = Ok r /\
  forall x, allows r x = allows (Hetro bl sp) x && allows (Match (VNamed n) true) x.
Proof. exact named_intersect. Qed.
Print Assumptions C07_named_excluded_partial.
Example C07_named_excluded_example : exists b nb c a, parses "===foo" b /\ inverse b = Ok nb /\ parses "!=2" c /\ intersect_with nb c = Ok a /\
  (exists bl sp, a = Hetro bl sp) /\ b = Match (VNamed "foo") true /\ intersect_with a b = Ok RestrictAll.
Proof.
  do 4 eexists. split; [reflexivity|]. split; [reflexivity|]. split; [reflexivity|]. split; [reflexivity|].
  split; [do 2 eexists; reflexivity|]. split; reflexivity.
Qed.
(** "==1" and "!=1+x": nothing is left, though 1 is allowed by both *)
Theorem C07_local_refuted : exists a b r v, parses "==1" a /\ parses "!=1+x" b /\ parse_version "1" = Ok v /\
  intersect_with a b = Ok r /\ allows a v = true /\ allows b v = true /\ allows r v = false.
Proof. do 4 eexists. repeat split. Qed.
Print Assumptions C07_local_refuted.
(** "!=1" and "!=2": 1+x is allowed by the intersection but not by the first *)
Theorem C07_local_exclusion_refuted : exists a b r v, parses "!=1" a /\ parses "!=2" b /\ parse_version "1+x" = Ok v /\
  intersect_with a b = Ok r /\ allows r v = true /\ allows a v = false.
Proof. do 4 eexists. repeat split. Qed.
Print Assumptions C07_local_exclusion_refuted.

(** C08.  Missing: unions as operands, nested ranges (which are wrong) and exclusion lists. *)
Definition union_operand (s : spec) : Prop :=
  s = AllowAll \/ s = RestrictAll \/ atom s \/ exists v, s = Match (VStd v) false /\ plain v.
Theorem C08_union_partial : forall a b, union_operand a -> union_operand b ->
  (forall mn mx i j mn' mx' i' j', a = Range mn mx i j -> b = Range mn' mx' i' j' -> staggered (mn, mx, i, j) (mn', mx', i', j')) ->
  exists r, union_with a b = Ok r /\
   forall v, candidate v -> allows r (VStd v) = allows a (VStd v) || allows b (VStd v).
Proof. exact union_simple_correct. Qed.
Print Assumptions C08_union_partial.
Example C08_union_example :
  let a := Range (Some (sv_plain [1]%N)) (Some (sv_plain [3]%N)) true false in
  let b := Range (Some (sv_plain [2]%N)) (Some (sv_plain [4]%N)) true false in
  union_operand a /\ union_operand b /\
  staggered (Some (sv_plain [1]%N), Some (sv_plain [3]%N), true, false) (Some (sv_plain [2]%N), Some (sv_plain [4]%N), true, false) /\
  union_with a b = Ok (Range (Some (sv_plain [1]%N)) (Some (sv_plain [4]%N)) true false).
Proof.
  cbv zeta. split; [right; right; left; apply wfr; wf|]. split; [right; right; left; apply wfr; wf|]. split; [|reflexivity].
  left. split; [reflexivity|]. left. reflexivity.
Qed.
(** ... of ranges that begin at the same version, the one that ends later including it if the other does *)
Theorem C08_same_start_partial : forall mn mx i j mn' mx' i' j',
  wf_interval (mn, mx, i, j) -> wf_interval (mn', mx', i', j') ->
  same_start (mn, mx, i, j) (mn', mx', i', j') -> ends_no_later (mn, mx, i, j) (mn', mx', i', j') ->
  (exists r, union_with (Range mn mx i j) (Range mn' mx' i' j') = Ok r /\
    forall v, candidate v -> allows r (VStd v) = allows (Range mn mx i j) (VStd v) || allows (Range mn' mx' i' j') (VStd v)) /\
  (exists r, union_with (Range mn' mx' i' j') (Range mn mx i j) = Ok r /\
    forall v, candidate v -> allows r (VStd v) = allows (Range mn mx i j) (VStd v) || allows (Range mn' mx' i' j') (VStd v)).
Proof. exact same_start_union. Qed.
Print Assumptions C08_same_start_partial.
Example C08_same_start_example :
  let a := (Some (sv_plain [1]%N), Some (sv_plain [3]%N), false, true) in
  let b := (Some (sv_plain [1;0]%N), Some (sv_plain [4]%N), true, false) in
  wf_interval a /\ wf_interval b /\ same_start a b /\ ends_no_later a b /\
  union_with (Range (Some (sv_plain [1]%N)) (Some (sv_plain [3]%N)) false true)
             (Range (Some (sv_plain [1;0]%N)) (Some (sv_plain [4]%N)) true false)
  = Ok (Range (Some (sv_plain [1]%N)) (Some (sv_plain [4]%N)) true false).
Proof.
  cbv zeta. split; [apply wfr; wf|]. split; [apply wfr; wf|]. split.
  - split; [apply VersionProofs.sv_eqb_spec; reflexivity|discriminate].
  - split; [left; reflexivity|reflexivity].
Qed.
(** ... and of unions of ranges that keep their distance *)
Theorem C08_apart_partial : forall a b, deny_free a -> deny_free b -> a <> AllowAll -> b <> AllowAll ->
  (forall x y, In x (segs_of a) -> In y (segs_of b) -> apart x y) ->
  exists r, union_with a b = Ok r /\ deny_free r /\
   forall v, candidate v -> allows r (VStd v) = allows a (VStd v) || allows b (VStd v).
Proof.
  intros a b Da Db Na Nb H. destruct (union_with_apart a b (conj Da Na) (conj Db Nb) H) as (r & E & Nr & P).
  exists r. split; [exact E|]. split; [apply Nr|]. intros v C.
  rewrite (norm_allows r v Nr), (norm_allows a v (conj Da Na)), (norm_allows b v (conj Db Nb)), (existsb_perm _ _ _ _ P).
  apply existsb_app.
Qed.
Print Assumptions C08_apart_partial.
Example C08_apart_example :
  let a := Range (Some (sv_plain [1]%N)) (Some (sv_plain [2]%N)) true false in
  let b := Range (Some (sv_plain [3]%N)) None true false in
  deny_free a /\ deny_free b /\ (forall x y, In x (segs_of a) -> In y (segs_of b) -> apart x y).
Proof.
  cbv zeta. split; [apply wfr; wf|]. split; [apply wfr; wf|]. intros x y [<-|[]] [<-|[]]. left.
  do 8 eexists. split; [reflexivity|]. split; [reflexivity|]. left. reflexivity.
Qed.
(** a range inside another one cuts it short *)
Theorem C08_nested_refuted : exists a b r v, parses ">=1, <=5" a /\ parses ">=2, <=3" b /\ parse_version "4" = Ok v /\
  union_with a b = Ok r /\ allows a v = true /\ allows r v = false.
Proof. do 4 eexists. repeat split. Qed.
Print Assumptions C08_nested_refuted.
(** adding ">=1, <2" to "!=5.*" removes 3 *)
Theorem C08_segment_refuted : exists a b r v, parses "!=5.*" a /\ parses ">=1, <2" b /\ parse_version "3" = Ok v /\
  union_with a b = Ok r /\ allows a v = true /\ allows r v = false.
Proof. do 4 eexists. repeat split. Qed.
Print Assumptions C08_segment_refuted.
Theorem C08_exclusion_refuted : exists a b r v, parses "!=1, !=2" a /\ parses "!=3" b /\ parse_version "3" = Ok v /\
  union_with a b = Ok r /\ allows a v = true /\ allows r v = false.
Proof. do 4 eexists. repeat split. Qed.
Print Assumptions C08_exclusion_refuted.

(** C09.  Missing: unions containing "==v", exclusion lists, post-releases. *)
Theorem C09_inverse_partial : forall s, range_only s ->
  exists r, inverse s = Ok r /\ deny_free r /\
   forall v, candidate v -> allows r (VStd v) = negb (allows s (VStd v)).
Proof. exact inverse_correct. Qed.
Print Assumptions C09_inverse_partial.
Example C09_inverse_example :
  let a := Union [Range None (Some (sv_plain [2]%N)) false false; Range (Some (sv_plain [3]%N)) None true false] in
  range_only a /\ inverse a = Ok (Range (Some (sv_plain [2]%N)) (Some (sv_plain [3]%N)) true false).
Proof.
  cbv zeta. split; [|reflexivity]. split; [split; [cbn; lia|split]|].
  - constructor; [apply wfr; wf|constructor; [apply wfr; wf|constructor]].
  - constructor; [constructor; [|constructor]|constructor; [constructor|constructor]]. left.
    do 8 eexists. split; [reflexivity|]. split; [reflexivity|]. left. reflexivity.
  - repeat constructor.
Qed.
Theorem C09_match : forall w al, plain w ->
  inverse (Match (VStd w) al) = Ok (Match (VStd w) (negb al)) /\
  forall v, plain v -> allows (Match (VStd w) (negb al)) (VStd v) = negb (allows (Match (VStd w) al) (VStd v)).
Proof. exact inverse_match. Qed.
Print Assumptions C09_match.
Theorem C09_difference_partial : forall a b, deny_free a -> range_only b ->
  exists r, difference_from a b = Ok r /\ deny_free r /\
   forall v, candidate v -> allows r (VStd v) = allows a (VStd v) && negb (allows b (VStd v)).
Proof. exact difference_correct. Qed.
Print Assumptions C09_difference_partial.
Example C09_difference_example :
  let a := Range (Some (sv_plain [1]%N)) (Some (sv_plain [5]%N)) true false in
  let b := Range (Some (sv_plain [2]%N)) (Some (sv_plain [3]%N)) true false in
  deny_free a /\ range_only b.
Proof. cbv zeta. split; [apply wfr; wf|split; [apply wfr; wf|exact I]]. Qed.
(** 2.post1 is allowed neither by ">=1" nor by its inverse *)
Theorem C09_post_refuted : exists s r v, parses ">=1" s /\ parse_version "2.post1" = Ok v /\ inverse s = Ok r /\
  allows s v = false /\ allows r v = false.
Proof. do 3 eexists. repeat split. Qed.
Print Assumptions C09_post_refuted.

(** C10.  Missing: completeness of allows_any, and of allows_all beyond ranges. *)
Theorem C10_all_sound_partial : forall a b, fragment a b -> allows_all a b = Ok true ->
  forall v, candidate v -> allows b (VStd v) = true -> allows a (VStd v) = true.
Proof. exact allows_all_sound. Qed.
Print Assumptions C10_all_sound_partial.
Theorem C10_any_sound_partial : forall a b, fragment a b -> allows_any a b = Ok false ->
  forall v, candidate v -> ~ (allows a (VStd v) = true /\ allows b (VStd v) = true).
Proof. exact allows_any_sound. Qed.
Print Assumptions C10_any_sound_partial.
(** a range whose bounds lie within those of another one is recognised as included *)
Theorem C10_ranges_included : forall mn mx i j mn' mx' i' j',
  wf_interval (mn, mx, i, j) -> wf_interval (mn', mx', i', j') -> subb (mn, mx, i, j) (mn', mx', i', j') = true ->
  allows_all (Range mn mx i j) (Range mn' mx' i' j') = Ok true.
Proof. exact allows_all_ranges. Qed.
Print Assumptions C10_ranges_included.
Example C10_example :
  let a := Range (Some (sv_plain [1]%N)) (Some (sv_plain [5]%N)) true false in
  let b := Range (Some (sv_plain [2]%N)) (Some (sv_plain [5]%N)) true false in
  let c := Range (Some (sv_plain [7]%N)) None true false in
  fragment a b /\ subb (Some (sv_plain [1]%N), Some (sv_plain [5]%N), true, false) (Some (sv_plain [2]%N), Some (sv_plain [5]%N), true, false) = true
  /\ allows_all a b = Ok true /\ allows_all b a = Ok false /\ allows_any a c = Ok false /\ fragment a c.
Proof.
  cbv zeta. split; [left; split; apply wfr; wf|]. split; [reflexivity|]. split; [reflexivity|]. split; [reflexivity|].
  split; [reflexivity|]. left; split; apply wfr; wf.
Qed.
(** 1.post2 is allowed by ">=1.post1" but not by ">=1", yet allows_all says yes *)
Theorem C10_post_refuted : exists a b v, parses ">=1" a /\ parses ">=1.post1" b /\ parse_version "1.post2" = Ok v /\
  allows_all a b = Ok true /\ allows b v = true /\ allows a v = false.
Proof. do 3 eexists. repeat split. Qed.
Print Assumptions C10_post_refuted.
(** the empty specifier is included in everything, but allows_all says no *)
Theorem C10_empty_refuted : (forall v, allows RestrictAll v = true -> allows AllowAll v = true) /\ allows_all AllowAll RestrictAll = Ok false.
Proof. split; [discriminate|reflexivity]. Qed.
Print Assumptions C10_empty_refuted.

(** C11: the union of two unions empties its argument, which then allows nothing *)
Theorem C11_argument_refuted : exists a b b' v, parses "!=2.*" a /\ parses "!=5.*, !=7.*" b /\ parse_version "1" = Ok v /\
  union_with_other_after a b = Some b' /\ b' = Union [] /\ allows b v = true /\ allows b' v = false.
Proof. do 4 eexists. repeat split. Qed.
Print Assumptions C11_argument_refuted.

(** C12 *)
(** intersecting any number of specifiers of one of the fragments never raises.
    Missing: the other operations and fragments, which do raise (below). *)
Theorem C12_conjunction_partial : forall l, Forall deny_free l \/ Forall union_free l ->
  exists r, fold_left (fun acc s => do a <- acc; intersect_with a s) l (Ok AllowAll) = Ok r /\
    forall v, candidate v -> (allows r (VStd v) = true <-> Forall (fun s => allows s (VStd v) = true) l).
Proof.
  assert (G : forall (K : spec -> Prop), K AllowAll ->
    (forall a b, K a -> K b -> exists r, intersect_with a b = Ok r /\ K r /\
      forall v, candidate v -> (allows r (VStd v) = true <-> allows a (VStd v) = true /\ allows b (VStd v) = true)) ->
    forall l acc, Forall K l -> K acc ->
      exists r, fold_left (fun acc s => do a <- acc; intersect_with a s) l (Ok acc) = Ok r /\
       forall v, candidate v -> (allows r (VStd v) = true <-> allows acc (VStd v) = true /\ Forall (fun s => allows s (VStd v) = true) l)).
  { intros K _ HI. induction l as [|x l IH]; intros acc F A.
    - exists acc. split; [reflexivity|]. intros v C. split; [auto|tauto].
    - inversion F as [|? ? F1 F2]; subst. destruct (HI acc x A F1) as (r & E & Kr & V).
      destruct (IH r F2 Kr) as (q & Eq & Vq). exists q. cbn [fold_left bind]. rewrite E. split; [exact Eq|].
      intros v C. rewrite (Vq v C), (V v C). split.
      + intros [[H1 H2] H3]. auto.
      + intros [H1 H2]. inversion H2; subst. auto. }
  intros l [F|F].
  - destruct (G deny_free I) with (l := l) (acc := AllowAll) as (r & E & V); auto.
    + intros a b Ha Hb. destruct (intersect_correct a b (or_introl (conj Ha Hb))) as (r & E & D & _ & V). exists r. auto.
    + exact I.
    + exists r. split; [exact E|]. intros v C. rewrite (V v C). cbn. tauto.
  - destruct (G union_free I) with (l := l) (acc := AllowAll) as (r & E & V); auto.
    + intros a b Ha Hb. destruct (intersect_correct a b (or_intror (conj Ha Hb))) as (r & E & _ & D & V). exists r. auto.
    + exact I.
    + exists r. split; [exact E|]. intros v C. rewrite (V v C). cbn. tauto.
Qed.
Print Assumptions C12_conjunction_partial.
Example C12_conjunction_example : Forall union_free
  [Match (VStd (sv_plain [3]%N)) false; Range (Some (sv_plain [1]%N)) None true false; Match (VStd (sv_plain [4]%N)) false].
Proof. constructor; [apply plain_vs; discriminate|constructor; [apply wfr; wf|constructor; [apply plain_vs; discriminate|constructor]]]. Qed.
(** already parsing "!=2.*, !=4.*, !=6" dies with an assertion error *)
Theorem C12_parse_refuted : parse_specifier (fun u => u) "!=2.*, !=4.*, !=6" = Err AssertionError.
Proof. vm_compute. reflexivity. Qed.
Print Assumptions C12_parse_refuted.
Theorem C12_union_refuted : exists a b, parses "!=1, !=2" a /\ parses "===foo" b /\ union_with a b = Err KeyError.
Proof. do 2 eexists. repeat split. Qed.
Print Assumptions C12_union_refuted.

(** C13.  Missing: mixtures of "!=v" and "!=v.*" (which raise), labels, url and named clauses, post-release candidates. *)
Theorem C13_clauses_partial : forall as_uri cs, cs <> [] -> Forall clause_ok cs -> Forall no_ne cs \/ Forall no_nestar cs ->
  exists s, parse_specifier as_uri (clauses_text cs) = Ok s /\
    forall v, candidate v -> (allows s (VStd v) = true <-> Forall (fun c => clause_holds c v) cs).
Proof.
  intros u cs A B C. destruct (parse_clauses u cs A B C) as (s & E & _ & _ & V). exists s. auto.
Qed.
Print Assumptions C13_clauses_partial.
Example C13_clauses_example :
  let cs := [(Compat, sv_plain [1; 4; 2]%N); (Ne, sv_plain [1; 4; 5]%N); (Lt, SV [1; 5]%N None (Some (lit "rc", 1%N)) None None None)] in
  clauses_text cs = lit "~=1.4.2, !=1.4.5, <1.5rc1" /\ Forall clause_ok cs /\ Forall no_nestar cs.
Proof.
  cbv zeta. split; [reflexivity|]. split.
  - constructor; [|constructor; [|constructor; [|apply Forall_nil]]].
    + split; [split; [discriminate|discriminate]|]. split; [apply plain_vs; discriminate|]. split; [intros _; cbn; lia|discriminate].
    + split; [split; [discriminate|discriminate]|]. split; [apply plain_vs; discriminate|]. split; [discriminate|discriminate].
    + split; [split; [discriminate|]|].
      * intros t n H. injection H as <- _. cbn. auto.
      * split; [split; [discriminate|split; [reflexivity|discriminate]]|]. split; [discriminate|discriminate].
  - constructor; [discriminate|constructor; [discriminate|constructor; [discriminate|apply Forall_nil]]].
Qed.
(** a clause that does not fit the grammar ends the parse silently: what follows is ignored *)
Theorem C13_ignored_tail_refuted : exists s, parses "<1" s /\ parses "<1 >=0.5 garbage" s.
Proof. eexists. repeat split. Qed.
Print Assumptions C13_ignored_tail_refuted.

(** C14.  Missing: unions and exclusion lists, and ranges that only look like "~=" ranges (all wrong, below). *)
Theorem C14_roundtrip_partial : forall as_uri s, printable s -> parse_specifier as_uri (spec_str s) = Ok s.
Proof. exact print_parse. Qed.
Print Assumptions C14_roundtrip_partial.
Example C14_roundtrip_example :
  let s := Range (Some (sv_plain [1; 4]%N)) (Some (SV [2; 0]%N None None None None None)) true false in
  let t := Range (Some (SV [1]%N None (Some (lit "a", 1%N)) None None None)) (Some (sv_plain [3]%N)) false true in
  printable s /\ printable t /\ spec_str s = lit "~=1.4" /\ spec_str t = lit ">1a1, <=3".
Proof.
  cbv zeta. split; [|split; [|split; reflexivity]].
  - split; [apply wfr; wf|]. split; [|split].
    + intros m H; injection H as <-. split; [discriminate|discriminate].
    + intros m H; injection H as <-. split; [discriminate|discriminate].
    + intros m n H1 H2 _ _ p x y R1 R2. injection H1 as <-. injection H2 as <-. cbn in *. rewrite <- R2. reflexivity.
  - split; [|split; [|split]].
    + apply wfr; try (left; discriminate); try discriminate.
      * intros m H; injection H as <-. split; [discriminate|split; [reflexivity|discriminate]].
      * intros m H; injection H as <-. apply plain_vs. discriminate.
      * intros a b H1 H2; injection H1 as <-; injection H2 as <-; reflexivity.
    + intros m H; injection H as <-. split; [discriminate|]. intros t n E. injection E as <- _. cbn. auto.
    + intros m H; injection H as <-. split; [discriminate|discriminate].
    + intros m n _ _ H. discriminate H.
Qed.
(** "!=1.2.*" is printed "<1.2; >=1.3", which is read as "<1.2" *)
Theorem C14_union_refuted : exists s s' v, parses "!=1.2.*" s /\ spec_str s = lit "<1.2; >=1.3" /\ parses (spec_str s) s' /\
  parse_version "2" = Ok v /\ allows s v = true /\ allows s' v = false.
Proof. do 3 eexists. repeat split. Qed.
Print Assumptions C14_union_refuted.
(** ">=1.0, <2.0a1" is printed "~=1.0" *)
Theorem C14_compat_refuted : exists s s' v, parses ">=1.0, <2.0a1" s /\ spec_str s = lit "~=1.0" /\ parses (spec_str s) s' /\
  parse_version "2.0b1" = Ok v /\ allows s v = false /\ allows s' v = true.
Proof. do 3 eexists. repeat split. Qed.
Print Assumptions C14_compat_refuted.
