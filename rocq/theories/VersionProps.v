(** Properties C01-C06 (versions). *)
From Coq Require Import String Ascii List Bool NArith Arith.
From Verif Require Import Base VersionModel VersionSpec VersionParse
  VersionParserProofs VersionProofs VersionPep440 VersionParseProofs VersionSpellProofs.
Import ListNotations.
Open Scope string_scope.
Open Scope nat_scope.
Open Scope list_scope.

(** C01 *)
Definition exactly_one_order (a b : version) : Prop :=
  (version_ltb a b = true /\ version_eqb a b = false /\ version_ltb b a = false) \/
  (version_ltb a b = false /\ version_eqb a b = true /\ version_ltb b a = false) \/
  (version_ltb a b = false /\ version_eqb a b = false /\ version_ltb b a = true).

Theorem C01_irreflexive : forall v, version_ltb v v = false.
Proof. exact version_ltb_irrefl. Qed.
Print Assumptions C01_irreflexive.

Theorem C01_transitive : forall a b c,
  version_ltb a b = true -> version_ltb b c = true -> version_ltb a c = true.
Proof. exact version_ltb_trans. Qed.
Print Assumptions C01_transitive.

(** two standard versions are incomparable exactly when they are equal or their labels clash *)
Theorem C01_incomparable_iff : forall a b : sv,
  (sv_ltb a b = false /\ sv_ltb b a = false) <->
  (same_version a b \/ (same_public a b /\ (numeric_clash (segs a) (segs b) \/ empty_label_clash a b))).
Proof. exact sv_incomparable. Qed.
Print Assumptions C01_incomparable_iff.

(** missing for the full claim: clashing local labels, url versions spelled with different protocols *)
Theorem C01_trichotomy_partial : forall a b,
  (match a, b with
   | VUrl u1 p1 s1, VUrl u2 p2 s2 => p1 = p2 /\ (u1 = u2 -> s1 = s2)
   | VStd x, VStd y => ~ numeric_clash (segs x) (segs y) /\ ~ empty_label_clash x y
   | _, _ => True end) ->
  exactly_one_order a b.
Proof. exact version_trichotomy. Qed.
Print Assumptions C01_trichotomy_partial.

Definition sv_plain (r : list N) : sv := SV r None None None None None.
Example C01_trichotomy_example :
  let x := SV [1; 2]%N (Some 1%N) (Some (lit "rc", 1%N)) (Some 2%N) None (Some (lit "ab.1")) in
  let y := SV [1; 2; 0]%N (Some 1%N) (Some (lit "rc", 1%N)) (Some 2%N) (Some 3%N) None in
  (~ numeric_clash (segs x) (segs y) /\ ~ empty_label_clash x y) /\ version_ltb (VStd y) (VStd x) = true.
Proof.
  simpl. split; [|reflexivity]. split.
  - intros (p & m & o & r1 & r2 & H1 & H2 & _ & Hm & Ho). destruct p as [|q p].
    + injection H2 as <- <-. discriminate.
    + destruct p; discriminate.
  - intros [[H _]|[H _]]; discriminate.
Qed.

(** the versions parsed from "1.0+1" and "1.0+2" are different and neither is smaller *)
Theorem C01_total_refuted : exists a b,
  parse_version "1.0+1" = Ok a /\ parse_version "1.0+2" = Ok b /\
  version_ltb a b = false /\ version_ltb b a = false /\ version_eqb a b = false.
Proof. do 2 eexists. repeat split. Qed.
Print Assumptions C01_total_refuted.

(** two equal url versions one of which is smaller than the other *)
Theorem C01_url_refuted : exists a b,
  parse_version "git+git://host/x" = Ok a /\ parse_version "git://host/x" = Ok b /\
  version_eqb a b = true /\ version_ltb a b = true.
Proof. do 2 eexists. repeat split. Qed.
Print Assumptions C01_url_refuted.

(** C02 *)
Theorem C02_equality_meaning : forall a b : sv, sv_eqb a b = true <-> same_version a b.
Proof. exact sv_eqb_spec. Qed.
Print Assumptions C02_equality_meaning.
Example C02_equality_example : same_version (sv_plain [1]%N) (SV [1; 0; 0]%N (Some 0%N) None None None None)
  /\ ~ same_version (sv_plain [1]%N) (SV [1]%N None None (Some 0%N) None None).
Proof.
  split.
  - split; [|reflexivity]. split; [reflexivity|]. split; [|repeat split].
    intros [|[|[|[|i]]]]; reflexivity.
  - intros [(_ & _ & _ & H & _) _]. discriminate.
Qed.

Theorem C02_equivalence :
  (forall a, version_eqb a a = true) /\
  (forall a b, version_eqb a b = version_eqb b a) /\
  (forall a b c, version_eqb a b = true -> version_eqb b c = true -> version_eqb a c = true).
Proof. exact (conj version_eqb_refl (conj version_eqb_sym version_eqb_trans)). Qed.
Print Assumptions C02_equivalence.

(** missing for the full claim: url versions (see C01_url_refuted) *)
Theorem C02_congruence_partial : forall a b c, not_url a -> version_eqb a b = true ->
  version_ltb a c = version_ltb b c /\ version_ltb c a = version_ltb c b.
Proof. exact (fun a b c n e => conj (version_ltb_congr_l a b c n e) (version_ltb_congr_r a b c n e)). Qed.
Print Assumptions C02_congruence_partial.
Example C02_congruence_example : not_url (VStd (sv_plain [1; 0]%N)) /\
  version_eqb (VStd (sv_plain [1; 0]%N)) (VStd (sv_plain [1]%N)) = true.
Proof. split; [exact I|reflexivity]. Qed.

(** equal versions hash alike exactly when they spell the epoch alike *)
Theorem C02_hash_iff : forall a b : sv, release a <> [] -> release b <> [] -> same_version a b ->
  (sv_hash_key a = sv_hash_key b <-> epoch a = epoch b).
Proof. exact hash_eq_iff_epoch. Qed.
Print Assumptions C02_hash_iff.

Theorem C02_hash_refuted : exists a b,
  parse_version "0!1.0" = Ok a /\ parse_version "1.0" = Ok b /\
  version_eqb a b = true /\ version_hash a <> version_hash b.
Proof. do 2 eexists. repeat split. discriminate. Qed.
Print Assumptions C02_hash_refuted.
Theorem C02_url_hash_refuted : exists a b,
  parse_version "git+git://host/x" = Ok a /\ parse_version "git://host/x" = Ok b /\
  version_eqb a b = true /\ version_hash a <> version_hash b.
Proof. do 2 eexists. repeat split. discriminate. Qed.
Print Assumptions C02_url_hash_refuted.

(** C03 *)
(** missing for the full claim: dev releases of pre/post releases, clashing local labels *)
Theorem C03_pep440_partial : forall a b, dev_alone a -> dev_alone b -> label_ok a -> label_ok b ->
  ~ numeric_clash (segs a) (segs b) -> (sv_ltb a b = true <-> pep440_lt a b).
Proof. exact pep_agree. Qed.
Print Assumptions C03_pep440_partial.
Example C03_pep440_example :
  let a := SV [1; 2]%N None (Some (lit "rc", 1%N)) None None (Some (lit "ab.1")) in
  let b := SV [1; 2]%N None (Some (lit "rc", 1%N)) None None (Some (lit "ab.c")) in
  dev_alone a /\ dev_alone b /\ label_ok a /\ label_ok b /\ ~ numeric_clash (segs a) (segs b) /\ sv_ltb b a = true.
Proof.
  cbv zeta.
  split; [intro N; exfalso; apply N; reflexivity|].
  split; [intro N; exfalso; apply N; reflexivity|].
  split; [intros l E; injection E as <-; simpl; intros [E|[E|[]]]; discriminate|].
  split; [intros l E; injection E as <-; simpl; intros [E|[E|[]]]; discriminate|].
  split; [|reflexivity].
  - intros (p & m & o & r1 & r2 & H1 & H2 & Hn & Hm & Ho). destruct p as [|q [|q' p]]; simpl in *.
    + injection H1 as <- <-. discriminate.
    + injection H2 as <- <- <-. discriminate.
    + destruct p; discriminate.
Qed.

Theorem C03_release_decides : forall a b, (ep a <> ep b \/ exists i, rel_at a i <> rel_at b i) ->
  (sv_ltb a b = true <-> pep440_lt a b).
Proof. exact release_dominates. Qed.
Print Assumptions C03_release_decides.
Example C03_release_example : ep (sv_plain [1; 10]%N) <> ep (sv_plain [1; 9]%N) \/ exists i, rel_at (sv_plain [1; 10]%N) i <> rel_at (sv_plain [1; 9]%N) i.
Proof. right. exists 1. discriminate. Qed.

(** 1.0.post1.dev1 is after 1.0 in PEP 440 but before it here *)
Theorem C03_post_dev_refuted : exists a b,
  parse_version "1.0.post1.dev1" = Ok (VStd a) /\ parse_version "1.0" = Ok (VStd b) /\
  sv_ltb a b = true /\ ~ pep440_lt a b /\ pep440_lt b a.
Proof.
  do 2 eexists. repeat split.
  - intros [H|[_ [[i [H _]]|[_ [H|[_ [H|[H _]]]]]]]]; try discriminate; try contradiction.
    destruct i as [|[|[|i]]]; discriminate.
  - right. split; [reflexivity|]. right. split; [reflexivity|]. right. split; [reflexivity|]. left. exact I.
Qed.
Print Assumptions C03_post_dev_refuted.
(** 1.0b1.dev1 is after 1.0a1 in PEP 440 but before it here *)
Theorem C03_pre_dev_refuted : exists a b,
  parse_version "1.0b1.dev1" = Ok (VStd a) /\ parse_version "1.0a1" = Ok (VStd b) /\
  sv_ltb a b = true /\ pep440_lt b a.
Proof.
  do 2 eexists. repeat split.
  right. split; [reflexivity|]. right. split; [reflexivity|]. left. left. reflexivity.
Qed.
Print Assumptions C03_pre_dev_refuted.
(** 1.0+2 is before 1.0+10 in PEP 440, here they are not ordered *)
Theorem C03_local_refuted : exists a b,
  parse_version "1.0+2" = Ok (VStd a) /\ parse_version "1.0+10" = Ok (VStd b) /\
  sv_ltb a b = false /\ pep440_lt a b.
Proof.
  do 2 eexists. repeat split.
  right. split; [reflexivity|]. right. split; [reflexivity|]. right. split; [reflexivity|].
  right. split; [reflexivity|]. right. split; [reflexivity|]. left. reflexivity.
Qed.
Print Assumptions C03_local_refuted.

(** C04 *)
Theorem C04_roundtrip : forall v : sv, wf_sv v -> label_wf v -> parse_version (sv_str v) = Ok (VStd v).
Proof. exact (fun v w l => parse_sv_str v (sv_str v) w l (lower_vchar _ (sv_str_vchar v w l))). Qed.
Print Assumptions C04_roundtrip.
Example C04_roundtrip_example :
  let v := SV [1; 0; 20]%N (Some 3%N) (Some (lit "rc", 1%N)) (Some 2%N) (Some 7%N) (Some (lit "ab.1")) in
  wf_sv v /\ label_wf v /\ sv_str v = lit "3!1.0.20rc1.post2.dev7+ab.1".
Proof.
  simpl. repeat split; try discriminate.
  - intros t n H. injection H as <- _. simpl. auto.
  - intros l H. injection H as <-. reflexivity.
Qed.
(** the version is also found when more text follows, and the parser stops right after it *)
Theorem C04_roundtrip_in_context : forall v b r, wf_sv v -> label_wf v -> stops r ->
  exists b', VersionParserModel.read_version (ParserModel.PS b (sv_str v ++ r)) = Ok (v, ParserModel.PS b' (left_over v r)).
Proof. exact read_version_str. Qed.
Print Assumptions C04_roundtrip_in_context.
Example C04_context_example : stops (lit ", <2") /\ left_over (sv_plain [1]%N) (lit " , <2") = lit ", <2".
Proof. split; reflexivity. Qed.

(** C05 *)
Theorem C05_total : forall t, exists v, parse_version t = Ok v.
Proof. exact parse_version_total. Qed.
Print Assumptions C05_total.
(** spelling: letter case does not matter.  Other spellings: below. *)
Theorem C05_case_partial : forall v t, wf_sv v -> label_wf v -> lower t = sv_str v -> parse_version t = Ok (VStd v).
Proof. exact parse_sv_str. Qed.
Print Assumptions C05_case_partial.
Example C05_case_example : lower (lit "1.0RC1+ABC") = sv_str (SV [1; 0]%N None (Some (lit "rc", 1%N)) None None (Some (lit "abc"))).
Proof. reflexivity. Qed.
(** spelling: the letter v, the separators and the short names of the parts do not matter *)
Theorem C05_pre_spelling_partial : forall t v n ns dot tag norm sep k,
  In v [[]; lit "v"] -> In dot [[]; lit "."] -> In sep [[]; lit "."; lit "-"; lit "_"] ->
  In (tag, norm) [(lit "a", lit "a"); (lit "b", lit "b"); (lit "rc", lit "rc"); (lit "c", lit "rc")] ->
  lower t = v ++ join (lit ".") (map show_N (n :: ns)) ++ dot ++ tag ++ sep ++ show_N k ->
  parse_version t = Ok (VStd (SV (n :: ns) None (Some (norm, k)) None None None)).
Proof. intros t v n ns dot tag norm sep k V D S T E. eapply parse_tail; [exact V | apply pre_tail; eassumption | exact E]. Qed.
Theorem C05_post_spelling_partial : forall t v n ns sep w h k,
  In v [[]; lit "v"] -> In sep [[]; lit "."; lit "-"; lit "_"] -> In w [lit "post"; lit "r"] -> In h [[]; lit "-"] ->
  lower t = v ++ join (lit ".") (map show_N (n :: ns)) ++ sep ++ w ++ h ++ show_N k \/
  lower t = v ++ join (lit ".") (map show_N (n :: ns)) ++ lit "-" ++ show_N k ->
  parse_version t = Ok (VStd (SV (n :: ns) None None (Some k) None None)).
Proof.
  intros t v n ns sep w h k V S W H [E|E]; eapply parse_tail; [exact V | apply post_tail; eassumption | exact E | exact V | apply dash_tail | exact E].
Qed.
Theorem C05_dev_spelling_partial : forall t v n ns sep k,
  In v [[]; lit "v"] -> In sep [[]; lit "."; lit "-"; lit "_"] ->
  lower t = v ++ join (lit ".") (map show_N (n :: ns)) ++ sep ++ lit "dev" ++ show_N k ->
  parse_version t = Ok (VStd (SV (n :: ns) None None None (Some k) None)).
Proof. intros t v n ns sep k V S E. eapply parse_tail; [exact V | apply dev_tail; eassumption | exact E]. Qed.
Print Assumptions C05_pre_spelling_partial.
Print Assumptions C05_post_spelling_partial.
Print Assumptions C05_dev_spelling_partial.
Example C05_spelling_example :
  lower (lit "V1.2.C-3") = lit "v" ++ join (lit ".") (map show_N [1; 2]%N) ++ lit "." ++ lit "c" ++ lit "-" ++ show_N 3 /\
  lower (lit "1.2_Post-3") = [] ++ join (lit ".") (map show_N [1; 2]%N) ++ lit "_" ++ lit "post" ++ lit "-" ++ show_N 3 /\
  lower (lit "1.2DEV3") = [] ++ join (lit ".") (map show_N [1; 2]%N) ++ [] ++ lit "dev" ++ show_N 3.
Proof. repeat split. Qed.
(** but a separator before a pre-release part makes it disappear, or, worse, become a post-release *)
Theorem C05_separator_refuted : exists final candidate other,
  parse_version "1.0" = Ok final /\ parse_version "1.0rc1" = Ok candidate /\ parse_version "1.0-rc1" = Ok other /\
  version_ltb candidate final = true /\ version_ltb final other = true /\
  parse_version "1.0_a1" = Ok final /\ parse_version "1.0.rev2" = Ok other.
Proof. do 3 eexists. split; [vm_compute; reflexivity|]. split; [vm_compute; reflexivity|]. split; [vm_compute; reflexivity|]. vm_compute. repeat split. Qed.
Print Assumptions C05_separator_refuted.
Theorem C05_discards_text_refuted : exists v,
  parse_version "1.0" = Ok v /\ parse_version "1.0garbage" = Ok v /\ parse_version "1.0, <2" = Ok v.
Proof. eexists. repeat split. Qed.
Print Assumptions C05_discards_text_refuted.
Theorem C05_alpha_refuted : exists v,
  parse_version "1.0alpha1" = Ok v /\ parse_version "1.0alpha2" = Ok v /\ parse_version "1.0a0" = Ok v.
Proof. eexists. repeat split. Qed.
Print Assumptions C05_alpha_refuted.

(** C06 *)
Definition release_particles : list str := [lit "major"; lit "minor"; lit "patch"].
Lemma bump_forward_main : forall v p v', bump (VStd v) p = Ok v' ->
  In p release_particles \/ pre_release v <> None -> sv_ltb v v' = true.
Proof.
  intros v p v' H C. unfold bump in H. destruct (length (release v) =? 3) eqn:EL; [|discriminate]. simpl in H.
  destruct (bump_release v p) as [w|] eqn:EB.
  - injection H as <-. eapply bump_release_greater; eauto.
  - injection H as <-. apply Nat.eqb_eq in EL. destruct C as [C|C]; [|apply bump_pre_forward; auto].
    unfold bump_release in EB. destruct (release v) as [|a [|b [|c [|]]]]; try discriminate.
    destruct C as [<-|[<-|[<-|[]]]]; discriminate.
Qed.
Lemma bump_back_main : forall v p v', bump (VStd v) p = Ok v' -> ~ In p release_particles -> pre_release v = None ->
  sv_ltb v' v = true.
Proof.
  intros v p v' H C D. unfold bump in H. destruct (length (release v) =? 3) eqn:EL; [|discriminate]. simpl in H.
  destruct (bump_release v p) as [w|] eqn:EB.
  - exfalso. apply C. unfold bump_release in EB. destruct (release v) as [|a [|b [|c [|]]]]; try discriminate.
    simpl. destruct (str_eqb p (lit "major")) eqn:E1; [apply BaseFacts.str_eqb_eq in E1; auto|].
    destruct (str_eqb p (lit "minor")) eqn:E2; [apply BaseFacts.str_eqb_eq in E2; auto|].
    destruct (str_eqb p (lit "patch")) eqn:E3; [apply BaseFacts.str_eqb_eq in E3; auto|]. discriminate.
  - injection H as <-. apply bump_pre_backward. exact D.
Qed.
(** missing for the full claim: pre-release particles on a version that is not a pre-release *)
Theorem C06_forward_partial : forall v p v', bump (VStd v) p = Ok v' ->
  In p release_particles \/ pre_release v <> None -> sv_ltb v v' = true.
Proof. exact bump_forward_main. Qed.
Print Assumptions C06_forward_partial.
Example C06_forward_example : exists v', bump (VStd (SV [1; 2; 3]%N None (Some (lit "b", 4%N)) None None None)) "a" = Ok v'
  /\ v' = sv_plain [1; 2; 4]%N.
Proof. eexists. split; reflexivity. Qed.
(** ... on which every such bump goes backwards *)
Theorem C06_backward : forall v p v', bump (VStd v) p = Ok v' -> ~ In p release_particles -> pre_release v = None ->
  sv_ltb v' v = true.
Proof. exact bump_back_main. Qed.
Print Assumptions C06_backward.
Theorem C06_prerelease_refuted : exists v v', bump (VStd v) "rc" = Ok v' /\ sv_ltb v v' = false /\ sv_ltb v' v = true.
Proof. exists (sv_plain [1; 2; 3]%N). eexists. repeat split. Qed.
Print Assumptions C06_prerelease_refuted.
Theorem C06_unknown_particle_refuted : exists v v', bump (VStd v) "banana" = Ok v' /\ sv_str v' = lit "1.2.3banana0".
Proof. exists (sv_plain [1; 2; 3]%N). eexists. repeat split. Qed.
Print Assumptions C06_unknown_particle_refuted.
