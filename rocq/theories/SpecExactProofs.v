(** Intersections of "==" on versions of every kind, local labels included. *)
From Coq Require Import String Ascii List Bool NArith Arith Lia.
From Verif Require Import Base BaseFacts OrderFacts VersionModel VersionSpec VersionProofs
  SpecifierModel SpecifierSpec SpecRange SpecifierProofs.
Import ListNotations.
Open Scope string_scope.
Open Scope nat_scope.
Open Scope list_scope.
Open Scope bool_scope.

Lemma eqb_local : forall a b, version_eqb a b = true -> is_local a = is_local b.
Proof.
  intros [?|?|a] [?|?|b] H; try discriminate H; try reflexivity. cbn [version_eqb] in H. rewrite sv_eqb_key in H.
  apply andb_true_iff in H. destruct H as [_ H]. cbn. destruct (local_label a), (local_label b); try discriminate H; reflexivity.
Qed.
Lemma eqb_without : forall a b, version_eqb a b = true -> version_eqb (without_local a) (without_local b) = true.
Proof.
  intros [?|?|a] [?|?|b] H; try discriminate H; try exact H. cbn [version_eqb without_local] in *. rewrite sv_eqb_key in *.
  apply andb_true_iff in H. destruct H as [H _]. apply andb_true_iff. revert H. unfold sv_without_local.
  destruct a as [r e p q d [l|]], b as [r' e' p' q' d' [l'|]]; intro H; (split; [exact H|reflexivity]).
Qed.
Lemma not_local_without : forall a, is_local a = false -> without_local a = a.
Proof. intros [?|?|[r e p q d [l|]]] H; cbn in H; try discriminate H; reflexivity. Qed.

Lemma exact_intersect : forall v w, exists r, intersect_with (Match v true) (Match w true) = Ok r /\
  forall x, allows r x = allows (Match v true) x && allows (Match w true) x.
Proof.
  intros v w. unfold intersect_with.
  replace (intersect_fuel (Match v true) (Match w true)) with 16 by reflexivity. cbn [intersect].
  cbn [spec_eqb Bool.eqb andb]. destruct (version_eqb v w) eqn:E.
  - exists (Match v true). split; [reflexivity|]. intro x. cbn [allows]. unfold match_allows.
    rewrite (eqb_local _ _ E). set (y := if is_local w then x else without_local x).
    destruct (version_eqb v y) eqn:A, (version_eqb w y) eqn:B; try reflexivity.
    rewrite version_eqb_sym in E. rewrite (version_eqb_trans _ _ _ E A) in B. discriminate.
  - destruct (is_local v) eqn:Lv, (is_local w) eqn:Lw; cbn [Bool.eqb negb].
    + rewrite E. exists RestrictAll. split; [reflexivity|]. intro x. cbn [allows]. unfold match_allows. rewrite Lv, Lw.
      destruct (version_eqb v x) eqn:A, (version_eqb w x) eqn:B; try reflexivity.
      rewrite version_eqb_sym in B. rewrite (version_eqb_trans _ _ _ A B) in E. discriminate.
    + destruct (version_eqb (without_local v) (without_local w)) eqn:F.
      * exists (Match v true). split; [reflexivity|]. intro x. cbn [allows]. unfold match_allows. rewrite Lv, Lw.
        destruct (version_eqb v x) eqn:A; [|reflexivity]. cbn [andb]. symmetry. apply eqb_without in A.
        rewrite (not_local_without w Lw) in F. rewrite version_eqb_sym in F. exact (version_eqb_trans _ _ _ F A).
      * exists RestrictAll. split; [reflexivity|]. intro x. cbn [allows]. unfold match_allows. rewrite Lv, Lw.
        destruct (version_eqb v x) eqn:A; [|reflexivity]. cbn [andb]. apply eqb_without in A.
        destruct (version_eqb w (without_local x)) eqn:B; [|reflexivity]. rewrite version_eqb_sym in B.
        rewrite (not_local_without w Lw), (version_eqb_trans _ _ _ A B) in F. discriminate.
    + destruct (version_eqb (without_local v) (without_local w)) eqn:F.
      * exists (Match w true). split; [reflexivity|]. intro x. cbn [allows]. unfold match_allows. rewrite Lv, Lw.
        destruct (version_eqb w x) eqn:A; [|rewrite andb_false_r; reflexivity]. rewrite andb_true_r. symmetry. apply eqb_without in A.
        rewrite (not_local_without v Lv) in F. exact (version_eqb_trans _ _ _ F A).
      * exists RestrictAll. split; [reflexivity|]. intro x. cbn [allows]. unfold match_allows. rewrite Lv, Lw.
        destruct (version_eqb w x) eqn:A; [|rewrite andb_false_r; reflexivity]. apply eqb_without in A.
        destruct (version_eqb v (without_local x)) eqn:B; [|reflexivity]. rewrite version_eqb_sym in A.
        rewrite (not_local_without v Lv), (version_eqb_trans _ _ _ B A) in F. discriminate.
    + rewrite E. exists RestrictAll. split; [reflexivity|]. intro x. cbn [allows]. unfold match_allows. rewrite Lv, Lw.
      destruct (version_eqb v (without_local x)) eqn:A, (version_eqb w (without_local x)) eqn:B; try reflexivity.
      rewrite version_eqb_sym in B. rewrite (version_eqb_trans _ _ _ A B) in E. discriminate.
Qed.

Lemma named_intersect : forall bl sp n, exists r, intersect_with (Hetro bl sp) (Match (VNamed n) true) = Ok r /\
  forall x, allows r x = allows (Hetro bl sp) x && allows (Match (VNamed n) true) x.
Proof.
  intros bl sp n. unfold intersect_with.
  assert (exists f, intersect_fuel (Hetro bl sp) (Match (VNamed n) true) = S f) as [f ->].
  { unfold intersect_fuel. exists (4 * (spec_size (Hetro bl sp) + spec_size (Match (VNamed n) true)) + 7). lia. }
  cbn [intersect is_std andb].
  assert (X : forall x, allows (Match (VNamed n) true) x = true -> x = VNamed n).
  { intros [?|m|?] H; cbn in H; try discriminate H. apply str_eqb_eq in H. subst. reflexivity. }
  destruct (set_mem (VNamed n) bl) eqn:M.
  - exists RestrictAll. split; [reflexivity|]. intro x. destruct (allows (Match (VNamed n) true) x) eqn:A; [|rewrite andb_false_r; reflexivity].
    rewrite (X x A). cbn [allows]. rewrite M. reflexivity.
  - exists (Match (VNamed n) true). split; [reflexivity|]. intro x.
    destruct (allows (Match (VNamed n) true) x) eqn:A; [|rewrite andb_false_r; reflexivity].
    rewrite (X x A). cbn [allows]. rewrite M. reflexivity.
Qed.
