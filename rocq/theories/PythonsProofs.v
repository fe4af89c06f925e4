(** Facts about PythonsModel *)
From Coq Require Import List Bool NArith Ascii String Arith Lia Permutation.
From Verif Require Import Base BaseFacts VersionModel VersionSpec VersionProofs VersionParse SpecifierModel SpecParse SpecParseSpec SpecParseProofs PlanProofs IndexModel IndexProofs InstallProofs MonitorModel PythonsModel.
Import ListNotations.
Open Scope string_scope. Open Scope nat_scope. Open Scope list_scope. Open Scope bool_scope.

Section Locate.
  Variables (run_python : str -> outcome) (resolve : str -> str).
  (** an interpreter names its executable and its version *)
  Definition says (p x : str) (ver : version) : Prop :=
    exists out v e, run_python p = Printed out /\ RecordFileModel.split_lines (strip_line out) = [v; e] /\ x = resolve (strip_line e) /\ parse_version (strip_line v) = Ok ver.
  Definition regular (p : str) : Prop := run_python p = FailedRun \/ exists x ver, says p x ver.
  Lemma says_eq : forall p x v x' v', says p x v -> says p x' v' -> x = x' /\ v = v'.
  Proof. intros p x v x' v' (o & a & b & R & S & X & V) (o' & a' & b' & R' & S' & X' & V'). rewrite R in R'. injection R' as <-. rewrite S in S'. injection S' as <- <-. subst. rewrite V in V'. injection V' as <-. auto. Qed.
  Lemma locate_spec : forall order known acc, Forall regular order -> (forall x, In x known <-> In x (map p_path acc)) -> NoDup (map p_path acc) ->
    exists l, locate run_python resolve order known acc = Ok l /\ NoDup (map p_path l) /\ incl acc l /\ (forall i, In i l -> In i acc \/ exists p, In p order /\ says p (p_path i) (p_version i)) /\
      (forall p x ver, In p order -> says p x ver -> In x (map p_path l)).
  Proof.
    induction order as [|p order IH]; intros known acc R K N.
    - exists acc. cbn. split; [reflexivity|]. split; [exact N|]. split; [intros x I; exact I|]. split; [auto|intros p x v []].
    - inversion R as [|? ? RP RO]; subst. cbn [locate]. destruct RP as [F|(x & ver & S)].
      + rewrite F. destruct (IH known acc RO K N) as (l & E & ND & I & A & B). exists l. split; [exact E|]. split; [exact ND|]. split; [exact I|]. split.
        * intros i J. destruct (A i J) as [Q|(q & Q & T)]; [left; exact Q|right; exists q; split; [right; exact Q|exact T]].
        * intros q y w [<-|Q] T; [|apply (B q y w Q T)]. destruct T as (o & a & b & RR & _). congruence.
      + assert (S' := S). destruct S' as (o & a & b & RR & SP & X & PV). rewrite RR, SP. rewrite <- X. destruct (str_mem x known) eqn:M.
        * destruct (IH known acc RO K N) as (l & E & ND & I & A & B). exists l. split; [exact E|]. split; [exact ND|]. split; [exact I|]. split.
          -- intros i J. destruct (A i J) as [Q|(q & Q & T)]; [left; exact Q|right; exists q; split; [right; exact Q|exact T]].
          -- intros q y w [<-|Q] T; [|apply (B q y w Q T)]. destruct (says_eq _ _ _ _ _ S T) as [<- _]. apply str_mem_iff in M. apply K in M. apply in_map_iff in M as (i & <- & J). apply in_map. apply I, J.
        * rewrite PV. cbn [bind]. assert (NI : ~ In x (map p_path acc)). { intros J. apply K in J. apply str_mem_iff in J. congruence. }
          destruct (IH (x :: known) (acc ++ [Interp x ver]) RO) as (l & E & ND & I & A & B).
          -- intros y. rewrite map_app, in_app_iff. cbn. rewrite K. tauto.
          -- rewrite map_app. cbn. apply Permutation_NoDup with (l := x :: map p_path acc); [rewrite Permutation_app_comm; reflexivity|constructor; assumption].
          -- exists l. split; [exact E|]. split; [exact ND|]. split; [intros i J; apply I, in_or_app; left; exact J|]. split.
             ++ intros i J. destruct (A i J) as [Q|(q & Q & T)]; [|right; exists q; split; [right; exact Q|exact T]]. apply in_app_or in Q as [Q|[<-|[]]]; [left; exact Q|]. right. exists p. split; [left; reflexivity|exact S].
             ++ intros q y w [<-|Q] T; [|apply (B q y w Q T)]. destruct (says_eq _ _ _ _ _ S T) as [<- _]. change x with (p_path (Interp x ver)). apply in_map. apply I, in_or_app. right. left. reflexivity.
  Qed.
End Locate.

(** the newest is the first *)
Lemma first_newest : forall (l : list interp) p r, ForallOrdPairs (not_before p_version) l -> l = p :: r -> forall q, In q l -> q = p \/ version_ltb (p_version p) (p_version q) = false.
Proof. intros l p r H -> q [<-|I]; [left; reflexivity|]. right. inversion H as [|? ? F _]; subst. rewrite Forall_forall in F. apply (F q I). Qed.

(** ** the compatible versions *)
Definition final (r : list N) : sv := SV r None None None None None.
Lemma final_in_minor : forall a b r, allows (Range (Some (final [a; b; 0%N])) (Some (final [a; (b + 1)%N; 0%N])) true false) (VStd (final r)) = true -> nth 0 r 0%N = a /\ nth 1 r 0%N = b.
Proof.
  intros a b r A. cbn [allows] in A. unfold range_allows in A. cbn [version_eqb version_ltb andb is_post_release post_release final is_some] in A.
  assert (L : sv_ltb (final r) (final [a; b; 0%N]) = false).
  { destruct (sv_ltb (final r) (final [a; b; 0%N])) eqn:X; [|reflexivity]. destruct (sv_eqb (final [a; b; 0%N]) (final r)) eqn:Q.
    - assert (Q' : sv_eqb (final r) (final [a; b; 0%N]) = true) by (rewrite <- Q; exact (version_eqb_sym (VStd (final r)) (VStd (final [a; b; 0%N])))). rewrite (sv_eq_not_lt _ _ Q') in X. discriminate.
    - cbn [orb] in A. unfold final in *. apply andb_true_iff in A as [A _]. rewrite (sv_ltb_asym _ _ A) in X. discriminate. }
  assert (U : sv_ltb (final [a; (b + 1)%N; 0%N]) (final r) = false /\ sv_eqb (final [a; (b + 1)%N; 0%N]) (final r) = false).
  { assert (V : sv_ltb (final r) (final [a; (b + 1)%N; 0%N]) = true).
    { destruct (sv_eqb (final [a; b; 0%N]) (final r)) eqn:Q.
      - assert (B : sv_ltb (final [a; b; 0%N]) (final [a; (b + 1)%N; 0%N]) = true). { apply sv_ltb_release; [reflexivity|]. exists 1. split; [cbn; lia|]. intros j J. assert (j = 0) by lia. subst. reflexivity. }
        assert (X : sv_ltb (final [a; b; 0%N]) (final [a; (b + 1)%N; 0%N]) = sv_ltb (final r) (final [a; (b + 1)%N; 0%N])) by exact (version_ltb_congr_l (VStd (final [a; b; 0%N])) (VStd (final r)) (VStd (final [a; (b + 1)%N; 0%N])) I Q). congruence.
      - cbn [orb] in A. unfold final in *. apply andb_true_iff in A as [_ A]. exact A. }
    split; [apply sv_ltb_asym, V|]. destruct (sv_eqb (final [a; (b + 1)%N; 0%N]) (final r)) eqn:Q; [|reflexivity].
    assert (Q' : sv_eqb (final r) (final [a; (b + 1)%N; 0%N]) = true) by (rewrite <- Q; exact (version_eqb_sym (VStd (final r)) (VStd (final [a; (b + 1)%N; 0%N])))). rewrite (sv_eq_not_lt _ _ Q') in V. discriminate. }
  destruct U as [U E].
  assert (L' : ~ behind (final r) (final [a; b; 0%N])) by (intro X; apply behind_ltb in X; congruence).
  assert (U' : ~ behind (final [a; (b + 1)%N; 0%N]) (final r)) by (intro X; apply behind_ltb in X; congruence).
  unfold behind, ep in L', U'. cbn [final epoch release nth] in L', U'.
  assert (M : ~ (nth 0 r 0%N = a /\ nth 1 r 0%N = (b + 1)%N)).
  { intros [M0 M1]. set (m := [a; (b + 1)%N; 0%N]) in *. assert (Z : forall i, 2 <= i -> nth i m 0%N = 0%N) by (intros [|[|[|i]]] Hi; try lia; [reflexivity|destruct i; reflexivity]).
    destruct (rel_ltb m r) eqn:R1.
    - apply rel_ltb_nth in R1. assert (X : sv_ltb (final m) (final r) = true) by (apply sv_ltb_release; [reflexivity|exact R1]). congruence.
    - destruct (rel_ltb r m) eqn:R2.
      + apply rel_ltb_nth in R2 as (i & I & _). destruct i as [|[|i]]; [cbn in I; lia|cbn in I; lia|]. rewrite Z in I by lia. lia.
      + pose proof (total_rel m r R1 R2) as R3. assert (X : sv_eqb (final m) (final r) = true); [|congruence]. apply sv_eqb_spec. split; [|reflexivity]. split; [reflexivity|]. split; [apply rel_eqb_nth, R3|]. repeat split. }
  lia.
Qed.
