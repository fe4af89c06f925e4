From Coq Require Import String Ascii List Bool NArith Arith.
From Verif Require Import Base BaseFacts ActivateModel.
Import ListNotations.
Open Scope string_scope.
Open Scope nat_scope.
Open Scope list_scope.
Open Scope bool_scope.

(** a command keeps PATH and VIRTUAL_ENV, and duplicates no key *)
Definition keeps (f : env -> env) : Prop :=
  forall e, NoDup (map fst e) -> NoDup (map fst (f e)) /\ dict_get PATH (f e) = dict_get PATH e /\ dict_get VENV (f e) = dict_get VENV e.
Fixpoint discreet (p : prog) : Prop := match p with Other f => keeps f | Fail _ => True | Seq a b => discreet a /\ discreet b | InEnv _ _ p | InZoo _ p => discreet p end.
Fixpoint no_zoo (p : prog) : Prop := match p with Seq a b => no_zoo a /\ no_zoo b | InEnv _ _ p => no_zoo p | InZoo _ _ => False | _ => True end.

Lemma set_nodup : forall (k v : str) (e : env), NoDup (map fst e) -> NoDup (map fst (dict_set k v e)).
Proof.
  intros k v e. induction e as [|[q w] e IH]; intro N; cbn; [constructor; [intros []|constructor]|]. cbn in N. inversion N as [|? ? N1 N2]; subst. destruct (str_eqb k q) eqn:E; [exact N|]. cbn. constructor; [|auto].
  intro I. apply N1. clear -I E. induction e as [|[p u] e IH]; cbn in *; [destruct I as [I|[]]; subst; rewrite str_eqb_refl in E; discriminate|]. destruct (str_eqb k p); [exact I|]. cbn in I. destruct I as [I|I]; auto.
Qed.
Lemma del_nodup : forall (k : str) (e : env), NoDup (map fst e) -> NoDup (map fst (dict_del k e)).
Proof.
  intros k e. induction e as [|[q w] e IH]; intro N; [constructor|]. cbn in N. inversion N as [|? ? N1 N2]; subst. cbn. destruct (str_eqb k q) eqn:E; [exact N2|]. cbn. constructor; [|auto]. intro I. apply N1. clear -I. induction e as [|[p u] e IH]; cbn in *; [exact I|]. destruct (str_eqb k p); [right; exact I|]. cbn in I. destruct I as [I|I]; auto.
Qed.
Lemma path_venv : PATH <> VENV.
Proof. discriminate. Qed.
Lemma get_set : forall (k j v : str) (e : env), dict_get j (dict_set k v e) = if str_eqb j k then Some v else dict_get j e.
Proof.
  intros k j v e. destruct (str_eqb j k) eqn:E; [apply str_eqb_eq in E; subst; apply dict_get_set_same|]. apply dict_get_set_other. intro X. subst. rewrite str_eqb_refl in E. discriminate.
Qed.
Lemma restore_spec : forall k old e e', NoDup (map fst e) -> restore k old e = Ok e' -> NoDup (map fst e') /\ dict_get k e' = old /\ forall j, j <> k -> dict_get j e' = dict_get j e.
Proof.
  intros k old e e' N H. unfold restore in H. destruct old as [v|].
  - injection H as <-. split; [apply set_nodup; exact N|]. split; [apply dict_get_set_same|]. intros j NE. apply dict_get_set_other. congruence.
  - unfold del_key in H. destruct (dict_has k e); [|discriminate]. injection H as <-. split; [apply del_nodup; exact N|]. split; [apply dict_get_del_same; exact N|]. intros j NE. apply dict_get_del_other. congruence.
Qed.
Lemma restore_ok : forall k old e, (old = None -> dict_get k e <> None) -> exists e', restore k old e = Ok e'.
Proof.
  intros k old e H. unfold restore. destruct old as [v|]; [eauto|]. unfold del_key, dict_has. destruct (dict_get k e); [cbn; eauto|]. exfalso. apply H; reflexivity.
Qed.
(** whatever the body does, as long as it does not delete a variable that was not there before *)
Lemma activate_spec : forall scripts home (b : body) (e e2 : env) x, NoDup (map fst e) ->
  b (dict_set VENV home (dict_set PATH (extended scripts (dict_get PATH e)) e)) = (e2, x) ->
  NoDup (map fst e2) -> (dict_get PATH e = None -> dict_get PATH e2 <> None) -> (dict_get VENV e = None -> dict_get VENV e2 <> None) ->
  exists e', activate scripts home b e = (e', x) /\ NoDup (map fst e') /\ dict_get PATH e' = dict_get PATH e /\ dict_get VENV e' = dict_get VENV e /\
  forall k, k <> PATH -> k <> VENV -> dict_get k e' = dict_get k e2.
Proof.
  intros scripts home b e e2 x N B N2 HP HV. unfold activate. cbv zeta. rewrite B. destruct (restore_ok PATH (dict_get PATH e) e2 HP) as (e3 & R1). rewrite R1. destruct (restore_spec _ _ _ _ N2 R1) as (N3 & G1 & G2).
  destruct (restore_ok VENV (dict_get VENV e) e3) as (e4 & R2); [intro X; rewrite (G2 VENV (not_eq_sym path_venv)); exact (HV X)|]. rewrite R2. destruct (restore_spec _ _ _ _ N3 R2) as (N4 & G3 & G4).
  exists e4. split; [reflexivity|]. split; [exact N4|]. split; [rewrite (G4 PATH path_venv); exact G1|]. split; [exact G3|]. intros k K1 K2. rewrite (G4 k K2). exact (G2 k K1).
Qed.
Lemma zoo_spec : forall bin (b : body) (e e2 : env) x, NoDup (map fst e) -> dict_get PATH e <> Some [] ->
  b (dict_set PATH (extended bin (dict_get PATH e)) e) = (e2, x) ->
  NoDup (map fst e2) -> (dict_get PATH e = None -> dict_get PATH e2 <> None) ->
  exists e', activate_zoo bin b e = (e', x) /\ NoDup (map fst e') /\ dict_get PATH e' = dict_get PATH e /\ forall k, k <> PATH -> dict_get k e' = dict_get k e2.
Proof.
  intros bin b e e2 x N NE B N2 HP. unfold activate_zoo. cbv zeta. rewrite B. destruct (dict_get PATH e) as [[|c r]|] eqn:E.
  - exfalso; apply NE; first [reflexivity|exact E].
  - eexists. split; [reflexivity|]. split; [apply set_nodup; exact N2|]. split; [apply dict_get_set_same|]. intros k K. apply dict_get_set_other. congruence.
  - destruct (restore_ok PATH None e2 HP) as (e3 & R). cbn [restore] in R. rewrite R. destruct (restore_spec PATH None e2 e3 N2 R) as (N3 & G1 & G2). exists e3. auto.
Qed.
Lemma new_path_nonempty : forall scripts (o : option str), scripts <> [] -> extended scripts o <> [].
Proof. intros scripts o H. unfold extended. destruct o as [[|c r]|]; [exact H| |exact H]. intro X. apply app_eq_nil in X. destruct X as [X _]. exact (H X). Qed.
(** the directories that are put on the path have names *)
Fixpoint named (p : prog) : Prop := match p with Seq a b => named a /\ named b | InEnv s _ p => s <> [] /\ named p | InZoo s p => s <> [] /\ named p | _ => True end.
Lemma exec_keeps : forall p, discreet p -> named p -> forall (e : env), NoDup (map fst e) -> (no_zoo p \/ dict_get PATH e <> Some []) ->
  NoDup (map fst (fst (exec p e))) /\ dict_get PATH (fst (exec p e)) = dict_get PATH e /\ dict_get VENV (fst (exec p e)) = dict_get VENV e.
Proof.
  intros p. induction p as [f|x|a IHa b IHb|s h p IH|s p IH]; intros D M e N Z.
  - exact (D e N).
  - cbn. auto.
  - cbn [exec]. destruct D as [Da Db], M as [Ma Mb]. assert (Z1 : no_zoo a \/ dict_get PATH e <> Some []) by (destruct Z as [[Z _]|Z]; auto). destruct (IHa Da Ma e N Z1) as (A & B & C). destruct (exec a e) as [e1 [x|]] eqn:E; cbn [fst] in *; [auto|].
    assert (Z2 : no_zoo b \/ dict_get PATH e1 <> Some []) by (destruct Z as [[_ Z]|Z]; [auto|right; congruence]). destruct (IHb Db Mb e1 A Z2) as (A2 & B2 & C2). split; [exact A2|]. split; congruence.
  - cbn [exec]. destruct M as [M1 M2]. set (e1 := dict_set VENV h (dict_set PATH (extended s (dict_get PATH e)) e)).
    assert (N1 : NoDup (map fst e1)) by (apply set_nodup, set_nodup; exact N).
    assert (P1 : exists w, dict_get PATH e1 = Some w /\ w <> []). { unfold e1. rewrite get_set. replace (str_eqb PATH VENV) with false by reflexivity. rewrite dict_get_set_same. eexists. split; [reflexivity|]. apply new_path_nonempty. exact M1. }
    destruct P1 as (w & P1 & P2). destruct (IH D M2 e1 N1) as (A & B & C); [right; congruence|]. destruct (exec p e1) as [e2 x] eqn:E. cbn [fst] in *.
    destruct (activate_spec s h (exec p) e e2 x N E A) as (e' & F & G1 & G2 & G3 & _); [congruence|intros _; rewrite C; unfold e1; rewrite dict_get_set_same; discriminate|]. rewrite F. cbn [fst]. auto.
  - cbn [exec]. destruct M as [M1 M2]. destruct Z as [[]|Z]. set (e1 := dict_set PATH (extended s (dict_get PATH e)) e).
    assert (N1 : NoDup (map fst e1)) by (apply set_nodup; exact N). assert (P1 : exists w, dict_get PATH e1 = Some w /\ w <> []). { unfold e1. rewrite dict_get_set_same. eexists. split; [reflexivity|]. apply new_path_nonempty. exact M1. }
    destruct P1 as (w & P1 & P2). destruct (IH D M2 e1 N1) as (A & B & C); [right; congruence|]. destruct (exec p e1) as [e2 x] eqn:E. cbn [fst] in *.
    destruct (zoo_spec s (exec p) e e2 x N Z E A) as (e' & F & G1 & G2 & G3); [congruence|]. rewrite F. cbn [fst]. split; [exact G1|]. split; [exact G2|]. rewrite (G3 VENV (not_eq_sym path_venv)), C. unfold e1. apply dict_get_set_other. discriminate.
Qed.
