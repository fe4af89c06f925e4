From Coq Require Import List Bool Arith Lia.
From Verif Require Import CachedModel.
Import ListNotations.
Open Scope nat_scope.
Open Scope list_scope.
Open Scope bool_scope.

Lemma set_nth_same : forall A (l : list A) n x y, nth_error l n = Some y -> nth_error (set_nth n x l) n = Some x.
Proof. intros A l. induction l as [|z l IH]; intros n x y H; destruct n; try discriminate; cbn; [reflexivity|]. exact (IH n x y H). Qed.
Lemma set_nth_other : forall A (l : list A) n m x, m <> n -> nth_error (set_nth n x l) m = nth_error l m.
Proof. intros A l. induction l as [|z l IH]; intros n m x H; [destruct n; reflexivity|]. destruct n, m; cbn; try reflexivity; [congruence|]. apply IH. congruence. Qed.

Definition waiting_ok (s : cstate) (t : nat) (p : pc) : Prop :=
  match p with
  | Read | Register | Failed => True
  | Acquire l _ => c_entry s = Some l
  | Test l _ => c_entry s = Some l /\ In (l, t) (c_held s)
  | Store l _ v => c_entry s = Some l /\ In (l, t) (c_held s) /\ c_computed s = [v]
  | _ => False
  end.
Definition cached_ok (v : value) (p : pc) : Prop := match p with Store _ _ _ => False | Done w => w = v | _ => True end.
Definition cinv (s : cstate) : Prop :=
  match c_attr s with
  | None => NoDup (map fst (c_held s)) /\ (forall t p, nth_error (c_pcs s) t = Some p -> waiting_ok s t p) /\
            (c_computed s = [] \/ exists t l o v, nth_error (c_pcs s) t = Some (Store l o v))
  | Some v => c_computed s = [v] /\ forall t p, nth_error (c_pcs s) t = Some p -> cached_ok v p
  end.
Lemma held_unique : forall (h : list (nat * nat)) l t u, NoDup (map fst h) -> In (l, t) h -> In (l, u) h -> t = u.
Proof.
  intros h. induction h as [|[k x] h IH]; intros l t u N A B; [contradiction|]. cbn in N. inversion N as [|? ? N1 N2]; subst.
  destruct A as [A|A], B as [B|B]; try congruence; [injection A as -> ->|injection B as -> ->|exact (IH l t u N2 A B)]; exfalso; apply N1; apply in_map_iff; eexists; (split; [|eassumption]); reflexivity.
Qed.
Lemma held_false : forall s l t, held s l = false -> ~ In (l, t) (c_held s).
Proof. intros s l t H I. unfold held in H. apply not_true_iff_false in H. apply H. apply existsb_exists. exists (l, t). split; [exact I|apply Nat.eqb_refl]. Qed.
Lemma filter_nodup_fst : forall (f : nat * nat -> bool) h, NoDup (map fst h) -> NoDup (map fst (filter f h)).
Proof.
  intros f h. induction h as [|e h IH]; intro N; [constructor|]. cbn in N. inversion N as [|? ? N1 N2]; subst. cbn. destruct (f e); [|auto]. cbn. constructor; [|auto]. intro I. apply N1. apply in_map_iff in I. destruct I as (x & E & I). apply filter_In in I. apply in_map_iff. exists x. split; [exact E|apply I].
Qed.
Lemma cstep_inv : forall s t v, cinv s -> cinv (cstep s (Step t v)).
Proof.
  intros s t v I. unfold cstep. destruct (nth_error (c_pcs s) t) as [p|] eqn:E; [|exact I]. unfold cinv in I. destruct (c_attr s) as [a|] eqn:EA.
  - destruct I as [C I]. assert (K : forall attr e n h q cs, attr = Some a -> cs = [a] -> cached_ok a q -> cinv (goto (CS attr e n h (c_pcs s) cs) t q)).
    { intros attr e n h q cs -> -> Q. unfold cinv. cbn. split; [reflexivity|]. intros u w H. destruct (Nat.eq_dec u t) as [->|NE]; [rewrite (set_nth_same _ _ _ _ _ E) in H; injection H as <-; exact Q|rewrite set_nth_other in H by exact NE; exact (I u w H)]. }
    assert (K0 : forall q, cached_ok a q -> cinv (goto s t q)) by (intros q Q; destruct s as [attr e n h pcs cs]; cbn in *; apply K; auto).
    assert (S0 : cinv s) by (unfold cinv; rewrite EA; auto).
    destruct p; try exact S0.
    + apply K0. reflexivity.
    + destruct (c_entry s); [apply K0; exact Logic.I|apply K; auto; exact Logic.I].
    + destruct (held s lock); [exact S0|]. apply K; auto. exact Logic.I.
    + apply K0. exact Logic.I.
    + exfalso. exact (I t _ E).
    + apply K; auto. destruct owner; exact Logic.I.
    + apply K; auto. exact Logic.I.
  - destruct I as (N & W & C). assert (S0 : cinv s) by (unfold cinv; rewrite EA; auto). pose proof (W t p E) as Wt.
    assert (OTH : forall q u w, u <> t -> nth_error (set_nth t q (c_pcs s)) u = Some w -> waiting_ok s u w) by (intros q u w NE H; rewrite set_nth_other in H by exact NE; exact (W u w H)).
    assert (CS' : (forall l o v, p <> Store l o v) -> forall q, c_computed s = [] \/ exists u l' o' v', nth_error (set_nth t q (c_pcs s)) u = Some (Store l' o' v')).
    { intros NS q. destruct C as [C|(u & l & o & v' & H)]; [left; exact C|right]. exists u, l, o, v'. rewrite set_nth_other; [exact H|]. intros ->. rewrite E in H. injection H as H. exact (NS l o v' H). }
    destruct p; try (contradiction Wt); try exact S0.
    + (* Read *) unfold cinv. cbn. rewrite ?EA. split; [exact N|]. split; [|apply CS'; discriminate]. intros u w H. destruct (Nat.eq_dec u t) as [->|NE]; [rewrite (set_nth_same _ _ _ _ _ E) in H; injection H as <-; exact Logic.I|]. exact (OTH _ u w NE H).
    + (* Register *) destruct (c_entry s) as [l|] eqn:EE; unfold cinv; cbn; rewrite ?EA; (split; [exact N|]); (split; [|apply CS'; discriminate]); intros u w H; (destruct (Nat.eq_dec u t) as [->|NE]; [rewrite (set_nth_same _ _ _ _ _ E) in H; injection H as <-|]).
      * exact EE.
      * exact (OTH _ u w NE H).
      * reflexivity.
      * pose proof (OTH _ u w NE H) as X. destruct w; cbn in *; try exact X; try congruence; destruct X as [X _]; congruence.
    + (* Acquire *) destruct (held s lock) eqn:EH; [exact S0|]. unfold cinv. cbn. rewrite ?EA. split; [|split; [|apply CS'; discriminate]].
      * constructor; [|exact N]. intro X. apply in_map_iff in X. destruct X as ([l u] & E1 & E2). cbn in E1. subst l. exact (held_false s lock u EH E2).
      * intros u w H. destruct (Nat.eq_dec u t) as [->|NE]; [rewrite (set_nth_same _ _ _ _ _ E) in H; injection H as <-; split; [exact Wt|left; reflexivity]|].
        pose proof (OTH _ u w NE H) as X. destruct w; cbn in *; try exact X; intuition.
    + (* Test *) destruct Wt as [W1 W2]. assert (NOST : forall u l o v', nth_error (c_pcs s) u <> Some (Store l o v')).
      { intros u l o v' H. destruct (W u _ H) as (X1 & X2 & _). assert (l = lock) by congruence. subst l. pose proof (held_unique _ _ _ _ N W2 X2) as X. subst u. rewrite E in H. discriminate. }
      assert (C0 : c_computed s = []) by (destruct C as [C|(u & l & o & v' & H)]; [exact C|exfalso; exact (NOST _ _ _ _ H)]).
      destruct v as [v|]; unfold cinv; cbn; rewrite ?EA.
      * split; [exact N|]. split; [|right; exists t, lock, owner, v; exact (set_nth_same _ _ _ _ _ E)]. intros u w H. destruct (Nat.eq_dec u t) as [->|NE]; [rewrite (set_nth_same _ _ _ _ _ E) in H; injection H as <-; cbn; rewrite C0; auto|].
        pose proof (OTH _ u w NE H) as X. destruct w; cbn in *; try exact X. exfalso. rewrite set_nth_other in H by exact NE. exact (NOST _ _ _ _ H).
      * split; [apply filter_nodup_fst; exact N|]. split; [|left; exact C0]. intros u w H. destruct (Nat.eq_dec u t) as [->|NE]; [rewrite (set_nth_same _ _ _ _ _ E) in H; injection H as <-; exact Logic.I|].
        pose proof (OTH _ u w NE H) as X. destruct w; cbn in *; try exact X; exfalso; [destruct X as [X1 X2]|destruct X as (X1 & X2 & _)]; assert (lock0 = lock) by congruence; subst lock0; apply NE; symmetry; exact (held_unique _ _ _ _ N W2 X2).
    + (* Store *) destruct Wt as (W1 & W2 & W3). unfold cinv. cbn. split; [exact W3|]. intros u w H. destruct (Nat.eq_dec u t) as [->|NE]; [rewrite (set_nth_same _ _ _ _ _ E) in H; injection H as <-; exact Logic.I|].
      pose proof (OTH _ u w NE H) as X. destruct w; cbn in *; try exact Logic.I; try contradiction. destruct X as (X1 & X2 & _). assert (lock0 = lock) by congruence. subst lock0. apply NE. symmetry. exact (held_unique _ _ _ _ N W2 X2).
Qed.
Lemma crun_inv : forall n acts, (forall a, In a acts -> a <> Invalidate) -> cinv (crun n acts).
Proof.
  intros n acts H. unfold crun. assert (G : forall acts s, (forall a, In a acts -> a <> Invalidate) -> cinv s -> cinv (fold_left cstep acts s)).
  { clear. intros acts. induction acts as [|a acts IH]; intros s H I; [exact I|]. cbn [fold_left]. apply IH; [intros b J; apply H; right; exact J|]. destruct a as [t v|]; [apply cstep_inv; exact I|exfalso; exact (H Invalidate (or_introl eq_refl) eq_refl)]. }
  apply G; [exact H|]. unfold cinv. cbn. split; [constructor|]. split; [|left; reflexivity]. intros t p E. apply nth_error_In in E. apply repeat_spec in E. subst p. exact Logic.I.
Qed.
Lemma once : forall n acts, (forall a, In a acts -> a <> Invalidate) -> length (c_computed (crun n acts)) <= 1 /\
  forall t v, nth_error (c_pcs (crun n acts)) t = Some (Done v) -> c_computed (crun n acts) = [v].
Proof.
  intros n acts H. pose proof (crun_inv n acts H) as I. unfold cinv in I. destruct (c_attr (crun n acts)) as [a|].
  - destruct I as [C I]. rewrite C. split; [cbn; lia|]. intros t v E. specialize (I t _ E). cbn in I. subst v. reflexivity.
  - destruct I as (_ & W & C). split.
    + destruct C as [-> |(t & l & o & v & E)]; [cbn; lia|]. destruct (W t _ E) as (_ & _ & ->). cbn. lia.
    + intros t v E. contradiction (W t _ E).
Qed.
