(** Proofs about the live output. *)
From Coq Require Import List Bool Arith Lia.
From Verif Require Import DisplayModel.
Import ListNotations.
Open Scope nat_scope.
Open Scope list_scope.
Open Scope bool_scope.

Definition begun (p : place) : Prop := match p with Added | Shown | RemRead _ | Over => True | _ => False end.
(** lists that are read hold components that were begun, each once, and an adder is not in the list it read *)
Definition sane (d : display) : Prop :=
  (NoDup (comps d) /\ forall c, In c (comps d) -> begun (places d c)) /\
  forall i, match places d i with
            | AddRead l | RemRead l => NoDup l /\ forall c, In c l -> begun (places d c)
            | _ => True
            end.
Lemma move_same : forall f i p, move f i p i = p.
Proof. intros. unfold move. rewrite Nat.eqb_refl. reflexivity. Qed.
Lemma move_other : forall f i p j, j <> i -> move f i p j = f j.
Proof. intros f i p j H. unfold move. apply Nat.eqb_neq in H. rewrite H. reflexivity. Qed.
Lemma move_begun : forall f i p j, begun (f j) -> (begun (f i) -> begun p) -> begun (move f i p j).
Proof. intros f i p j H G. destruct (Nat.eq_dec j i) as [->|N]; [rewrite move_same; auto|rewrite move_other by exact N; exact H]. Qed.
Lemma without_in : forall i l c, In c (without i l) <-> In c l /\ c <> i.
Proof. intros i l c. unfold without. rewrite filter_In, negb_true_iff, Nat.eqb_neq. reflexivity. Qed.
Lemma sane_move : forall cs h d i p w, sane d -> (begun (places d i) -> begun p) ->
  (NoDup cs /\ forall c, In c cs -> begun (move (places d) i p c)) ->
  match p with AddRead l | RemRead l => NoDup l /\ forall c, In c l -> begun (move (places d) i p c) | _ => True end ->
  sane (Display cs h (move (places d) i p) w).
Proof.
  intros cs h d i p w [_ S2] B C L. split; [exact C|]. intro j. cbn [places]. destruct (Nat.eq_dec j i) as [->|N]; [rewrite move_same; exact L|]. rewrite move_other by exact N. specialize (S2 j).
  destruct (places d j); auto; (split; [apply S2|intros c I; apply move_begun; [apply S2; exact I|exact B]]).
Qed.
Lemma sane_step : forall d a, sane d -> sane (act d a).
Proof.
  intros d [i|] S; cbn [act].
  - pose proof S as [[S1 S1'] S2]. specialize (S2 i). unfold show_step. destruct (places d i) eqn:E.
    + destruct (holder d); [exact S|]. apply sane_move; [exact S|rewrite E; intros []| |exact Logic.I]. split; [exact S1|]. intros c I. apply move_begun; [auto|rewrite E; intros []].
    + apply sane_move; [exact S|rewrite E; intros []| |]; (split; [exact S1|]; intros c I; apply move_begun; [auto|rewrite E; intros []]).
    + destruct S2 as [S2 S2']. apply sane_move; [exact S|rewrite E; intros []| |exact Logic.I]. split.
      * constructor; [|exact S2]. intro I. specialize (S2' _ I). rewrite E in S2'. exact S2'.
      * intros c [<-|I]; [rewrite move_same; exact Logic.I|apply move_begun; [auto|rewrite E; intros []]].
    + apply sane_move; [exact S|intros _; exact Logic.I| |exact Logic.I]. split; [exact S1|]. intros c I. apply move_begun; [auto|intros _; exact Logic.I].
    + apply sane_move; [exact S|intros _; exact Logic.I| |]; (split; [exact S1|]; intros c I; apply move_begun; [auto|intros _; exact Logic.I]).
    + destruct S2 as [S2 S2']. apply sane_move; [exact S|intros _; exact Logic.I| |exact Logic.I]. split; [apply NoDup_filter; exact S2|]. intros c I. apply without_in in I. apply move_begun; [apply S2', I|intros _; exact Logic.I].
    + exact S.
  - unfold refresh_step. destruct (waiting d); [exact S|]. destruct (comps d) eqn:E; [|exact S]. destruct (holder d); [exact S|]. destruct S as [_ S2]. split; [split; [constructor|intros c []]|exact S2].
Qed.
Lemma sane_run : forall schedule, sane (run schedule).
Proof.
  intro schedule. unfold run. assert (S : sane display0) by (split; [split; [constructor|intros c []]|intro i; exact Logic.I]). revert S. generalize display0.
  induction schedule as [|a schedule IH]; intros d S; [exact S|]. cbn [fold_left]. apply IH, sane_step, S.
Qed.

(** ** whole operations *)
Definition settled (d : display) : Prop :=
  holder d = None /\ NoDup (comps d) /\ (forall i, (In i (comps d) <-> places d i = Shown) /\ (places d i = Idle \/ places d i = Shown \/ places d i = Over)) /\
  (waiting d = true -> comps d = []).
Lemma settled_whole : forall d l, settled d -> whole d l -> settled (fold_left act l d).
Proof.
  intros d l (H & ND & S & W) C. destruct C as [d i E|d i E|d].
  - cbn [steps repeat fold_left act]. unfold show_step at 4. rewrite E, H. unfold show_step at 3. cbn [places]. rewrite move_same. unfold show_step at 2. cbn [places]. rewrite move_same. unfold show_step. cbn [places comps holder waiting]. rewrite move_same.
    split; [reflexivity|]. split; [cbn; constructor; [|exact ND]; intro I; apply S in I; rewrite E in I; discriminate|]. split.
    + intro j. cbn [comps places]. destruct (Nat.eq_dec j i) as [->|N].
      * rewrite move_same. split; [split; [reflexivity|left; reflexivity]|right; left; reflexivity].
      * rewrite !move_other by exact N. split; [|apply S]. split; [intros [X|I]; [congruence|apply S; exact I]|intro X; right; apply S; exact X].
    + cbn [waiting comps]. destruct (length (i :: comps d) =? 1) eqn:L; [discriminate|]. intro X. rewrite (W X) in L. discriminate.
  - cbn [steps repeat fold_left act]. unfold show_step at 2. rewrite E. unfold show_step. cbn [places comps holder waiting]. rewrite move_same.
    split; [exact H|]. split; [apply NoDup_filter; exact ND|]. split.
    + intro j. cbn [comps places]. rewrite without_in. destruct (Nat.eq_dec j i) as [->|N].
      * rewrite move_same. split; [split; [intros [_ X]; contradiction|discriminate]|right; right; reflexivity].
      * rewrite !move_other by exact N. split; [|apply S]. split; [intros [X _]; apply S; exact X|intro X; split; [apply S; exact X|exact N]].
    + cbn [waiting comps]. intro X. rewrite (W X). reflexivity.
  - cbn [fold_left act]. unfold refresh_step. destruct (waiting d) eqn:E1; [split; [exact H|split; [exact ND|split; [exact S|auto]]]|]. destruct (comps d) eqn:E2; [rewrite H|rewrite <- E2 in *; split; [exact H|split; [exact ND|split; [exact S|congruence]]]].
    split; [reflexivity|]. split; [constructor|]. split; [exact S|reflexivity].
Qed.
Lemma settled_wholes : forall d l, wholes d l -> settled d -> settled (fold_left act l d).
Proof. intros d l W. induction W as [d|d l r W1 W2 IH]; intro S; [exact S|]. rewrite fold_left_app. apply IH, settled_whole; assumption. Qed.
Lemma settled0 : settled display0.
Proof. split; [reflexivity|]. split; [constructor|]. split; [intro i; split; [split; [intros []|discriminate]|left; reflexivity]|reflexivity]. Qed.
