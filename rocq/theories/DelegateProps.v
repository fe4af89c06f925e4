(** Properties of delegation. *)
From Coq Require Import String Ascii List Bool NArith Arith.
From Verif Require Import Base BaseFacts DelegateModel DelegateProofs.
Import ListNotations.
Open Scope string_scope.
Open Scope nat_scope.
Open Scope list_scope.
Open Scope bool_scope.

(** ** C283: an object that hands on answers as the object it wraps *)
(** there are instances exactly if every abstract member is one of the type; calling such a member is calling that of the wrapped object;
    everything else is as it was *)
Theorem C283_calls_partial : forall names attr c left fs inner, abstracts c = Some left -> dict_get attr fs = Some inner ->
  ((exists o, create (delegate names attr c) fs = Ok o) <-> forall n, In n left -> In n names) /\
  forall o, create (delegate names attr c) fs = Ok o ->
    (forall n args, In n left -> call (getattr o n) args = call (getattr inner n) args) /\
    (forall n, ~ In n left -> getattr o n = read_member c fs n).
Proof.
  intros names attr c left fs inner A F. unfold delegate, delegate_all. rewrite A.
  assert (G : forall n, dict_get n (attrs_of [(names, attr)]) = if str_mem n names then Some attr else None) by apply attrs_one.
  assert (K : filter (fun n => negb (dict_has n (attrs_of [(names, attr)]))) left = [] <-> forall n, In n left -> In n names).
  { split.
    - intros E n I. destruct (str_mem n names) eqn:M; [apply mem_iff, M|]. exfalso. assert (X : In n []); [|exact X]. rewrite <- E. apply filter_In. split; [exact I|]. unfold dict_has. rewrite G, M. reflexivity.
    - intros H. destruct (filter _ left) as [|n r] eqn:E; [reflexivity|]. exfalso. assert (X : In n (n :: r)) by (left; reflexivity). rewrite <- E in X. apply filter_In in X. destruct X as [I N]. apply H in I. apply mem_iff in I. unfold dict_has in N. rewrite G, I in N. discriminate. }
  destruct (filter _ left) as [|n0 r0] eqn:E; unfold create; cbn [abstracts].
  - split; [split; [intros _; apply K; reflexivity|intros _; eauto]|]. intros o O. injection O as <-. split.
    + intros n args I. unfold getattr, read_member. cbn [own inherited]. rewrite own_after, G. rewrite (proj2 (mem_iff n left) I). rewrite (proj2 (mem_iff n names) (proj1 K eq_refl n I)). unfold hand_on. cbn [call bind]. rewrite F. reflexivity.
    + intros n I. unfold getattr, read_member. cbn [own inherited]. rewrite own_after. assert (M : str_mem n left = false) by (destruct (str_mem n left) eqn:M; [apply mem_iff in M; contradiction|reflexivity]). rewrite M. reflexivity.
  - split; [split; [intros [o O]; discriminate|intro H; apply K in H; discriminate]|]. intros o O. discriminate.
Qed.
(** an abstract property is not handed on: reading it gives something to call, and calling that fails *)
Theorem C283_property_refuted : forall names attr c left fs inner o n v, abstracts c = Some left -> dict_get attr fs = Some inner -> create (delegate names attr c) fs = Ok o ->
  In n left -> getattr inner n = Ok (Data v) -> (exists f, getattr o n = Ok (Bound f)) /\ forall args, call (getattr o n) args = Err TypeError.
Proof.
  intros names attr c left fs inner o n v A F O I P. split.
  - revert O. unfold delegate, delegate_all, create. rewrite A. destruct (filter _ left) as [|n0 r0] eqn:E; cbn [abstracts]; [|discriminate]. intro O. injection O as <-. unfold getattr, read_member. cbn [own inherited]. rewrite own_after, attrs_one. rewrite (proj2 (mem_iff n left) I).
    destruct (str_mem n names) eqn:M; [unfold hand_on; eauto|]. exfalso. assert (X : In n []); [|exact X]. rewrite <- E. apply filter_In. split; [exact I|]. unfold dict_has. rewrite attrs_one, M. reflexivity.
  - intro args. rewrite (proj1 (proj2 (C283_calls_partial names attr c left fs inner A F) o O) n args I). rewrite P. reflexivity.
Qed.
(** so the repository of an installation has no name and no publisher, and takes packages that the wrapped repository does not take *)
Definition url_only : instance := fun n =>
  if str_eqb n (lit "name") then Ok (Data (VText (lit "urls"))) else if str_eqb n (lit "publisher") then Ok (Data VNone)
  else if str_eqb n (lit "accept_non_url_packages") then Ok (Bound (fun _ => Ok (VBool false))) else Err AttributeError.
Theorem C283_repository_refuted : forall own_match, exists o, create (installation_repository own_match) [(lit "_repo", url_only)] = Ok o /\
  (exists f, getattr o (lit "name") = Ok (Bound f)) /\ (forall args, call (getattr o (lit "name")) args = Err TypeError) /\ (exists f, getattr o (lit "publisher") = Ok (Bound f)) /\
  call (getattr url_only (lit "accept_non_url_packages")) [] = Ok (VBool false) /\ call (getattr o (lit "accept_non_url_packages")) [] = Ok (VBool true).
Proof. intro own_match. eexists. split; [reflexivity|]. split; [eexists; reflexivity|]. split; [reflexivity|]. split; [eexists; reflexivity|]. split; reflexivity. Qed.
Example C283_example : exists c left fs inner o, abstracts c = Some left /\ dict_get (lit "_x") fs = Some inner /\ create (delegate [lit "run"; lit "stop"] (lit "_x") c) fs = Ok o /\ In (lit "run") left /\
  call (getattr o (lit "run")) [VBool true] = Ok (VBool true) /\ call (getattr o (lit "stop")) [] = Ok VNone.
Proof.
  exists (Class [(lit "stop", Function (fun _ _ => Ok VNone))] [] (Some [lit "run"])), [lit "run"], [(lit "_x", fun n => if str_eqb n (lit "run") then Ok (Bound (fun l => Ok (hd VNone l))) else Err AttributeError)]. eexists. eexists.
  split; [reflexivity|]. split; [reflexivity|]. split; [reflexivity|]. split; [left; reflexivity|]. split; reflexivity.
Qed.
