(** C50: compatibility tags. *)
From Coq Require Import String Ascii List Bool NArith Arith.
From Verif Require Import Base BaseFacts TagsModel TagsSpec TagsProofs.
Import ListNotations.
Open Scope string_scope.
Open Scope nat_scope.
Open Scope list_scope.
Open Scope bool_scope.

(** whatever is accepted has a compatible tag, and its score is the best of the scores of its tags *)
Theorem C50_accepted_is_compatible : forall m tag s, compatibility_score m tag = Some s ->
  (exists i a p, stands_for tag i a p /\ compatible m i a p /\ compatibility_score m (single i a p) = Some s) /\
  (forall i a p t, stands_for tag i a p -> compatibility_score m (single i a p) = Some t -> score_ltb s t = false).
Proof. exact sound. Qed.
Print Assumptions C50_accepted_is_compatible.
(** a set of well formed tags of which one is compatible is accepted *)
Theorem C50_compatible_is_accepted_partial : forall m tag, forallb is_lower (m_ipt m) = true -> well_formed m tag ->
  (exists i a p, stands_for tag i a p /\ compatible m i a p) -> exists s, compatibility_score m tag = Some s.
Proof. exact complete. Qed.
Print Assumptions C50_compatible_is_accepted_partial.
(** a single compatible tag is accepted, however it is written *)
Theorem C50_single_tag : forall m i a p, forallb is_lower (m_ipt m) = true -> stands_for (single i a p) i a p -> compatible m i a p ->
  exists s, compatibility_score m (single i a p) = Some s.
Proof. exact single_complete. Qed.
Print Assumptions C50_single_tag.

Definition linux310 : machine :=
  Machine (lit "cp") (3, 10)%N false true false None Linux (lit "linux-x86_64") false (Some (2, 31)%N) None (0, 0)%N [].
Definition alpine310 : machine :=
  Machine (lit "cp") (3, 10)%N false true false None Linux (lit "linux-x86_64") false (Some (2, 31)%N) (Some (1, 2)%N) (0, 0)%N [].
Definition wheel_tag : str := lit "cp39.cp310-cp310.abi3-manylinux_2_17_x86_64.manylinux2014_x86_64".
Example C50_sample : stands_for wheel_tag (lit "cp310") (lit "abi3") (lit "manylinux_2_17_x86_64") /\
  compatible linux310 (lit "cp310") (lit "abi3") (lit "manylinux_2_17_x86_64") /\
  well_formed_interpreter linux310 (lit "cp310") /\ well_formed_platform linux310 (lit "manylinux_2_17_x86_64") /\
  compatibility_score linux310 wheel_tag = Some [whole 2; whole 1; whole 1; (1, 15)%N; whole 1; (1, 1)%N].
Proof.
  split; [|split; [|split; [|split]]].
  - exists (lit "cp39.cp310"), (lit "cp310.abi3"), (lit "manylinux_2_17_x86_64.manylinux2014_x86_64").
    split; [reflexivity|]. split; [cbn; intuition discriminate|]. split; [cbn; intuition discriminate|]. split; [cbn; intuition discriminate|].
    split; [right; left; reflexivity|]. split; [right; left; reflexivity|left; reflexivity].
  - split; [|split].
    + exists (lit "cp"), (lit "310"), (3, 10)%N. split; [right; reflexivity|]. split; [reflexivity|]. split; [|split; [reflexivity|vm_compute; discriminate]].
      change (3, 10)%N with (read_N [("3")%char], read_N (lit "10")). change (lit "310") with ("3"%char :: lit "10"). apply digits; reflexivity.
    + right. left. split; [reflexivity|]. right. split; [reflexivity|]. right. split; [reflexivity|vm_compute; discriminate].
    + right. right. left. split; [reflexivity|]. right. exists (lit "linux"), (lit "x86_64"), (lit "manylinux_2_17"), (2, 17)%N, (2, 31)%N.
      split; [reflexivity|]. split; [cbn; intuition discriminate|]. split; [reflexivity|]. split; [reflexivity|]. split; [|right; split; [reflexivity|vm_compute; discriminate]].
      right. exists [], (lit "2"), (lit "17"), []. split; [reflexivity|]. split; [intros []|]. split; [reflexivity|]. split; [reflexivity|]. split; [constructor|reflexivity].
  - intros name t [->| ->] E; [vm_compute in E; discriminate|]. change (lit "cp310") with (lit "cp" ++ lit "310") in E. change (m_ipt linux310) with (lit "cp") in E.
    apply app_inv_head in E. subst t. intros _ _. exists (read_N (lit "3"), read_N (lit "10")). change (lit "310") with ("3"%char :: lit "10"). apply digits; reflexivity.
  - split; [|discriminate]. intros _. exists (lit "linux"), (lit "x86_64"). split; [reflexivity|]. split; [cbn; intuition discriminate|].
    intros name E. change (lit "manylinux_2_17_x86_64") with (lit "manylinux_2_17" ++ us ++ lit "x86_64") in E. apply app_inv_tail in E. subst name.
    split; [reflexivity|]. intros _. exists (2, 17)%N. right. exists [], (lit "2"), (lit "17"), [].
    split; [reflexivity|]. split; [intros []|]. split; [reflexivity|]. split; [reflexivity|]. split; [constructor|reflexivity].
  - vm_compute. reflexivity.
Qed.
(** a malformed alternative hides the compatible ones *)
Theorem C50_malformed_alternative_refuted : exists m tag i a p s, forallb is_lower (m_ipt m) = true /\ stands_for tag i a p /\
  compatibility_score m (single i a p) = Some s /\ compatibility_score m tag = None.
Proof.
  exists linux310, (lit "py3.py_-none-any"), (lit "py3"), (lit "none"), (lit "any"), [whole 0; whole 0; whole 0; whole 0; whole 0; whole 1].
  split; [reflexivity|]. split; [|split; vm_compute; reflexivity].
  exists (lit "py3.py_"), (lit "none"), (lit "any"). split; [reflexivity|]. split; [cbn; intuition discriminate|]. split; [cbn; intuition discriminate|]. split; [cbn; intuition discriminate|].
  split; [left; reflexivity|]. split; left; reflexivity.
Qed.
Print Assumptions C50_malformed_alternative_refuted.
(** no tag for a musl platform is ever accepted, on any machine *)
Theorem C50_musl_refuted : exists m p, musl_ok m p /\ compatibility_score m (single (lit "py3") (lit "none") p) = None /\
  compatibility_score m (lit "py3-none-any.musllinux_1_1_x86_64") = None.
Proof.
  exists alpine310, (lit "musllinux_1_1_x86_64"). split; [|split; vm_compute; reflexivity].
  split; [reflexivity|]. exists (lit "linux"), (lit "x86_64"), 1%N, 1%N, (1, 2)%N. split; [reflexivity|]. split; [cbn; intuition discriminate|].
  split; [reflexivity|]. split; [reflexivity|]. split; [reflexivity|vm_compute; discriminate].
Qed.
Print Assumptions C50_musl_refuted.
