(** Properties of the next version of a project: C309. *)
From Coq Require Import String Ascii List Bool NArith Arith Lia.
From Verif Require Import Base BaseFacts VersionModel VersionSpec VersionParse VersionParserProofs VersionProps BumpModel.
Import ListNotations.
Open Scope string_scope.
Open Scope nat_scope.
Open Scope list_scope.
Open Scope bool_scope.

Lemma Ok_same : forall A (a b : A), Ok a = Ok b -> a = b.
Proof. congruence. Qed.

(** ** C309: a version that was bumped is the one that is read next *)
(** the three numbers: the named one goes up by one, those behind it start again, and nothing but the epoch remains of the rest *)
Theorem C309_numbers : forall a b c e pre post dev loc text name (save : bool),
  let p := Project (VStd (SV [a; b; c] e pre post dev loc)) text in
  let to (r : list N) : res (project * version) := Ok (Project (VStd (SV r e None None None None)) (if save then sv_str (SV r e None None None None) else text), VStd (SV r e None None None None)) in
  bump_version p (lit "major") name save = to [(a + 1)%N; 0%N; 0%N] /\
  bump_version p (lit "minor") name save = to [a; (b + 1)%N; 0%N] /\
  bump_version p (lit "patch") name save = to [a; b; (c + 1)%N].
Proof. intros. repeat split. Qed.
(** the text in the file, for a version without an epoch *)
Theorem C309_text : forall a b c pre post dev loc text name p' v,
  bump_version (Project (VStd (SV [a; b; c] None pre post dev loc)) text) (lit "minor") name true = Ok (p', v) ->
  in_file p' = show_N a ++ lit "." ++ show_N (b + 1) ++ lit ".0".
Proof.
  intros a b c pre post dev loc text name p' v H. rewrite (proj1 (proj2 (C309_numbers a b c None pre post dev loc text name true))) in H.
  apply Ok_same in H. injection H as <- _. cbn [in_file]. unfold sv_str. cbn [epoch release pre_release post_release dev_release local_label map join app].
  rewrite !app_nil_r. reflexivity.
Qed.
(** whatever of the documented particles is bumped, the project that is read from the saved file has the version that was returned *)
Theorem C309_saved : forall p s particle name p' v, in_memory p = VStd s -> wf_sv s -> label_wf s ->
  In particle [lit "major"; lit "minor"; lit "patch"; lit "a"; lit "b"; lit "rc"] ->
  bump_version p particle name true = Ok (p', v) ->
  in_memory p' = v /\ load_project (in_file p') = Ok p'.
Proof.
  intros p s particle name p' v Hm W L Hp H. unfold bump_version in H.
  destruct (new_version p particle name) as [w|e] eqn:E; [|discriminate]. cbn [bind] in H. apply Ok_same in H. injection H as <- <-.
  split; [reflexivity|]. cbn [in_file]. unfold new_version in E. rewrite Hm in E.
  assert (Hn : str_eqb particle (lit "name") = false).
  { cbn [In] in Hp. repeat (destruct Hp as [<-|Hp]; [reflexivity|]). contradiction. }
  rewrite Hn in E. destruct (negb (length (release s) =? 3)) eqn:E3; [discriminate|].
  destruct (bump (VStd s) particle) as [t|e] eqn:Eb; [|discriminate]. cbn [bind] in E. apply Ok_same in E. subst w. cbn [version_str].
  assert (G : wf_sv t /\ label_wf t).
  { unfold bump in Eb. rewrite E3 in Eb. destruct s as [r ep' pre post dev loc]. cbn [release] in *. destruct W as [W1 W2]. cbn [release pre_release] in W1, W2.
    destruct r as [|a [|b [|c [|d r]]]]; try discriminate. unfold label_wf in *. cbn [local_label] in L.
    assert (K : forall r', r' <> [] -> wf_sv (SV r' ep' None None None None) /\ (forall l, local_label (SV r' ep' None None None None) = Some l -> forallb label_char_ok l = true)).
    { intros r' Hr. split; [split; [exact Hr|]|]; cbn; discriminate. }
    assert (K2 : forall q n, In q pre_types -> wf_sv (SV [a; b; c] ep' (Some (q, n)) post dev loc) /\ (forall l, local_label (SV [a; b; c] ep' (Some (q, n)) post dev loc) = Some l -> forallb label_char_ok l = true)).
    { intros q n Hq. split; [split; [discriminate|]|exact L]. cbn [pre_release]. intros q' n' X. injection X as <- _. exact Hq. }
    assert (Hpre : particle = lit "a" \/ particle = lit "b" \/ particle = lit "rc" -> In particle pre_types) by (intros [->|[->| ->]]; cbn; auto).
    cbn [In] in Hp. unfold bump_release, update_release in Eb. cbn [release epoch] in Eb.
    destruct Hp as [<-|[<-|[<-|Hp]]].
    1-3: cbn in Eb; apply Ok_same in Eb; subst t; apply K; discriminate.
    assert (Hq : In particle pre_types) by (apply Hpre; intuition auto).
    replace (str_eqb particle "major") with false in Eb by (repeat (destruct Hp as [<-|Hp]; [reflexivity|]); contradiction).
    replace (str_eqb particle "minor") with false in Eb by (repeat (destruct Hp as [<-|Hp]; [reflexivity|]); contradiction).
    replace (str_eqb particle "patch") with false in Eb by (repeat (destruct Hp as [<-|Hp]; [reflexivity|]); contradiction).
    apply Ok_same in Eb. subst t. unfold bump_pre_release, set_pre. cbn [pre_release release epoch post_release dev_release local_label].
    destruct pre as [[q n]|]; [|apply K2; exact Hq].
    destruct (str_ltb particle q); [apply (K [a; b; (c + 1)%N]); discriminate|]. destruct (str_ltb q particle); apply K2; exact Hq. }
  unfold load_project. rewrite (C04_roundtrip t (proj1 G) (proj2 G)). reflexivity.
Qed.
(** it fails exactly if the version has not three numbers, or a name is wanted and none is given *)
Theorem C309_refused : forall p particle name save,
  (exists r, bump_version p particle name save = Ok r) <->
  (particle = lit "name" /\ name <> None /\ name <> Some [] \/
   particle <> lit "name" /\ exists s a b c, in_memory p = VStd s /\ release s = [a; b; c]).
Proof.
  intros p particle name save. unfold bump_version, new_version. destruct (str_eqb particle (lit "name")) eqn:E.
  - apply str_eqb_eq in E. split.
    + intros [r H]. left. split; [exact E|]. destruct name as [[|c n]|]; try discriminate. split; discriminate.
    + intros [(_ & H1 & H2)|(H & _)]; [|contradiction]. destruct name as [[|c n]|]; [exfalso; apply H2; reflexivity| |exfalso; apply H1; reflexivity]. cbn [bind]. eauto.
  - assert (Hn : particle <> lit "name") by (intros X; rewrite X, str_eqb_refl in E; discriminate). split.
    + intros [r H]. right. split; [exact Hn|]. destruct (in_memory p) as [u q sc|n|s]; try discriminate.
      destruct (release s) as [|a [|b [|c [|d rr]]]] eqn:Er; cbn in H; try discriminate. exists s, a, b, c. auto.
    + intros [(H & _)|(_ & s & a & b & c & Hm & Hr)]; [contradiction|]. rewrite Hm. unfold bump. rewrite Hr. cbn [length Nat.eqb negb].
      destruct (bump_release s particle); cbn [bind]; eauto.
Qed.
(** without saving the file stays as it is *)
Theorem C309_unsaved : forall p particle name p' v, bump_version p particle name false = Ok (p', v) -> in_file p' = in_file p /\ in_memory p' = v.
Proof.
  intros p particle name p' v H. unfold bump_version in H. destruct (new_version p particle name) as [w|e]; [|discriminate]. cbn [bind] in H.
  apply Ok_same in H. injection H as <- <-. split; reflexivity.
Qed.
(** a name that looks like a version is not the name any more when the project is read again *)
Theorem C309_name_refuted : forall p s p' v, wf_sv s -> label_wf s -> bump_version p (lit "name") (Some (sv_str s)) true = Ok (p', v) ->
  v = VNamed (sv_str s) /\ exists q, load_project (in_file p') = Ok q /\ in_memory q = VStd s /\ version_eqb (in_memory q) v = false.
Proof.
  intros p s p' v W L H. unfold bump_version, new_version in H. change (str_eqb (lit "name") (lit "name")) with true in H. cbn iota in H.
  destruct (sv_str s) as [|c n] eqn:E; [discriminate|]. cbn [bind] in H. apply Ok_same in H. injection H as <- <-. split; [reflexivity|].
  cbn [in_file version_str]. rewrite <- E. unfold load_project. rewrite (C04_roundtrip s W L). cbn [bind]. eexists. split; [reflexivity|]. split; reflexivity.
Qed.
(** and one that only begins like a version loses the rest *)
Theorem C309_name_cut_refuted : exists p', forall p, bump_version p (lit "name") (Some (lit "2.x-ray")) true = Ok (p', VNamed (lit "2.x-ray")) /\
  load_project (in_file p') = Ok (Project (VStd (SV [2%N] None None None None None)) (lit "2.x-ray")).
Proof. exists (Project (VNamed (lit "2.x-ray")) (lit "2.x-ray")). intros p. split; [reflexivity|vm_compute; reflexivity]. Qed.
Example C309_example :
  let p := Project (VStd (SV [1; 2; 3]%N None (Some (lit "b", 1%N)) None None None)) (lit "1.2.3b1") in
  load_project (lit "1.2.3b1") = Ok p /\
  wf_sv (SV [1; 2; 3]%N None (Some (lit "b", 1%N)) None None None) /\ label_wf (SV [1; 2; 3]%N None (Some (lit "b", 1%N)) None None None) /\
  bump_version p (lit "b") None true = Ok (Project (VStd (SV [1; 2; 3]%N None (Some (lit "b", 2%N)) None None None)) (lit "1.2.3b2"), VStd (SV [1; 2; 3]%N None (Some (lit "b", 2%N)) None None None)) /\
  bump_version p (lit "minor") None true = Ok (Project (VStd (SV [1; 3; 0]%N None None None None None)) (lit "1.3.0"), VStd (SV [1; 3; 0]%N None None None None None)) /\
  bump_version p (lit "name") (Some (lit "spring")) false = Ok (Project (VNamed (lit "spring")) (lit "1.2.3b1"), VNamed (lit "spring")) /\
  bump_version p (lit "name") None true = Err UnsupportedOperation /\
  (do q <- load_project (lit "1.2"); bump_version q (lit "minor") None true) = Err UnsupportedOperation.
Proof.
  cbn zeta. split; [vm_compute; reflexivity|]. split.
  - split; [discriminate|]. cbn. intros t n X. injection X as <- _. vm_compute. tauto.
  - split; [intros l X; discriminate|vm_compute; repeat split].
Qed.
