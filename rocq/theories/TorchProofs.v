(** Facts about TorchModel *)
From Coq Require Import List Bool NArith Ascii String Arith Lia Permutation.
From Verif Require Import Base BaseFacts VersionModel VersionSpec VersionProofs VersionParse SpecifierModel SpecParse HtmlModel HtmlProofs TorchModel.
Import ListNotations.
Open Scope string_scope. Open Scope nat_scope. Open Scope list_scope. Open Scope bool_scope.

Definition std (v : version) : list sv := match v with VStd s => [s] | _ => [] end.
Definition is_standard (v : version) : Prop := match v with VStd _ => True | _ => False end.
(** the builds that are for this machine *)
Definition offered (allow_cpu : bool) (labels : list str) (s : sv) : bool :=
  match local_label s with
  | None => allow_cpu
  | Some l => if str_eqb l (lit "cpu") || str_eqb l [] then allow_cpu else starts_with (lit "cu") l && str_mem l labels
  end.

Lemma kept_spec : forall cpu labels l, Forall is_standard l -> kept cpu labels l = Ok (filter (offered cpu labels) (flat_map std l)).
Proof.
  intros cpu labels. induction l as [|v l IH]; intros F; [reflexivity|]. inversion F; subst. destruct v as [| |s]; try contradiction.
  cbn [kept flat_map std app filter]. rewrite (IH H2). cbn [bind]. unfold is_cpu, offered. destruct (local_label s) as [lb|]; [|destruct cpu; reflexivity].
  destruct (str_eqb lb (lit "cpu") || str_eqb lb []); [destruct cpu; reflexivity|]. destruct (starts_with (lit "cu") lb); [destruct (str_mem lb labels); reflexivity|reflexivity].
Qed.
Lemma kept_standard : forall cpu labels l r, kept cpu labels l = Ok r -> Forall is_standard l.
Proof.
  intros cpu labels. induction l as [|v l IH]; intros r H; [constructor|]. destruct v as [| |s]; try discriminate. cbn [kept] in H.
  destruct (kept cpu labels l) as [x|]; [|discriminate]. constructor; [exact I|]. eapply IH. reflexivity.
Qed.

Lemma insert_perm : forall x l, Permutation (insert_desc x l) (x :: l).
Proof. induction l as [|y l IH]; cbn; [reflexivity|]. destruct (key_ltb y x); [reflexivity|]. rewrite IH. apply perm_swap. Qed.
Lemma sort_perm : forall l, Permutation (sort_by_priority l) l.
Proof.
  intros l. unfold sort_by_priority. assert (G : forall acc, Permutation (fold_left (fun acc x => insert_desc x acc) l acc) (acc ++ l)).
  { induction l as [|x l IH]; intros acc; cbn; [rewrite app_nil_r; reflexivity|]. rewrite IH, insert_perm. cbn. apply Permutation_middle. }
  apply (G []).
Qed.
Lemma eqb_label : forall a b, sv_eqb a b = true -> local_label a = local_label b.
Proof.
  intros a b H. unfold sv_eqb, equals_to in H. destruct (normalized_releases (release a) (release b)) as [r1 r2]. repeat (apply andb_true_iff in H as [H ?]). cbn [negb orb] in *.
  destruct (local_label a), (local_label b); cbn in *; try discriminate; try reflexivity. f_equal. apply str_eqb_eq. assumption.
Qed.
Lemma key_spec : forall a b, key_ltb a b = true <-> arch a < arch b \/ arch a = arch b /\ sv_ltb a b = true.
Proof.
  intros a b. unfold key_ltb. destruct (arch a =? arch b) eqn:E.
  - apply Nat.eqb_eq in E. destruct (sv_eqb a b) eqn:Q.
    + pose proof (eqb_label a b Q) as L. unfold cuda_number. rewrite L. rewrite N.ltb_irrefl. split; [discriminate|]. intros [X|[_ X]]; [lia|].
      pose proof (proj2 (sv_incomparable a b) (or_introl (proj1 (sv_eqb_spec a b) Q))) as [Y _]. congruence.
    + split; [intros X; right; split; assumption|]. intros [X|[_ X]]; [lia|exact X].
  - apply Nat.eqb_neq in E. rewrite Nat.ltb_lt. split; [auto|]. intros [X|[X _]]; [exact X|contradiction].
Qed.
Lemma key_trans : forall a b c, key_ltb a b = true -> key_ltb b c = true -> key_ltb a c = true.
Proof.
  intros a b c H K. apply key_spec in H. apply key_spec in K. apply key_spec. destruct H as [H|[H H']], K as [K|[K K']]; try (left; lia). right. split; [congruence|].
  exact (version_ltb_trans (VStd a) (VStd b) (VStd c) H' K').
Qed.
(** nothing is before something greater *)
Definition descending (l : list sv) : Prop := forall p x q y r, l = p ++ x :: q ++ y :: r -> key_ltb x y = false.
Inductive desc : list sv -> Prop :=
| desc_nil : desc []
| desc_cons : forall x l, (forall y, In y l -> key_ltb x y = false) -> desc l -> desc (x :: l).
Lemma desc_descending : forall l, desc l -> descending l.
Proof.
  induction 1 as [|x l H D IH]; intros p a q b r E; [destruct p; discriminate|]. destruct p as [|z p]; injection E as -> ->.
  - apply H. apply in_or_app. right. left. reflexivity.
  - eapply IH. reflexivity.
Qed.
Lemma insert_in : forall x l y, In y (insert_desc x l) <-> y = x \/ In y l.
Proof. intros x l y. split; intros H. apply (Permutation_in _ (insert_perm x l)) in H. destruct H; auto. apply (Permutation_in _ (Permutation_sym (insert_perm x l))). destruct H as [->|H]; [left; reflexivity|right; exact H]. Qed.
Lemma insert_sorted : forall x l, desc l -> desc (insert_desc x l).
Proof.
  intros x l D. induction D as [|y l H D IH]; cbn; [constructor; [intros y []|constructor]|]. destruct (key_ltb y x) eqn:E.
  - constructor; [|constructor; assumption]. intros z [<-|I].
    + destruct (key_ltb x y) eqn:F; [|reflexivity]. pose proof (key_trans _ _ _ E F) as G. apply key_spec in G. destruct G as [G|[_ G]]; [lia|]. pose proof (version_ltb_irrefl (VStd y)) as Z. cbn in Z. congruence.
    + destruct (key_ltb x z) eqn:F; [|reflexivity]. rewrite <- (H z I). symmetry. eapply key_trans; eassumption.
  - constructor; [|exact IH]. intros z I. apply insert_in in I. destruct I as [->|I]; [exact E|apply H; exact I].
Qed.
Lemma sort_sorted : forall l, desc (sort_by_priority l).
Proof.
  intros l. unfold sort_by_priority. assert (G : forall acc, desc acc -> desc (fold_left (fun acc x => insert_desc x acc) l acc)).
  { induction l as [|x l IH]; intros acc D; cbn; [exact D|]. apply IH, insert_sorted, D. }
  apply G. constructor.
Qed.

(** ** the numbers of the labels *)
Lemma read_from : forall s a, fold_left (fun acc c => acc * 10 + digit_val c)%N s a = (a * 10 ^ N.of_nat (List.length s) + read_N s)%N.
Proof.
  unfold read_N. induction s as [|c s IH]; intros a; [cbn; lia|]. cbn [fold_left]. rewrite IH, (IH (0 * 10 + digit_val c)%N).
  cbn [Datatypes.length]. rewrite Nat2N.inj_succ, N.pow_succ_r'. lia.
Qed.
Lemma digit_lt : forall c, is_digit c = true -> (48 <= code c)%N /\ (digit_val c < 10)%N.
Proof. intros c H. unfold is_digit, in_range in H. apply andb_true_iff in H as [A B]. apply N.leb_le in A. apply N.leb_le in B. unfold digit_val. lia. Qed.
Lemma read_bound : forall s, forallb is_digit s = true -> (read_N s < 10 ^ N.of_nat (List.length s))%N.
Proof.
  induction s as [|c s IH]; intros H; [reflexivity|]. cbn in H. apply andb_true_iff in H as [A B]. specialize (IH B). destruct (digit_lt c A) as [_ D].
  change (read_N (c :: s)) with (fold_left (fun acc c => acc * 10 + digit_val c)%N s (0 * 10 + digit_val c)%N). rewrite read_from. cbn [Datatypes.length]. rewrite Nat2N.inj_succ, N.pow_succ_r'. nia.
Qed.
Lemma code_inj : forall a b, code a = code b -> a = b.
Proof. intros a b H. rewrite <- (ascii_N_embedding a), <- (ascii_N_embedding b). unfold code in H. rewrite H. reflexivity. Qed.
Lemma digits_ltb : forall a b, List.length a = List.length b -> forallb is_digit a = true -> forallb is_digit b = true -> (read_N a < read_N b)%N -> str_ltb a b = true.
Proof.
  induction a as [|x a IH]; intros [|y b] L A B R; try discriminate. cbn in A, B. apply andb_true_iff in A as [A1 A2]. apply andb_true_iff in B as [B1 B2]. injection L as L.
  change (read_N (x :: a)) with (fold_left (fun acc c => acc * 10 + digit_val c)%N a (0 * 10 + digit_val x)%N) in R.
  change (read_N (y :: b)) with (fold_left (fun acc c => acc * 10 + digit_val c)%N b (0 * 10 + digit_val y)%N) in R. rewrite !read_from, L in R.
  pose proof (read_bound a A2). pose proof (read_bound b B2). rewrite L in H. destruct (digit_lt x A1), (digit_lt y B1). cbn [str_ltb].
  destruct (Ascii.eqb x y) eqn:E.
  - apply Ascii.eqb_eq in E. subst y. apply IH; auto. lia.
  - apply N.ltb_lt. assert (code x <> code y) by (intros Q; apply code_inj in Q; subst; rewrite Ascii.eqb_refl in E; discriminate). unfold digit_val in *. nia.
Qed.
Lemma zip_refl : forall l, zip_less l l = None.
Proof. induction l as [|x l IH]; [reflexivity|]. cbn. rewrite N.eqb_refl. exact IH. Qed.
Lemma pre_refl : forall a, pre_less a a = None.
Proof. intros [t n]. unfold pre_less. cbn [fst snd]. rewrite str_eqb_refl, N.eqb_refl. reflexivity. Qed.
Lemma no_dot : forall d, forallb is_digit d = true -> split_on "."%char (lit "cu" ++ d) = [lit "cu" ++ d].
Proof.
  intros d H. apply split_on_single. intros I. cbn in I. destruct I as [I|[I|I]]; try discriminate. rewrite forallb_forall in H. specialize (H _ I). discriminate.
Qed.
Definition relabel (s : sv) (l : str) : sv := SV (release s) (epoch s) (pre_release s) (post_release s) (dev_release s) (Some l).
Lemma label_ltb : forall s a b, forallb is_digit a = true -> forallb is_digit b = true -> List.length a = List.length b -> (read_N a < read_N b)%N ->
  sv_ltb (relabel s (lit "cu" ++ a)) (relabel s (lit "cu" ++ b)) = true.
Proof.
  intros s a b A B L R. unfold sv_ltb, relabel, local_segments, normalized_releases. cbn [release epoch pre_release post_release dev_release local_label opt_or]. rewrite N.eqb_refl, zip_refl. cbn [negb].
  rewrite !no_dot by assumption. cbn [local_less]. pose proof (digits_ltb a b L A B R) as LT.
  assert (NE : str_eqb (lit "cu" ++ a) (lit "cu" ++ b) = false). { apply str_eqb_neq. intros E. apply app_inv_head in E. subst b. lia. }
  assert (D : forall x, all_digits (lit "cu" ++ x) = false) by reflexivity. rewrite NE, !D. cbn [andb orb]. change (str_ltb (lit "cu" ++ a) (lit "cu" ++ b)) with (str_ltb a b). rewrite LT.
  destruct (dev_release s), (pre_release s), (post_release s); rewrite ?N.eqb_refl, ?pre_refl, ?N.eqb_refl; reflexivity.
Qed.
Lemma match_spec : forall allow_cpu labels packages l, do_match allow_cpu labels packages = Ok l <->
  Forall is_standard packages /\ l = sort_by_priority (filter (offered allow_cpu labels) (flat_map std packages)).
Proof.
  intros allow_cpu labels packages l. unfold do_match. split.
  - intros H. destruct (kept allow_cpu labels packages) as [k|] eqn:K; [|discriminate]. cbn [bind] in H. injection H as <-. pose proof (kept_standard _ _ _ _ K) as F. split; [exact F|]. rewrite (kept_spec _ _ _ F) in K. injection K as <-. reflexivity.
  - intros [F ->]. rewrite (kept_spec _ _ _ F). reflexivity.
Qed.
