(** Lemmas about PublishModel. *)
From Coq Require Import String Ascii List Bool NArith Arith Lia Permutation Sorted.
From Verif Require Import Base BaseFacts RepoModel PlanProofs PublishModel.
From Verif Require PlanModel.
Import PlanModel(dict_update).
Import ListNotations.
Open Scope string_scope.
Open Scope nat_scope.
Open Scope list_scope.
Open Scope bool_scope.

Lemma Ok_inj : forall A (a b : A), Ok a = Ok b -> a = b.
Proof. intros A a b H. injection H as H. exact H. Qed.
(** the payloads of the fields of a name, in order *)
Definition sent (fs : list field) (k : str) : list str := map f_payload (filter (fun f => str_eqb (f_name f) k) fs).

Lemma sent_app : forall a b k, sent (a ++ b) k = sent a k ++ sent b k.
Proof. intros a b k. unfold sent. rewrite filter_app, map_app. reflexivity. Qed.
Lemma sent_one : forall k k' l, sent (map (fun s => Field k s None) l) k' = if str_eqb k k' then l else [].
Proof.
  intros k k' l. unfold sent. induction l as [|s l IH]; cbn [map filter f_name].
  - destruct (str_eqb k k'); reflexivity.
  - destruct (str_eqb k k') eqn:E; cbn [map f_payload]; [f_equal; exact IH|exact IH].
Qed.
Definition fields_of (d : list (str * mval)) : list field := flat_map (fun e => map (fun s => Field (fst e) s None) (values (snd e))) d.
Lemma sent_fields : forall d k, NoDup (map fst d) -> sent (fields_of d) k = match dict_get k d with Some v => values v | None => [] end.
Proof.
  induction d as [|[k' v] d IH]; intros k N; [reflexivity|]. cbn [map fst] in N. apply NoDup_cons_iff in N. destruct N as [N1 N2].
  unfold fields_of. cbn [flat_map fst snd]. fold (fields_of d). rewrite sent_app, sent_one, (IH k N2). cbn [dict_get].
  destruct (str_eqb k' k) eqn:E.
  - apply str_eqb_eq in E. subst k'. rewrite str_eqb_refl. destruct (dict_get k d) as [w|] eqn:G.
    + exfalso. apply N1. apply dict_get_in in G. apply in_map_iff. exists (k, w). split; [reflexivity|exact G].
    + apply app_nil_r.
  - destruct (str_eqb k k') eqn:E'; [apply str_eqb_eq in E'; subst k'; rewrite str_eqb_refl in E; discriminate|]. reflexivity.
Qed.

Definition base_data (meta : list (str * mval)) : list (str * mval) := dict_update [] (map (fun e => (upload_key (fst e), snd e)) meta).
Lemma upload_ok : forall h m name content fs, upload h m name content = Ok fs -> exists pv, py_version name = Ok pv
  /\ forallb (fun e => sendable (snd e)) (dict_update (base_data m) (special h name content pv)) = true
  /\ fs = fields_of (dict_update (base_data m) (special h name content pv)) ++ [Field (lit "content") content (Some name)].
Proof.
  intros h m name content fs H. unfold upload in H. destruct (py_version name) as [pv|e] eqn:P; [|discriminate H]. cbn [bind] in H. exists pv.
  fold (base_data m) in H. split; [reflexivity|].
  destruct (forallb (fun e => sendable (snd e)) (dict_update (base_data m) (special h name content pv))) eqn:F; [|discriminate H].
  apply Ok_inj in H. split; [reflexivity|]. symmetry. exact H.
Qed.
Lemma base_nodup : forall m, NoDup (map fst (base_data m)).
Proof. intro m. apply dict_update_nodup. constructor. Qed.
Lemma special_keys : forall h name content pv, map fst (special h name content pv)
  = [lit "filetype"; lit "pyversion"; lit "md5_digest"; lit "sha256_digest"; lit "blake2_256_digest"; lit ":action"; lit "protocol_version"].
Proof. reflexivity. Qed.
Lemma nodup_str : forall l : list str, (fix nd l := match l with [] => true | x :: r => negb (existsb (str_eqb x) r) && nd r end) l = true -> NoDup l.
Proof.
  induction l as [|x l IH]; intro H; [constructor|]. apply andb_prop in H. destruct H as [H1 H2]. constructor; [|apply IH; exact H2].
  intro I. apply negb_true_iff in H1. assert (existsb (str_eqb x) l = true) by (apply existsb_exists; exists x; split; [exact I|apply str_eqb_refl]). congruence.
Qed.
Lemma special_nodup : forall h name content pv, NoDup (map fst (special h name content pv)).
Proof. intros. rewrite special_keys. apply nodup_str. reflexivity. Qed.

(** ** base64 *)
Definition bits (n : N) : sextet := (N.testbit n 5, N.testbit n 4, N.testbit n 3, N.testbit n 2, N.testbit n 1, N.testbit n 0).
Definition unletter (c : ascii) : option sextet :=
  let n := N_of_ascii c in
  if (65 <=? n)%N && (n <=? 90)%N then Some (bits (n - 65)) else if (97 <=? n)%N && (n <=? 122)%N then Some (bits (n - 97 + 26))
  else if (48 <=? n)%N && (n <=? 57)%N then Some (bits (n - 48 + 52)) else if (n =? 43)%N then Some (bits 62) else if (n =? 47)%N then Some (bits 63) else None.
Lemma unletter_letter : forall s, unletter (letter s) = Some s.
Proof. intros [[[[[a b] c] d] e] f]. destruct a, b, c, d, e, f; vm_compute; reflexivity. Qed.
Lemma letter_not_pad : forall s, letter s <> "="%char.
Proof. intros [[[[[a b] c] d] e] f]. destruct a, b, c, d, e, f; vm_compute; discriminate. Qed.
Lemma letter_inj : forall s t, letter s = letter t -> s = t.
Proof. intros s t H. assert (X : unletter (letter s) = unletter (letter t)) by (rewrite H; reflexivity). rewrite !unletter_letter in X. injection X as X. exact X. Qed.
(** reading of RFC 4648 *)
Fixpoint b64decode (l : str) : option (list ascii) :=
  match l with
  | [] => Some []
  | w :: x :: y :: z :: r =>
      match unletter w, unletter x with
      | Some (a7, a6, a5, a4, a3, a2), Some (a1, a0, b7, b6, b5, b4) =>
          match unletter y, unletter z with
          | Some (b3, b2, b1, b0, c7, c6), Some (c5, c4, c3, c2, c1, c0) =>
              option_map (fun t => Ascii a0 a1 a2 a3 a4 a5 a6 a7 :: Ascii b0 b1 b2 b3 b4 b5 b6 b7 :: Ascii c0 c1 c2 c3 c4 c5 c6 c7 :: t) (b64decode r)
          | Some (b3, b2, b1, b0, _, _), None =>
              if Ascii.eqb z "=" then match r with [] => Some [Ascii a0 a1 a2 a3 a4 a5 a6 a7; Ascii b0 b1 b2 b3 b4 b5 b6 b7] | _ => None end else None
          | None, _ => if Ascii.eqb y "=" && Ascii.eqb z "=" then match r with [] => Some [Ascii a0 a1 a2 a3 a4 a5 a6 a7] | _ => None end else None
          end
      | _, _ => None
      end
  | _ => None
  end.
Lemma unletter_pad : unletter "=" = None.
Proof. reflexivity. Qed.
Lemma b64_three : forall n l, length l <= n -> b64decode (b64encode l) = Some l.
Proof.
  induction n as [|n IH]; intros l L.
  - destruct l; [reflexivity|cbn [length] in L; lia].
  - destruct l as [|[a0 a1 a2 a3 a4 a5 a6 a7] [|[b0 b1 b2 b3 b4 b5 b6 b7] [|[c0 c1 c2 c3 c4 c5 c6 c7] r]]]; cbn [b64encode b64decode].
    + reflexivity.
    + rewrite !unletter_letter, unletter_pad. reflexivity.
    + rewrite !unletter_letter, unletter_pad. reflexivity.
    + rewrite !unletter_letter. rewrite IH by (cbn [length] in L; lia). reflexivity.
Qed.
Lemma b64_round : forall l, b64decode (b64encode l) = Some l.
Proof. intro l. apply (b64_three (length l)). lia. Qed.

(** up to the first colon, and what follows it *)
Fixpoint cut_colon (s : str) : option (str * str) :=
  match s with
  | [] => None
  | c :: r => if Ascii.eqb c ":" then Some ([], r) else option_map (fun e => (c :: fst e, snd e)) (cut_colon r)
  end.
Lemma cut_colon_app : forall u p, ~ In ":"%char u -> cut_colon (u ++ lit ":" ++ p) = Some (u, p).
Proof.
  induction u as [|c u IH]; intros p N; [reflexivity|]. cbn [app cut_colon]. destruct (Ascii.eqb c ":") eqn:E.
  - apply Ascii.eqb_eq in E. subst c. exfalso. apply N. left. reflexivity.
  - rewrite IH by (intro X; apply N; right; exact X). reflexivity.
Qed.

(** ** markers *)
Lemma ltb_cases : forall a b, str_ltb a b = true \/ a = b \/ str_ltb b a = true.
Proof. intros a b. destruct (str_ltb a b) eqn:E; [left; reflexivity|right]. destruct (str_ltb b a) eqn:E'; [right; reflexivity|left]. apply str_ltb_total; assumption. Qed.
Lemma insert_perm : forall x l, Permutation (insert_marker x l) (x :: l).
Proof.
  intros x l. induction l as [|y l IH]; [reflexivity|]. cbn [insert_marker]. destruct (str_ltb (fst x) (fst y)); [reflexivity|].
  rewrite IH. apply perm_swap.
Qed.
Lemma sort_perm_aux : forall l d, Permutation (fold_left (fun d x => insert_marker x d) l d) (l ++ d).
Proof.
  induction l as [|x l IH]; intro d; [reflexivity|]. cbn [fold_left]. rewrite IH, insert_perm. cbn [app]. symmetry. apply Permutation_middle.
Qed.
Lemma sort_perm : forall l, Permutation (sort_markers l) l.
Proof. intro l. unfold sort_markers. rewrite sort_perm_aux, app_nil_r. reflexivity. Qed.
Definition below (a b : str * str) : Prop := str_ltb (fst b) (fst a) = false.
Lemma below_trans : forall a b c, below a b -> below b c -> below a c.
Proof.
  unfold below. intros a b c H1 H2. destruct (str_ltb (fst c) (fst a)) eqn:E; [|reflexivity]. exfalso.
  destruct (ltb_cases (fst a) (fst b)) as [T|[T|T]].
  - assert (X := str_ltb_trans _ _ _ E T). congruence.
  - rewrite T in E. congruence.
  - congruence.
Qed.
Lemma insert_sorted : forall x l, StronglySorted below l -> StronglySorted below (insert_marker x l).
Proof.
  intros x l S. induction S as [|y l S IH F]; [repeat constructor|]. cbn [insert_marker]. destruct (str_ltb (fst x) (fst y)) eqn:E.
  - assert (B : below x y) by (unfold below; destruct (str_ltb (fst y) (fst x)) eqn:E'; [|reflexivity]; assert (X := str_ltb_trans _ _ _ E E'); rewrite str_ltb_irrefl in X; discriminate).
    constructor; [constructor; assumption|]. constructor; [exact B|]. eapply Forall_impl; [|exact F]. intros z Z. eapply below_trans; eassumption.
  - constructor; [exact IH|]. eapply Permutation_Forall; [symmetry; apply insert_perm|]. constructor; [exact E|exact F].
Qed.
Lemma sort_sorted : forall l, StronglySorted below (sort_markers l).
Proof.
  intro l. unfold sort_markers. assert (G : forall l d, StronglySorted below d -> StronglySorted below (fold_left (fun d x => insert_marker x d) l d)).
  { induction l0 as [|x l0 IH]; intros d S; [exact S|]. cbn [fold_left]. apply IH. apply insert_sorted. exact S. }
  apply G. constructor.
Qed.
Lemma sorted_unique : forall l l', StronglySorted below l -> StronglySorted below l' -> NoDup (map fst l) -> Permutation l l' -> l = l'.
Proof.
  induction l as [|x l IH]; intros l' S S' N P.
  - apply Permutation_nil in P. symmetry. exact P.
  - destruct l' as [|y l']; [symmetry in P; apply Permutation_nil in P; discriminate|].
    assert (XY : x = y).
    { assert (I : In x (y :: l')) by (eapply Permutation_in; [exact P|left; reflexivity]). assert (J : In y (x :: l)) by (eapply Permutation_in; [symmetry; exact P|left; reflexivity]).
      destruct I as [I|I]; [symmetry; exact I|]. destruct J as [J|J]; [exact J|].
      inversion S as [|? ? _ F]; subst. inversion S' as [|? ? _ F']; subst. rewrite Forall_forall in F, F'. specialize (F y J). specialize (F' x I).
      unfold below in F, F'. exfalso. destruct (ltb_cases (fst x) (fst y)) as [T|[T|T]]; [congruence| |congruence].
      cbn [map fst] in N. apply NoDup_cons_iff in N. apply (proj1 N). apply in_map_iff. exists y. split; [symmetry; exact T|exact J]. }
    subst y. f_equal. inversion S; subst. inversion S'; subst. cbn [map] in N. apply NoDup_cons_iff in N. apply IH; try assumption; [apply N|].
    apply Permutation_cons_inv in P. exact P.
Qed.
Lemma sort_order : forall l l', NoDup (map fst l) -> Permutation l l' -> sort_markers l = sort_markers l'.
Proof.
  intros l l' N P. apply sorted_unique; [apply sort_sorted|apply sort_sorted| |].
  - eapply Permutation_NoDup; [|exact N]. apply Permutation_map. symmetry. apply sort_perm.
  - rewrite sort_perm, P. symmetry. apply sort_perm.
Qed.
(** up to the first "=", and what follows it *)
Lemma equals_inj : forall k k' v v', ~ In "="%char k -> ~ In "="%char k' -> k ++ lit "=" ++ v = k' ++ lit "=" ++ v' -> k = k' /\ v = v'.
Proof.
  induction k as [|c k IH]; intros [|c' k'] v v' N N' H.
  - split; [reflexivity|]. injection H as H. exact H.
  - exfalso. injection H as H1 _. subst c'. apply N'. left. reflexivity.
  - exfalso. injection H as H1 _. subst c. apply N. left. reflexivity.
  - injection H as H1 H2. subst c'. destruct (IH k' v v') as [A B]; [intro X; apply N; right; exact X|intro X; apply N'; right; exact X|exact H2|]. subst. split; reflexivity.
Qed.
Definition piece (e : str * str) : str := fst e ++ lit "=" ++ snd e.
Definition plain_marker (e : str * str) : Prop := ~ In "="%char (fst e) /\ ~ In ";"%char (fst e) /\ ~ In ";"%char (snd e).
Lemma piece_plain : forall e, plain_marker e -> ~ In ";"%char (piece e).
Proof.
  intros e (A & B & C) I. unfold piece in I. apply in_app_iff in I. destruct I as [I|I]; [contradiction|]. apply in_app_iff in I. destruct I as [I|I]; [|contradiction].
  cbv in I. destruct I as [I|[]]. discriminate I.
Qed.
Lemma pieces_inj : forall l l', Forall plain_marker l -> Forall plain_marker l' -> map piece l = map piece l' -> l = l'.
Proof.
  induction l as [|x l IH]; intros [|y l'] F F' H; try discriminate H; [reflexivity|]. cbn [map] in H. injection H as H1 H2.
  inversion F as [|? ? P F1]; subst. inversion F' as [|? ? P' F1']; subst. unfold piece in H1. destruct (equals_inj _ _ _ _ (proj1 P) (proj1 P') H1) as [A B].
  rewrite (IH l' F1 F1' H2). destruct x, y. cbn [fst snd] in *. subst. reflexivity.
Qed.
Lemma join_pieces : forall l, Forall plain_marker l -> l <> [] -> split_on ";" (join (lit ";") (map piece l)) = map piece l.
Proof.
  intros l F N. apply split_join; [destruct l; [contradiction|discriminate]|]. intros w I. apply in_map_iff in I. destruct I as (e & <- & I). rewrite Forall_forall in F. apply piece_plain. apply F. exact I.
Qed.
Lemma join_pieces_inj : forall l l', Forall plain_marker l -> Forall plain_marker l' -> join (lit ";") (map piece l) = join (lit ";") (map piece l') -> l = l'.
Proof.
  intros l l' F F' H. apply pieces_inj; [exact F|exact F'|].
  assert (E : forall x m, join (lit ";") (map piece (x :: m)) <> []).
  { intros x m X. destruct x as [[|c k] v]; destruct m; discriminate X. }
  destruct l as [|x l]; destruct l' as [|y l'].
  - reflexivity.
  - exfalso. exact (E y l' (eq_sym H)).
  - exfalso. exact (E x l H).
  - rewrite <- (join_pieces (x :: l) F) by discriminate. rewrite <- (join_pieces (y :: l') F') by discriminate. rewrite H. reflexivity.
Qed.
