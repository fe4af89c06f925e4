From Coq Require Import String Ascii List Bool NArith ZArith Arith Lia.
From Verif Require Import Base BaseFacts ConfigModel.
Import ListNotations.
Open Scope list_scope.

(** the value at a path *)
Fixpoint get (c : table) (path : list str) : option val :=
  match path with
  | [] => Some (VTab c)
  | k :: rest =>
      match rest with
      | [] => dict_get k c
      | _ => match dict_get k c with Some (VTab t) => get t rest | _ => None end
      end
  end.
Definition prefix (p q : list str) : Prop := exists r, q = p ++ r.
Definition is_table (v : val) : bool := match v with VTab _ => true | _ => false end.
Definition or_null (o : option val) : val := match o with Some v => v | None => VNull end.

Lemma get_cons : forall c k k2 r, get c (k :: k2 :: r) = match dict_get k c with Some (VTab t) => get t (k2 :: r) | _ => None end.
Proof. reflexivity. Qed.
Lemma dict_get_without : forall k k2 t, dict_get k2 (dict_without k t) = if str_eqb k2 k then None else dict_get k2 t.
Proof.
  intros k k2 t. unfold dict_without. induction t as [|[k' v] t IH]; cbn [filter dict_get fst]; [destruct (str_eqb k2 k); reflexivity|].
  destruct (str_eqb k' k) eqn:E; cbn [negb dict_get].
  - apply str_eqb_eq in E. subst k'. rewrite IH. destruct (str_eqb k2 k); reflexivity.
  - rewrite IH. destruct (str_eqb k2 k') eqn:E2; [|reflexivity]. apply str_eqb_eq in E2. subst. rewrite E. reflexivity.
Qed.
Lemma dict_get_set : forall V k k2 (v : V) t, dict_get k2 (dict_set k v t) = if str_eqb k2 k then Some v else dict_get k2 t.
Proof.
  intros V k k2 v t. destruct (str_eqb k2 k) eqn:E.
  - apply str_eqb_eq in E. subst. apply dict_get_set_same.
  - apply dict_get_set_other. apply str_eqb_neq, E.
Qed.
Lemma get_nil_config : forall p ps, get [] (p :: ps) = None.
Proof. intros p [|q ps]; reflexivity. Qed.
Lemma falsy_get : forall k k2 r c, truthy (dict_get_or_none k c) = false -> get c (k :: k2 :: r) = None.
Proof.
  intros k k2 r c H. rewrite get_cons. unfold dict_get_or_none in H. destruct (dict_get k c) as [[]|]; try reflexivity.
  destruct t; [apply get_nil_config|discriminate].
Qed.
Lemma prefix_cons : forall a p q, prefix (a :: p) (a :: q) <-> prefix p q.
Proof. intros a p q. split; intros [r E]; exists r; [injection E; auto|cbn; congruence]. Qed.
Lemma prefix_nil : forall p, prefix [] p.
Proof. intro p. exists p. reflexivity. Qed.

(** ** writing *)
Lemma shove_get : forall ps c p v c', shove_parts c p ps v = Ok c' -> get c' (p :: ps) = Some v.
Proof.
  induction ps as [|p2 ps IH]; intros c p v c' H; cbn [shove_parts] in H.
  - injection H as <-. cbn. apply dict_get_set_same.
  - assert (K : forall t r, shove_parts t p2 ps v = Ok r -> get (dict_set p (VTab r) c) (p :: p2 :: ps) = Some v).
    { intros t r E. rewrite get_cons, dict_get_set_same. eapply IH, E. }
    destruct (truthy (dict_get_or_none p c)).
    + destruct (dict_get_or_none p c) as [| | | | |t]; try (destruct ps; discriminate).
      destruct (shove_parts t p2 ps v) as [r|] eqn:E; [|discriminate]. injection H as <-. eapply K, E.
    + destruct (shove_parts [] p2 ps v) as [r|] eqn:E; [|discriminate]. injection H as <-. eapply K, E.
Qed.
Lemma get_other_key : forall c k w q q2, q <> k -> get (dict_set k w c) (q :: q2) = get c (q :: q2).
Proof.
  intros c k w q q2 N. assert (E : dict_get q (dict_set k w c) = dict_get q c) by (apply dict_get_set_other, N).
  destruct q2; [exact E|rewrite !get_cons, E; reflexivity].
Qed.
Lemma shove_other : forall ps c p v c' q, shove_parts c p ps v = Ok c' -> ~ prefix (p :: ps) q -> ~ prefix q (p :: ps) -> get c' q = get c q.
Proof.
  induction ps as [|p2 ps IH]; intros c p v c' q H N1 N2; destruct q as [|q1 q]; try (exfalso; apply N2, prefix_nil); cbn [shove_parts] in H.
  - injection H as <-. apply get_other_key. intros ->. apply N1. apply prefix_cons, prefix_nil.
  - destruct (str_eqb q1 p) eqn:Q.
    2:{ apply str_eqb_neq in Q. destruct (truthy (dict_get_or_none p c)).
        - destruct (dict_get_or_none p c) as [| | | | |t]; try (destruct ps; discriminate).
          destruct (shove_parts t p2 ps v) as [r|] eqn:E; [|discriminate]. injection H as <-. apply get_other_key, Q.
        - destruct (shove_parts [] p2 ps v) as [r|] eqn:E; [|discriminate]. injection H as <-. apply get_other_key, Q. }
    apply str_eqb_eq in Q. subst q1. rewrite prefix_cons in N1, N2. destruct q as [|q2 q]; [exfalso; apply N2, prefix_nil|].
    destruct (truthy (dict_get_or_none p c)) eqn:T.
    + destruct (dict_get_or_none p c) as [| | | | |t] eqn:D; try (destruct ps; discriminate).
      destruct (shove_parts t p2 ps v) as [r|] eqn:E; [|discriminate]. injection H as <-.
      rewrite !get_cons, dict_get_set_same. unfold dict_get_or_none in D. destruct (dict_get p c) as [w|]; [|discriminate]. subst w.
      eapply IH; eassumption.
    + destruct (shove_parts [] p2 ps v) as [r|] eqn:E; [|discriminate]. injection H as <-.
      rewrite (falsy_get _ _ _ _ T). rewrite get_cons, dict_get_set_same. rewrite (IH _ _ _ _ (q2 :: q) E N1 N2). apply get_nil_config.
Qed.
(** above the path: tables stay tables, values that are not tables stay unless they are false *)
Lemma shove_above : forall ps c p v c' q r, shove_parts c p ps v = Ok c' -> q <> [] -> r <> [] -> p :: ps = q ++ r ->
  match get c q with
  | Some w => truthy w = false \/ is_table w = true
  | None => True
  end /\ exists t, get c' q = Some (VTab t).
Proof.
  induction ps as [|p2 ps IH]; intros c p v c' q r H Nq Nr E; destruct q as [|q1 q]; try congruence; cbn in E; injection E as <- E.
  - symmetry in E. apply app_eq_nil in E. destruct E as [_ ->]. congruence.
  - cbn [shove_parts] in H. destruct (truthy (dict_get_or_none p c)) eqn:T.
    + destruct (dict_get_or_none p c) as [| | | | |t] eqn:D; try (destruct ps; discriminate).
      unfold dict_get_or_none in D. destruct (dict_get p c) as [w|] eqn:G; [|discriminate]. subst w.
      destruct (shove_parts t p2 ps v) as [r2|] eqn:Es; [|discriminate]. injection H as <-. destruct q as [|q2 q].
      * cbn. rewrite G, dict_get_set_same. split; [right; reflexivity|exists r2; reflexivity].
      * rewrite !get_cons, G, dict_get_set_same. eapply IH; [exact Es|discriminate|exact Nr|exact E].
    + destruct (shove_parts [] p2 ps v) as [r2|] eqn:Es; [|discriminate]. injection H as <-. destruct q as [|q2 q].
      * cbn. rewrite dict_get_set_same. split; [|exists r2; reflexivity]. unfold dict_get_or_none in T. destruct (dict_get p c); [left; exact T|exact Logic.I].
      * rewrite (falsy_get _ _ _ _ T). split; [exact Logic.I|]. rewrite get_cons, dict_get_set_same. eapply IH; [exact Es|discriminate|exact Nr|exact E].
Qed.
Definition blocked (c : table) (path : list str) : Prop :=
  exists q r w, q <> [] /\ r <> [] /\ path = q ++ r /\ get c q = Some w /\ truthy w = true /\ is_table w = false.
Lemma blocked_down : forall c p p2 ps t, dict_get p c = Some (VTab t) -> (blocked c (p :: p2 :: ps) <-> blocked t (p2 :: ps)).
Proof.
  intros c p p2 ps t G. split; intros (q & r & w & Nq & Nr & E & Gq & T & I).
  - destruct q as [|q1 q]; [congruence|]. cbn in E. injection E as <- E. destruct q as [|q2 q].
    + cbn in Gq. rewrite G in Gq. injection Gq as <-. discriminate.
    + exists (q2 :: q), r, w. rewrite get_cons, G in Gq. repeat split; try assumption. discriminate.
  - destruct q as [|q1 q]; [congruence|]. exists (p :: q1 :: q), r, w. rewrite get_cons, G. repeat split; try assumption; [discriminate|rewrite E; reflexivity].
Qed.
Lemma blocked_none : forall c p p2 ps, truthy (dict_get_or_none p c) = false -> ~ blocked c (p :: p2 :: ps).
Proof.
  intros c p p2 ps T (q & r & w & Nq & Nr & E & Gq & Tw & I). destruct q as [|q1 q]; [congruence|]. cbn in E. injection E as <- E. destruct q as [|q2 q].
  - cbn in Gq. unfold dict_get_or_none in T. rewrite Gq in T. congruence.
  - rewrite (falsy_get _ _ _ _ T) in Gq. discriminate.
Qed.
Lemma shove_empty_ok : forall ps p v, exists r, shove_parts [] p ps v = Ok r.
Proof. induction ps as [|p2 ps IH]; intros p v; cbn; [eauto|]. destruct (IH p2 v) as [r ->]. cbn. eauto. Qed.
Lemma blocked_here : forall c p p2 ps w, dict_get p c = Some w -> truthy w = true -> is_table w = false -> blocked c (p :: p2 :: ps).
Proof. intros c p p2 ps w G T I. exists [p], (p2 :: ps), w. repeat split; try assumption; discriminate. Qed.
Lemma shove_ok_iff : forall ps c p v, (exists c', shove_parts c p ps v = Ok c') <-> ~ blocked c (p :: ps).
Proof.
  induction ps as [|p2 ps IH]; intros c p v; cbn [shove_parts].
  - split; [|eauto]. intros _ (q & r & w & Nq & Nr & E & _). destruct q as [|q1 q]; [congruence|]. injection E as _ E. symmetry in E. apply app_eq_nil in E. destruct E; congruence.
  - destruct (truthy (dict_get_or_none p c)) eqn:T.
    + unfold dict_get_or_none in *. destruct (dict_get p c) as [w|] eqn:G; [|discriminate].
      assert (B : is_table w = false -> blocked c (p :: p2 :: ps)) by (intro I; eapply blocked_here; eassumption).
      destruct w as [| | | | |t];
        try (split; [intros [c' H]; destruct ps; discriminate|intro NB; exfalso; apply NB, B; reflexivity]).
      rewrite (blocked_down c p p2 ps t G), <- (IH t p2 v). split; intros [c' H].
      * destruct (shove_parts t p2 ps v); [eauto|discriminate].
      * rewrite H. cbn. eauto.
    + split; [intros _; apply blocked_none, T|]. intros _. destruct (shove_empty_ok ps p2 v) as [r ->]. cbn. eauto.
Qed.

(** ** popping *)
Lemma pop_value : forall ps c p v c', pop_parts c p ps = Ok (v, c') -> v = or_null (get c (p :: ps)).
Proof.
  induction ps as [|p2 ps IH]; intros c p v c' H; cbn [pop_parts] in H.
  - injection H as <- _. reflexivity.
  - destruct (truthy (dict_get_or_none p c)) eqn:T.
    + unfold dict_get_or_none in *. destruct (dict_get p c) as [w|] eqn:G; [|discriminate]. destruct w as [| | | | |t]; try discriminate.
      destruct (pop_parts t p2 ps) as [[x y]|] eqn:E; [|discriminate]. injection H as <- _. rewrite get_cons, G. eapply IH, E.
    + injection H as <- _. rewrite (falsy_get _ _ _ _ T). reflexivity.
Qed.
Lemma pop_gone : forall ps c p v c', pop_parts c p ps = Ok (v, c') -> get c' (p :: ps) = None.
Proof.
  induction ps as [|p2 ps IH]; intros c p v c' H; cbn [pop_parts] in H.
  - injection H as _ <-. cbn. rewrite dict_get_without, str_eqb_refl. reflexivity.
  - destruct (truthy (dict_get_or_none p c)) eqn:T.
    + unfold dict_get_or_none in *. destruct (dict_get p c) as [w|] eqn:G; [|discriminate]. destruct w as [| | | | |t]; try discriminate.
      destruct (pop_parts t p2 ps) as [[x y]|] eqn:E; [|discriminate]. injection H as _ <-. rewrite get_cons, dict_get_set_same. eapply IH, E.
    + injection H as _ <-. apply falsy_get, T.
Qed.
Lemma pop_other : forall ps c p v c' q, pop_parts c p ps = Ok (v, c') -> ~ prefix (p :: ps) q -> ~ prefix q (p :: ps) -> get c' q = get c q.
Proof.
  induction ps as [|p2 ps IH]; intros c p v c' q H N1 N2; destruct q as [|q1 q]; try (exfalso; apply N2, prefix_nil); cbn [pop_parts] in H.
  - injection H as _ <-. assert (q1 <> p) by (intros ->; apply N1, prefix_cons, prefix_nil).
    assert (E : dict_get q1 (dict_without p c) = dict_get q1 c) by (rewrite dict_get_without; apply str_eqb_neq in H; rewrite H; reflexivity).
    destruct q; [exact E|rewrite !get_cons, E; reflexivity].
  - destruct (truthy (dict_get_or_none p c)) eqn:T.
    + unfold dict_get_or_none in *. destruct (dict_get p c) as [w|] eqn:G; [|discriminate]. destruct w as [| | | | |t]; try discriminate.
      destruct (pop_parts t p2 ps) as [[x y]|] eqn:E; [|discriminate]. injection H as _ <-. cbn [snd].
      destruct (str_eqb q1 p) eqn:Q; [|apply get_other_key, str_eqb_neq, Q]. apply str_eqb_eq in Q. subst q1.
      rewrite prefix_cons in N1, N2. destruct q as [|q2 q]; [exfalso; apply N2, prefix_nil|].
      rewrite !get_cons, G, dict_get_set_same. eapply IH; eassumption.
    + injection H as _ <-. reflexivity.
Qed.
Lemma pop_above : forall ps c p v c' q r, pop_parts c p ps = Ok (v, c') -> q <> [] -> r <> [] -> p :: ps = q ++ r ->
  get c' q = get c q \/ exists t t', get c q = Some (VTab t) /\ get c' q = Some (VTab t').
Proof.
  induction ps as [|p2 ps IH]; intros c p v c' q r H Nq Nr E; destruct q as [|q1 q]; try congruence; cbn in E; injection E as <- E.
  - symmetry in E. apply app_eq_nil in E. destruct E as [_ ->]. congruence.
  - cbn [pop_parts] in H. destruct (truthy (dict_get_or_none p c)) eqn:T.
    + unfold dict_get_or_none in *. destruct (dict_get p c) as [w|] eqn:G; [|discriminate]. destruct w as [| | | | |t]; try discriminate.
      destruct (pop_parts t p2 ps) as [[x y]|] eqn:Es; [|discriminate]. injection H as _ <-. cbn [snd]. destruct q as [|q2 q].
      * right. exists t, y. split; [exact G|]. cbn. apply dict_get_set_same.
      * rewrite !get_cons, G, dict_get_set_same. eapply IH; [exact Es|discriminate|exact Nr|exact E].
    + injection H as _ <-. auto.
Qed.
Lemma pop_ok_iff : forall ps c p, (exists r, pop_parts c p ps = Ok r) <-> ~ blocked c (p :: ps).
Proof.
  induction ps as [|p2 ps IH]; intros c p; cbn [pop_parts].
  - split; [|eauto]. intros _ (q & r & w & Nq & Nr & E & _). destruct q as [|q1 q]; [congruence|]. injection E as _ E. symmetry in E. apply app_eq_nil in E. destruct E; congruence.
  - destruct (truthy (dict_get_or_none p c)) eqn:T.
    + unfold dict_get_or_none in *. destruct (dict_get p c) as [w|] eqn:G; [|discriminate].
      assert (B : is_table w = false -> blocked c (p :: p2 :: ps)) by (intro I; eapply blocked_here; eassumption).
      destruct w as [| | | | |t];
        try (split; [intros [c' H]; discriminate|intro NB; exfalso; apply NB, B; reflexivity]).
      rewrite (blocked_down c p p2 ps t G), <- (IH t p2). split; intros [c' H].
      * destruct (pop_parts t p2 ps); [eauto|discriminate].
      * rewrite H. cbn. eauto.
    + split; [intros _; apply blocked_none, T|eauto].
Qed.
Lemma key_parts_eq : forall key, fst (key_parts key) :: snd (key_parts key) = split_on "." key.
Proof. intro key. unfold key_parts. pose proof (split_on_nonempty "." key). destruct (split_on "." key); [congruence|reflexivity]. Qed.
Lemma key_parts_simple : forall key, ~ In "."%char key -> key_parts key = (key, []).
Proof. intros key H. unfold key_parts. rewrite split_on_single by exact H. reflexivity. Qed.
