(** Lemmas for new tasks. *)
From Coq Require Import String Ascii List Bool NArith Arith Lia.
From Verif Require Import Base BaseFacts TaskModel TaskProofs NewTaskModel.
Import ListNotations.
Open Scope string_scope. Open Scope nat_scope. Open Scope list_scope. Open Scope bool_scope.

Lemma set_in : forall (l : list (str * node)) k x, In (k, x) (dict_set k x l).
Proof. intros l k x. apply dict_get_in. apply dict_get_set_same. Qed.
Lemma put_at : forall dirs file l l', put dirs file l = Ok l' -> at_path (Folder l') (dirs ++ [file]) (Script true).
Proof.
  induction dirs as [|d dirs IH]; intros file l l' H; cbn [put app] in *.
  - destruct (dict_get file l); try discriminate H; apply Ok_inj in H; subst l'; (econstructor; [apply set_in|constructor]).
  - destruct (dict_get d l) as [[b|k]|]; try discriminate H.
    + destruct (put dirs file k) as [k'|] eqn:E; [|discriminate H]. cbn [bind] in H. apply Ok_inj in H. subst l'. econstructor; [apply set_in|]. exact (IH _ _ _ E).
    + destruct (put dirs file []) as [k'|] eqn:E; [|discriminate H]. cbn [bind] in H. apply Ok_inj in H. subst l'. econstructor; [apply set_in|]. exact (IH _ _ _ E).
Qed.
Lemma parts_split : forall name, task_parts name = task_path name ++ [task_name name].
Proof. intro name. unfold task_path, task_name. apply app_removelast_last. apply split_on_nonempty. Qed.
Lemma dash_free : forall s, underscored (underscored s) = underscored s.
Proof. intro s. apply underscored_same. apply underscored_no_dash. Qed.
(** ** a tidy tree stays tidy *)
Lemma set_nodup : forall (l : list (str * node)) k v, NoDup (map fst l) -> NoDup (map fst (dict_set k v l)).
Proof.
  intros l k v. induction l as [|[a b] l IH]; intro H; [repeat constructor; auto|]. cbn [dict_set]. destruct (str_eqb k a) eqn:E.
  - apply str_eqb_eq in E. subst a. exact H.
  - cbn [map fst] in *. inversion H as [|? ? N H']; subst. constructor; [|exact (IH H')]. intro X. apply N. clear - X E. induction l as [|[c d] l IH]; cbn [dict_set map fst In] in *.
    + destruct X as [X|[]]. subst a. rewrite str_eqb_refl in E. discriminate E.
    + destruct (str_eqb k c) eqn:F; cbn [map fst In] in X; [exact X|]. destruct X as [X|X]; [left; exact X|right; exact (IH X)].
Qed.
Lemma tidy_iff : forall l, tidy (Folder l) <-> tidy_folder l /\ forall name x, In (name, x) l -> tidy x.
Proof.
  intro l. split.
  - intro T. split; [exact (T [] l (at_here _))|]. intros name x I. exact (tidy_below _ _ _ T I).
  - intros [F B] q k A. inversion A as [|? name x q' y I X]; subst; [exact F|]. exact (B _ _ I _ _ X).
Qed.
(** the place of the new task is free: no directory has the name of the file, no file that of a directory *)
Fixpoint free (dirs : list str) (s : str) (l : list (str * node)) : Prop :=
  match dirs with
  | [] => forall k, ~ In (s, Folder k) l
  | d :: r => (forall b, ~ In (d ++ lit ".py", Script b) l) /\ forall k, In (d, Folder k) l -> free r s k
  end.
Lemma tidy_none : tidy (Folder []).
Proof. apply tidy_iff. split; [split; [constructor|split; intros; contradiction]|intros; contradiction]. Qed.
Lemma set_iff : forall (l : list (str * node)) k v q n, NoDup (map fst l) -> In (q, n) (dict_set k v l) -> (q = k /\ n = v) \/ (q <> k /\ In (q, n) l).
Proof.
  intros l k v q n N I. apply (nodup_dict_get _ _ _ _ (set_nodup l k v N)) in I. destruct (str_eqb q k) eqn:E.
  - apply str_eqb_eq in E. subst q. rewrite dict_get_set_same in I. left. split; congruence.
  - right. assert (X : q <> k) by (intro Y; subst q; rewrite str_eqb_refl in E; discriminate E). split; [exact X|]. rewrite dict_get_set_other in I by exact X. apply dict_get_in. exact I.
Qed.
Lemma folder_tidy : forall l d k, tidy (Folder l) -> plain_name d -> (forall b, ~ In (d ++ lit ".py", Script b) l) -> tidy (Folder k) -> tidy (Folder (dict_set d (Folder k) l)).
Proof.
  intros l d k T P F K. apply tidy_iff in T. destruct T as [(N & D & S) B]. apply tidy_iff. split; [split; [|split]|].
  - apply set_nodup. exact N.
  - intros name k' I. apply (set_iff _ _ _ _ _ N) in I. destruct I as [[E _]|[_ I]]; [subst; exact P|exact (D _ _ I)].
  - intros s b I. apply (set_iff _ _ _ _ _ N) in I. destruct I as [[_ E]|[_ I]]; [discriminate E|]. destruct (S s b I) as [Q R]. split; [exact Q|].
    intros k' X. apply (set_iff _ _ _ _ _ N) in X. destruct X as [[E _]|[_ X]]; [subst s; exact (F b I)|exact (R _ X)].
  - intros name x I. apply (set_iff _ _ _ _ _ N) in I. destruct I as [[_ E]|[_ I]]; [subst x; exact K|exact (B _ _ I)].
Qed.
Lemma put_tidy : forall dirs s l l', Forall plain_name dirs -> plain_name s -> free dirs s l -> tidy (Folder l) -> put dirs (s ++ lit ".py") l = Ok l' -> tidy (Folder l').
Proof.
  induction dirs as [|d dirs IH]; intros s l l' P Q F T H; cbn [put] in H.
  - unfold str in *. destruct (dict_get (s ++ lit ".py") l) eqn:G; [discriminate H|]. apply Ok_inj in H. subst l'. cbn [free] in F. apply tidy_iff in T. destruct T as [(N & D & S) B]. apply tidy_iff. split; [split; [|split]|].
    + apply set_nodup. exact N.
    + intros name k I. apply (set_iff _ _ _ _ _ N) in I. destruct I as [[_ E]|[_ I]]; [discriminate E|exact (D _ _ I)].
    + intros t b I. assert (X : forall k, In (t, Folder k) (dict_set (s ++ lit ".py") (Script true) l) -> In (t, Folder k) l).
      { intros k X. apply (set_iff _ _ _ _ _ N) in X. destruct X as [[_ E]|[_ X]]; [discriminate E|exact X]. }
      apply (set_iff _ _ _ _ _ N) in I. destruct I as [[E _]|[_ I]].
      * apply app_inv_tail in E. subst t. split; [exact Q|]. intros k Y. exact (F k (X k Y)).
      * destruct (S t b I) as [S1 S2]. split; [exact S1|]. intros k Y. exact (S2 k (X k Y)).
    + intros name x I. apply (set_iff _ _ _ _ _ N) in I. destruct I as [[_ E]|[_ I]]; [|exact (B _ _ I)]. subst x. intros q k A. inversion A.
  - inversion P as [|? ? P1 P2]; subst. cbn [free] in F. destruct F as [F1 F2]. destruct (dict_get d l) as [[b|k]|] eqn:G; try discriminate H.
    + destruct (put dirs (s ++ lit ".py") k) as [k'|] eqn:E; [|discriminate H]. cbn [bind] in H. apply Ok_inj in H. subst l'. apply dict_get_in in G.
      apply folder_tidy; [exact T|exact P1|exact F1|]. exact (IH s k k' P2 Q (F2 _ G) (tidy_below _ _ _ T G) E).
    + destruct (put dirs (s ++ lit ".py") []) as [k'|] eqn:E; [|discriminate H]. cbn [bind] in H. apply Ok_inj in H. subst l'.
      apply folder_tidy; [exact T|exact P1|exact F1|]. refine (IH s [] k' P2 Q _ tidy_none E). clear. destruct dirs as [|c r]; cbn [free]; [intros k []|]. split; [intros b []|intros k []].
Qed.
Lemma split_chars : forall c s w x, In w (split_on c s) -> In x w -> In x s.
Proof.
  intros c s. induction s as [|a s IH]; intros w x I X; cbn [split_on] in I.
  - destruct I as [I|[]]. subst w. exact X.
  - destruct (Ascii.eqb a c).
    + destruct I as [I|I]; [subst w; destruct X|]. right. exact (IH _ _ I X).
    + destruct (split_on c s) as [|h t] eqn:E.
      * destruct I as [I|[]]. subst w. destruct X as [X|[]]. left. exact X.
      * destruct I as [I|I].
        -- subst w. destruct X as [X|X]; [left; exact X|]. right. apply (IH h x); [left; reflexivity|exact X].
        -- right. apply (IH w x); [right; exact I|exact X].
Qed.
Lemma parts_plain : forall name, ~ In [] (task_parts name) -> Forall plain_name (task_path name) /\ plain_name (task_name name).
Proof.
  intros name H. assert (A : Forall plain_name (task_parts name)).
  { apply Forall_forall. intros w I. split; [intro E; subst w; exact (H I)|]. split; [exact (split_on_no_char _ _ _ I)|]. intro X. exact (underscored_no_dash name (split_chars _ _ _ _ I X)). }
  rewrite parts_split in A. apply Forall_app in A. destruct A as [A B]. split; [exact A|]. inversion B; assumption.
Qed.
