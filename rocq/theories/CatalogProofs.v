(** Facts about the templates that can be used. *)
From Coq Require Import String Ascii List Bool NArith Arith Lia.
From Verif Require Import Base BaseFacts TaskModel TaskProofs CatalogModel.
Import ListNotations.
Open Scope string_scope.
Open Scope nat_scope.
Open Scope list_scope.
Open Scope bool_scope.

(** the outermost directories with an entry render.py *)
Inductive template_at : node -> list str -> Prop :=
  | template_here : forall l, In (lit "render.py") (map fst l) -> template_at (Folder l) []
  | template_below : forall l name k q, ~ In (lit "render.py") (map fst l) -> In (name, Folder k) l -> template_at (Folder k) q ->
      template_at (Folder l) (name :: q).

Fixpoint scan (pre : list str) (l : list (str * node)) (result : list str) : res (list str) :=
  match l with
  | [] => Ok result
  | (name, x) :: r =>
    if str_eqb name render_py then Ok [join (lit ".") pre]
    else match x with
         | Script _ => scan pre r result
         | Folder _ => if existsb (Ascii.eqb ".") name then Err IOErr
                       else do sub <- find x (pre ++ [name]); scan pre r (result ++ sub)
         end
  end.
Lemma find_folder : forall l pre, find (Folder l) pre = scan pre l [].
Proof.
  intros l pre. cbn [find].
  match goal with |- ?g l [] = _ => assert (G : forall l acc, g l acc = scan pre l acc); [|apply G] end.
  clear l. induction l as [|[name x] l IH]; intros acc; [reflexivity|]. cbn [scan].
  destruct (str_eqb name render_py); [reflexivity|]. destruct x as [b|k]; [apply IH|].
  destruct (existsb (Ascii.eqb ".") name); [reflexivity|].
  match goal with |- bind ?u _ = bind ?v _ => change u with v; destruct v; cbn [bind]; [apply IH|reflexivity] end.
Qed.
Lemma scan_spec : forall pre l acc out, scan pre l acc = Ok out ->
  (In render_py (map fst l) /\ out = [join (lit ".") pre]) \/
  (~ In render_py (map fst l) /\
   (forall y, In y out -> In y acc \/ exists name k h, In (name, Folder k) l /\ find (Folder k) (pre ++ [name]) = Ok h /\ In y h) /\
   (forall y, In y acc -> In y out) /\
   (forall name k, In (name, Folder k) l -> exists h, find (Folder k) (pre ++ [name]) = Ok h /\ incl h out)).
Proof.
  intros pre l. induction l as [|[name x] l IH]; intros acc out H; cbn [scan] in H.
  - apply Ok_inj in H. subst. right. cbn. repeat split; auto; intros ? ? [].
  - destruct (str_eqb name render_py) eqn:En.
    + apply str_eqb_eq in En. apply Ok_inj in H. subst. left. split; [left; reflexivity|reflexivity].
    + assert (Hne : name <> render_py) by (intros X; rewrite X, str_eqb_refl in En; discriminate). destruct x as [b|k].
      * destruct (IH _ _ H) as [[Hi Ho]|(Hi & H1 & H2 & H3)]; [left; split; [right; exact Hi|exact Ho]|right].
        split; [intros [X|X]; [exact (Hne X)|exact (Hi X)]|]. split; [|split; [exact H2|]].
        -- intros y Hy. destruct (H1 y Hy) as [Ha|(n2 & k2 & h & Hin & Hf & Hh)]; [left; exact Ha|]. right. exists n2, k2, h. split; [right; exact Hin|auto].
        -- intros n2 k2 [X|X]; [discriminate|exact (H3 _ _ X)].
      * destruct (existsb (Ascii.eqb ".") name); [discriminate|]. apply bind_ok in H. destruct H as (sub & Hsub & H).
        destruct (IH _ _ H) as [[Hi Ho]|(Hi & H1 & H2 & H3)]; [left; split; [right; exact Hi|exact Ho]|right].
        split; [intros [X|X]; [exact (Hne X)|exact (Hi X)]|]. split; [|split].
        -- intros y Hy. destruct (H1 y Hy) as [Ha|(n2 & k2 & h & Hin & Hf & Hh)].
           ++ apply in_app_or in Ha. destruct Ha as [Ha|Ha]; [left; exact Ha|]. right. exists name, k, sub. split; [left; reflexivity|auto].
           ++ right. exists n2, k2, h. split; [right; exact Hin|auto].
        -- intros y Hy. apply H2. apply in_or_app. left. exact Hy.
        -- intros n2 k2 [X|X]; [|exact (H3 _ _ X)]. injection X as <- <-. exists sub. split; [exact Hsub|]. intros y Hy. apply H2. apply in_or_app. right. exact Hy.
Qed.
Lemma find_spec : forall n pre out, find n pre = Ok out ->
  forall y, In y out <-> exists dirs, y = join (lit ".") (pre ++ dirs) /\ template_at n dirs.
Proof.
  intros n. induction n as [b|l IH] using node_all; intros pre out H y.
  - apply Ok_inj in H. subst. split; [intros []|]. intros (dirs & _ & X). inversion X.
  - rewrite find_folder in H. rewrite Forall_forall in IH. destruct (scan_spec _ _ _ _ H) as [[Hi ->]|(Hi & H1 & _ & H3)].
    + split.
      * intros [<-|[]]. exists []. rewrite app_nil_r. split; [reflexivity|constructor; exact Hi].
      * intros (dirs & -> & X). inversion X; subst; [rewrite app_nil_r; left; reflexivity|contradiction].
    + split.
      * intros Hy. destruct (H1 y Hy) as [[]|(name & k & h & Hin & Hf & Hh)].
        destruct (proj1 (IH _ Hin (pre ++ [name]) h Hf y) Hh) as (dirs & -> & Ht). exists (name :: dirs). rewrite <- app_assoc.
        split; [reflexivity|]. econstructor; eassumption.
      * intros (dirs & -> & X). inversion X as [? Hr|? name k q Hr Hin Hk]; subst; [contradiction|].
        destruct (H3 name k Hin) as (h & Hf & Hincl). apply Hincl. apply (proj2 (IH _ Hin (pre ++ [name]) h Hf _)). exists q. rewrite <- app_assoc. auto.
Qed.
Lemma as_commands_in : forall cwd installed names out, as_commands cwd installed names = Ok out ->
  map fst out = names /\ forall n, In n names -> exists p, as_command cwd installed n = Ok (n, p) /\ In (n, p) out.
Proof.
  intros cwd installed names. induction names as [|n names IH]; intros out H; cbn [as_commands] in H.
  - apply Ok_inj in H. subst. split; [reflexivity|intros n []].
  - apply bind_ok in H. destruct H as (c & Hc & H). apply bind_ok in H. destruct H as (rest & Hr & H). apply Ok_inj in H. subst.
    destruct (IH _ Hr) as [E G]. assert (Ec : exists p, c = (n, p)).
    { unfold as_command in Hc. apply bind_ok in Hc. destruct Hc as (t & _ & Hc). destruct (snd t); [|discriminate]. apply Ok_inj in Hc. eauto. }
    destruct Ec as [p ->]. split; [cbn [map fst]; rewrite E; reflexivity|]. intros m [<-|Hm].
    + exists p. split; [exact Hc|left; reflexivity].
    + destruct (G m Hm) as (q & Hq & Hin). exists q. split; [exact Hq|right; exact Hin].
Qed.
Lemma nonempty_all : forall l : list str, (forall w, In w l -> w <> []) -> filter (fun c => negb (str_eqb c [])) l = l.
Proof.
  induction l as [|c l IH]; intros H; [reflexivity|]. cbn [filter]. destruct (str_eqb c []) eqn:E.
  - apply str_eqb_eq in E. exfalso. exact (H c (or_introl eq_refl) E).
  - cbn [negb]. f_equal. apply IH. intros w Hw. apply H. right. exact Hw.
Qed.
Lemma exists_at_path : forall p n, exists_below n p = true -> exists x, at_path n p x.
Proof.
  induction p as [|c p IH]; intros n H; [exists n; constructor|]. cbn [exists_below] in H. destruct n as [b|l]; [discriminate|].
  destruct (dict_get c l) as [x|] eqn:E; [|discriminate]. destruct (IH x H) as [y Hy]. exists y. apply (at_below l c x); [exact (file_key _ _ _ E)|exact Hy].
Qed.
