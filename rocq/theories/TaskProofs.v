(** Facts about the list of tasks. *)
From Coq Require Import String Ascii List Bool NArith Arith Lia.
From Verif Require Import Base BaseFacts TaskModel.
Import ListNotations.
Open Scope string_scope.
Open Scope nat_scope.
Open Scope list_scope.
Open Scope bool_scope.

Section Induction.
Context (P : node -> Prop) (HS : forall b, P (Script b)) (HF : forall l, Forall (fun e => P (snd e)) l -> P (Folder l)).
Fixpoint node_all (n : node) : P n :=
  match n with
  | Script b => HS b
  | Folder l => HF l ((fix go l : Forall (fun e => P (snd e)) l :=
                         match l with [] => Forall_nil _ | e :: r => Forall_cons e (node_all (snd e)) (go r) end) l)
  end.
End Induction.

(** what is in a tree *)
Inductive at_path : node -> list str -> node -> Prop :=
  | at_here : forall n, at_path n [] n
  | at_below : forall l name x q y, In (name, x) l -> at_path x q y -> at_path (Folder l) (name :: q) y.

Lemma bind_ok : forall A B (r : res A) (k : A -> res B) y, bind r k = Ok y -> exists x, r = Ok x /\ k x = Ok y.
Proof. intros A B [x|e] k y H; cbn in H; [eauto|discriminate]. Qed.
Lemma Ok_inj : forall A (a b : A), Ok a = Ok b -> a = b.
Proof. congruence. Qed.

(** the entries of a directory one by one *)
Fixpoint all_of {A B} (f : A -> res (list B)) (l : list A) : res (list B) :=
  match l with [] => Ok [] | e :: r => do here <- f e; do rest <- all_of f r; Ok (here ++ rest) end.
Lemma all_of_in : forall A B (f : A -> res (list B)) l out, all_of f l = Ok out ->
  (forall y, In y out -> exists e h, In e l /\ f e = Ok h /\ In y h) /\ (forall e, In e l -> exists h, f e = Ok h /\ incl h out).
Proof.
  intros A B f l. induction l as [|e l IH]; intros out H; cbn [all_of] in H.
  - apply Ok_inj in H. subst. split; [intros y []|intros e []].
  - apply bind_ok in H. destruct H as (h & Hh & H). apply bind_ok in H. destruct H as (rest & Hr & H). apply Ok_inj in H. subst out.
    destruct (IH rest Hr) as [I1 I2]. split.
    + intros y Hy. apply in_app_or in Hy. destruct Hy as [Hy|Hy].
      * exists e, h. split; [left; reflexivity|auto].
      * destruct (I1 y Hy) as (e2 & h2 & He & Hf & Hin). exists e2, h2. split; [right; exact He|auto].
    + intros e2 [<-|He].
      * exists h. split; [exact Hh|]. apply incl_appl, incl_refl.
      * destruct (I2 e2 He) as (h2 & Hf & Hi). exists h2. split; [exact Hf|]. apply incl_appr. exact Hi.
Qed.
Definition dir_entry (pre : list str) (e : str * node) : res (list (str * list str)) :=
  match py_stem (fst e) with
  | Some s => match snd e with
              | Script true => Ok [(join (lit ".") (pre ++ [s]), pre ++ [fst e])]
              | Script false => Ok []
              | Folder _ => Err IOErr
              end
  | None => match snd e with Folder _ => find_in_directory (snd e) (pre ++ [fst e]) | Script _ => Ok [] end
  end.
Lemma dir_folder : forall l pre, find_in_directory (Folder l) pre = all_of (dir_entry pre) l.
Proof.
  intros l pre. cbn [find_in_directory]. induction l as [|[f x] l IH]; [reflexivity|]. cbn [all_of]. rewrite <- IH. reflexivity.
Qed.
Definition space_entry (pre : list str) (e : str * node) : res (list (str * list str)) :=
  if ends_with dot_py (fst e)
  then match snd e with
       | Script true => Ok [(listed_name pre (without_py (fst e)), pre ++ [fst e])]
       | Script false => Ok []
       | Folder _ => Err IOErr
       end
  else match snd e with
       | Folder _ => if existsb (Ascii.eqb ".") (fst e) then Err IOErr else find_in_namespace (snd e) (pre ++ [fst e])
       | Script _ => Ok []
       end.
Lemma space_folder : forall l pre, find_in_namespace (Folder l) pre = all_of (space_entry pre) l.
Proof.
  intros l pre. cbn [find_in_namespace]. induction l as [|[f x] l IH]; [reflexivity|]. cbn [all_of]. rewrite <- IH. reflexivity.
Qed.

Lemma listed_dir : forall n pre out name p, find_in_directory n pre = Ok out -> In (name, p) out ->
  exists dirs file s, p = pre ++ dirs ++ [file] /\ name = join (lit ".") (pre ++ dirs ++ [s]) /\ py_stem file = Some s /\
    Forall (fun d => py_stem d = None) dirs /\ at_path n (dirs ++ [file]) (Script true).
Proof.
  intros n. induction n as [b|l IH] using node_all; intros pre out name p H Hin.
  - cbn in H. apply Ok_inj in H. subst. contradiction.
  - rewrite dir_folder in H. destruct (proj1 (all_of_in _ _ _ _ _ H) _ Hin) as ([file x] & h & Hl & E & Hh). unfold dir_entry in E. cbn [fst snd] in E.
    destruct (py_stem file) as [s|] eqn:Es.
    + destruct x as [[|]|k]; try discriminate; apply Ok_inj in E; subst h; [|contradiction].
      destruct Hh as [Hh|[]]. injection Hh as <- <-. exists [], file, s. cbn [app]. repeat split; auto.
      apply (at_below l file (Script true) [] (Script true) Hl). constructor.
    + destruct x as [b|k]; [apply Ok_inj in E; subst; contradiction|].
      rewrite Forall_forall in IH. pose proof (IH _ Hl) as IHx. cbn [snd] in IHx.
      destruct (IHx _ _ _ _ E Hh) as (dirs & f & s & Ep & En & Ef & Hd & Hat). exists (file :: dirs), f, s.
      rewrite Ep, En. rewrite <- !app_assoc. cbn [app]. repeat split; auto. econstructor; eassumption.
Qed.
Lemma every_dir : forall n pre out dirs file s, find_in_directory n pre = Ok out -> at_path n (dirs ++ [file]) (Script true) -> py_stem file = Some s ->
  Forall (fun d => py_stem d = None) dirs -> In (join (lit ".") (pre ++ dirs ++ [s]), pre ++ dirs ++ [file]) out.
Proof.
  intros n. induction n as [b|l IH] using node_all; intros pre out dirs file s H Hat Hs Hd.
  - inversion Hat. destruct dirs; discriminate.
  - rewrite dir_folder in H. inversion Hat as [|l' name x q y Hin Hx El Eq Ey]. subst.
    destruct (proj2 (all_of_in _ _ _ _ _ H) _ Hin) as (h & Hh & Hi). apply Hi. unfold dir_entry in Hh. cbn [fst snd] in Hh. rewrite Forall_forall in IH.
    destruct dirs as [|d dirs].
    + cbn in Eq. injection Eq as -> ->. inversion Hx. subst. rewrite Hs in Hh. apply Ok_inj in Hh. subst h. left. reflexivity.
    + cbn in Eq. injection Eq as -> ->. inversion Hd as [|? ? Hd1 Hd2]. subst. rewrite Hd1 in Hh.
      destruct x as [b|k]; [inversion Hx; destruct dirs; discriminate|].
      pose proof (IH _ Hin (pre ++ [d]) h dirs file s Hh Hx Hs Hd2) as G. rewrite <- !app_assoc in G. exact G.
Qed.

(** ** names *)
Lemma ends_with_app : forall e s, ends_with e s = true <-> exists a, s = a ++ e.
Proof.
  intros e s. induction s as [|c s IH]; cbn [ends_with].
  - rewrite orb_false_r, str_eqb_eq. split; [intros ->; exists []; reflexivity|]. intros [a Ha]. symmetry in Ha. apply app_eq_nil in Ha. apply Ha.
  - rewrite orb_true_iff, str_eqb_eq, IH. split.
    + intros [->|[a ->]]; [exists []; reflexivity|exists (c :: a); reflexivity].
    + intros [[|x a] Ha]; [left; symmetry; exact Ha|right]. cbn in Ha. injection Ha as <- ->. eauto.
Qed.
Lemma without_py_app : forall s, without_py (s ++ dot_py) = s.
Proof.
  intros. unfold without_py. rewrite app_length. change (length dot_py) with 3. replace (length s + 3 - 3) with (length s) by lia.
  rewrite firstn_app, firstn_all, Nat.sub_diag. cbn. apply app_nil_r.
Qed.
Lemma py_stem_spec : forall f s, py_stem f = Some s <-> f = s ++ dot_py /\ s <> [].
Proof.
  intros f s. unfold py_stem. destruct (ends_with dot_py f) eqn:E; cbn [andb].
  - apply ends_with_app in E. destruct E as [a ->]. rewrite without_py_app. destruct (Nat.ltb_spec 3 (length (a ++ dot_py))) as [L|L]; rewrite app_length in L; change (length dot_py) with 3 in L.
    + split.
      * intros [= <-]. split; [reflexivity|]. intros ->. cbn in L. lia.
      * intros [Ha _]. apply app_inv_tail in Ha. congruence.
    + split; [discriminate|]. intros [Ha Hn]. apply app_inv_tail in Ha. subst. destruct s; [congruence|cbn in L; lia].
  - split; [discriminate|]. intros [-> _]. assert (X : ends_with dot_py (s ++ dot_py) = true) by (apply ends_with_app; eauto). congruence.
Qed.
Lemma underscored_same : forall s, ~ In "-"%char s -> underscored s = s.
Proof.
  induction s as [|c s IH]; intros H; [reflexivity|]. cbn. destruct (Ascii.eqb c "-") eqn:E.
  - apply Ascii.eqb_eq in E. subst. exfalso. apply H. left. reflexivity.
  - f_equal. apply IH. intros X. apply H. right. exact X.
Qed.
Lemma in_join : forall c x l, In c (join [x] l) -> c = x \/ exists w, In w l /\ In c w.
Proof.
  intros c x l. induction l as [|w l IH]; [intros []|]. destruct l as [|w2 l].
  - intros H. right. exists w. split; [left; reflexivity|exact H].
  - change (join [x] (w :: w2 :: l)) with (w ++ [x] ++ join [x] (w2 :: l)). intros H. apply in_app_or in H. destruct H as [H|H].
    + right. exists w. split; [left; reflexivity|exact H].
    + destruct H as [<-|H]; [left; reflexivity|]. destruct (IH H) as [E|(v & Hv & Hc)]; [left; exact E|]. right. exists v. split; [right; exact Hv|exact Hc].
Qed.
Lemma underscored_no_dash : forall s, ~ In "-"%char (underscored s).
Proof.
  intros s H. unfold underscored in H. apply in_map_iff in H. destruct H as (c & H & _). destruct (Ascii.eqb c "-") eqn:E; [discriminate|].
  subst. discriminate.
Qed.
Lemma nodup_dict_get : forall (V : Type) (l : list (str * V)) k v, NoDup (map fst l) -> In (k, v) l -> dict_get k l = Some v.
Proof.
  intros V l k v. induction l as [|[k2 v2] l IH]; [intros _ []|]. cbn [map fst]. intros Hn Hin. inversion Hn as [|? ? Hni Hn2]. subst.
  cbn [dict_get]. destruct Hin as [Hin|Hin].
  - injection Hin as -> ->. rewrite str_eqb_refl. reflexivity.
  - destruct (str_eqb k k2) eqn:E.
    + apply str_eqb_eq in E. subst. exfalso. apply Hni. apply in_map_iff. exists (k2, v). auto.
    + apply IH; assumption.
Qed.

(** ** a tidy tree *)
Definition plain_name (s : str) : Prop := s <> [] /\ ~ In "."%char s /\ ~ In "-"%char s.
Definition tidy_folder (l : list (str * node)) : Prop :=
  NoDup (map fst l) /\ (forall name k, In (name, Folder k) l -> plain_name name) /\
  (forall s b, In (s ++ lit ".py", Script b) l -> plain_name s /\ forall k, ~ In (s, Folder k) l).
Definition tidy (n : node) : Prop := forall q l, at_path n q (Folder l) -> tidy_folder l.
Lemma tidy_below : forall l name x, tidy (Folder l) -> In (name, x) l -> tidy x.
Proof. intros l name x H Hin q k Hat. apply (H (name :: q)). econstructor; eassumption. Qed.

Lemma file_key : forall (l : list (str * node)) c x, dict_get c l = Some x -> In (c, x) l.
Proof. intros. apply dict_get_in. assumption. Qed.
Lemma finds_file : forall dirs l s pre, tidy (Folder l) -> at_path (Folder l) (dirs ++ [s ++ dot_py]) (Script true) ->
  find_module (dirs ++ [s]) l pre = FoundFile (pre ++ dirs ++ [s ++ dot_py]) true /\ Forall plain_name dirs /\ plain_name s.
Proof.
  induction dirs as [|d dirs IH]; intros l s pre T H.
  - cbn [app] in *. inversion H as [|? name x q y Hin Hx]. subst. inversion Hx; subst. pose proof (T [] l (at_here _)) as (Hn & Hf & Hs).
    destruct (Hs s true Hin) as [Hp Hno]. cbn [find_module]. unfold module_of. rewrite (nodup_dict_get _ l _ _ Hn Hin).
    destruct (dict_get s l) as [[b|k]|] eqn:E; auto. apply file_key in E. exfalso. exact (Hno k E).
  - cbn [app] in H. inversion H as [|? name x q y Hin Hx]. subst. destruct x as [b|k]; [inversion Hx; destruct dirs; discriminate|].
    pose proof (T [] l (at_here _)) as (Hn & Hf & Hs).
    destruct (IH k s (pre ++ [d]) (tidy_below _ _ _ T Hin) Hx) as (E & Hd & Hp). split; [|split; [constructor; [exact (Hf _ _ Hin)|exact Hd]|exact Hp]].
    assert (Em : module_of d l = Namespace k \/ exists b, module_of d l = Package k b).
    { unfold module_of. rewrite (nodup_dict_get _ l _ _ Hn Hin). destruct (dict_get init_py k) as [[b|k2]|]; [right; eauto| |];
        destruct (dict_get (d ++ dot_py) l) as [[b|k3]|] eqn:E2; auto; apply file_key in E2; exfalso; apply (proj2 (Hs d b E2) k); exact Hin. }
    cbn [app]. change (find_module (d :: dirs ++ [s]) l pre) with
      (match dirs ++ [s] with [] => match module_of d l with Package _ b => FoundFile (pre ++ [d; init_py]) b | Plain b => FoundFile (pre ++ [d ++ dot_py]) b | Namespace _ => FoundNamespace | Nothing => NotFound end
       | _ => match module_of d l with Package k _ => find_module (dirs ++ [s]) k (pre ++ [d]) | Namespace k => find_module (dirs ++ [s]) k (pre ++ [d]) | Plain _ | Nothing => NoParent end end).
    destruct (dirs ++ [s]) as [|c1 c2] eqn:Ec; [destruct dirs; discriminate|]. rewrite <- Ec in *. 
    assert (E' : find_module (dirs ++ [s]) k (pre ++ [d]) = FoundFile (pre ++ d :: dirs ++ [s ++ dot_py]) true) by (rewrite E, <- app_assoc; reflexivity).
    destruct Em as [Em|[b Em]]; rewrite Em; exact E'.
Qed.

(** ** the installed tasks *)
Lemma listed_space : forall n pre out name p, find_in_namespace n pre = Ok out -> In (name, p) out -> Forall (fun d => ~ In "."%char d) pre ->
  exists dirs s, name = listed_name (pre ++ dirs) s /\ Forall (fun d => ~ In "."%char d) dirs.
Proof.
  intros n. induction n as [b|l IH] using node_all; intros pre out name p H Hin Hpre.
  - cbn in H. apply Ok_inj in H. subst. contradiction.
  - rewrite space_folder in H. destruct (proj1 (all_of_in _ _ _ _ _ H) _ Hin) as ([f x] & h & Hl & Hh & Hy). unfold space_entry in Hh. cbn [fst snd] in Hh.
    rewrite Forall_forall in IH. destruct (ends_with dot_py f) eqn:Ef.
    + destruct x as [[|]|k]; try discriminate; apply Ok_inj in Hh; subst h; [|contradiction]. destruct Hy as [Hy|[]]. injection Hy as <- <-.
      exists [], (without_py f). rewrite app_nil_r. split; [reflexivity|constructor].
    + destruct x as [b|k]; [apply Ok_inj in Hh; subst; contradiction|].
      destruct (existsb (Ascii.eqb ".") f) eqn:Edot; [discriminate|].
      assert (Hf : ~ In "."%char f).
      { intros X. assert (existsb (Ascii.eqb ".") f = true) by (apply existsb_exists; exists "."%char; split; [exact X|reflexivity]). congruence. }
      destruct (IH (f, Folder k) Hl (pre ++ [f]) h name p Hh Hy) as (dirs & s & En & Hd).
      { apply Forall_app. split; [exact Hpre|]. constructor; [exact Hf|constructor]. }
      exists (f :: dirs), s. rewrite En, <- app_assoc. split; [reflexivity|constructor; assumption].
Qed.
Lemma two_parts : forall a b, exists x y r, split_on "." (a ++ lit "." ++ b) = x :: y :: r.
Proof.
  induction a as [|c a IH]; intros b.
  - cbn. pose proof (split_on_nonempty "." b) as H. destruct (split_on "." b) as [|x r]; [congruence|]. eauto.
  - cbn [app split_on]. destruct (IH b) as (x & y & r & E). rewrite E. destruct (Ascii.eqb c "."); eauto.
Qed.
Lemma underscored_app : forall a b, underscored (a ++ b) = underscored a ++ underscored b.
Proof. intros. unfold underscored. apply map_app. Qed.
Lemma found_no_dash : forall comps l pre p b, find_module comps l pre = FoundFile p b -> (forall w, In w comps -> ~ In "-"%char w) ->
  exists r, p = pre ++ r /\ forall w, In w r -> ~ In "-"%char w.
Proof.
  induction comps as [|c comps IH]; intros l pre p b H Hc; [discriminate|].
  assert (Hi : ~ In "-"%char init_py) by (cbn; intros X; repeat (destruct X as [X|X]; [discriminate|]); exact X).
  assert (Hpy : ~ In "-"%char (c ++ dot_py)).
  { intros X. apply in_app_or in X. destruct X as [X|X]; [exact (Hc c (or_introl eq_refl) X)|]. cbn in X. repeat (destruct X as [X|X]; [discriminate|]). exact X. }
  destruct comps as [|c2 comps].
  - cbn [find_module] in H. destruct (module_of c l); try discriminate; injection H as <- <-.
    + exists [c; init_py]. split; [reflexivity|]. intros w [<-|[<-|[]]]; [apply Hc; left; reflexivity|exact Hi].
    + exists [c ++ dot_py]. split; [reflexivity|]. intros w [<-|[]]. exact Hpy.
  - assert (G : forall k, find_module (c2 :: comps) k (pre ++ [c]) = FoundFile p b -> exists r, p = pre ++ r /\ forall w, In w r -> ~ In "-"%char w).
    { intros k Hk. destruct (IH k (pre ++ [c]) p b Hk (fun w Hw => Hc w (or_intror Hw))) as (r & -> & Hr). exists (c :: r). rewrite <- app_assoc.
      split; [reflexivity|]. intros w [<-|Hw]; [apply Hc; left; reflexivity|exact (Hr w Hw)]. }
    change (find_module (c :: c2 :: comps) l pre) with
      (match module_of c l with Package k _ => find_module (c2 :: comps) k (pre ++ [c]) | Namespace k => find_module (c2 :: comps) k (pre ++ [c]) | Plain _ | Nothing => NoParent end) in H.
    destruct (module_of c l); try discriminate; exact (G _ H).
Qed.
Lemma as_task_ok : forall f p, as_task f = Ok p -> f = FoundFile p true.
Proof. intros [q [|]| | |] p H; try discriminate. apply Ok_inj in H. subst. reflexivity. Qed.
Lemma split_chars : forall c s w x, In w (split_on c s) -> In x w -> In x s.
Proof.
  intros c s. induction s as [|y s IH]; intros w x Hw Hx.
  - destruct Hw as [<-|[]]. contradiction.
  - cbn [split_on] in Hw. destruct (Ascii.eqb y c).
    + destruct Hw as [<-|Hw]; [contradiction|]. right. exact (IH w x Hw Hx).
    + destruct (split_on c s) as [|w0 ws] eqn:E.
      * destruct Hw as [<-|[]]. destruct Hx as [<-|[]]. left. reflexivity.
      * destruct Hw as [<-|Hw].
        -- destruct Hx as [<-|Hx]; [left; reflexivity|]. right. apply (IH w0); [left; reflexivity|exact Hx].
        -- right. apply (IH w); [right; exact Hw|exact Hx].
Qed.
Lemma loaded_no_dash : forall project installed name p, load_task project installed name = Ok p -> forall w, In w p -> ~ In "-"%char w.
Proof.
  intros project installed name p H w Hw.
  assert (Hc : forall v, In v (split_on "." (underscored name)) -> ~ In "-"%char v) by (intros v Hv X; exact (underscored_no_dash name (split_chars _ _ _ _ Hv X))).
  unfold load_task in H. destruct (starts_with (lit ".") (underscored name)); [discriminate|].
  destruct (find_module (split_on "." (underscored name)) (entries project) []) as [q b| | |] eqn:E.
  - apply as_task_ok in H. injection H as -> ->. destruct (found_no_dash _ _ _ _ _ E Hc) as (r & -> & Hr). exact (Hr w Hw).
  - discriminate.
  - destruct installed as [i|]; [|discriminate]. apply bind_ok in H. destruct H as (q & Hq & H). apply Ok_inj in H. subst p. apply as_task_ok in Hq.
    destruct (found_no_dash _ _ _ _ _ Hq Hc) as (r & -> & Hr). destruct Hw as [<-|Hw]; [|exact (Hr w Hw)].
    cbn. intros X. repeat (destruct X as [X|X]; [discriminate|]). exact X.
  - discriminate.
Qed.
