(** Lemmas about the creation of environments. *)
From Coq Require Import String Ascii List Bool NArith ZArith Arith Lia.
From Verif Require Import Base BaseFacts VersionModel ActivateModel ActivateProofs VenvModel.
Import ListNotations.
Open Scope string_scope. Open Scope nat_scope. Open Scope list_scope. Open Scope bool_scope.

Lemma same_place_iff : forall a b, same_place a b = true <-> a = b.
Proof. intros a b. unfold same_place. destruct (list_eq_dec (list_eq_dec ascii_dec) a b); split; intro H; congruence. Qed.
Lemma Ok_inj : forall A (a b : A), Ok a = Ok b -> a = b. Proof. intros A a b H. injection H as H. exact H. Qed.
Lemma place_sub : forall cwd p l, place cwd (sub p l) = place cwd p ++ l.
Proof. intros cwd [[|] q] l; unfold place, sub; cbn [absolute parts]; [reflexivity|rewrite app_assoc; reflexivity]. Qed.
Lemma present_false : forall w l, (forall e, In e w -> fst e <> l) -> present w l = false.
Proof.
  intros w l H. destruct (present w l) eqn:E; [|reflexivity]. unfold present in E. apply existsb_exists in E. destruct E as (e & I & S).
  apply same_place_iff in S. elim (H e I S).
Qed.
Lemma present_in : forall w l, present w l = true -> exists e, In e w /\ fst e = l.
Proof.
  intros w l E. unfold present in E. apply existsb_exists in E. destruct E as (e & I & S). apply same_place_iff in S. eauto.
Qed.
(** the names of the three executables *)
Lemma executable_0 : forall v, executable v 0 = lit "python". Proof. intros [[a b] c]. reflexivity. Qed.
Lemma executable_1 : forall a b c, executable (a, b, c) 1 = lit "python" ++ show_N a. Proof. reflexivity. Qed.
Lemma executable_2 : forall a b c, executable (a, b, c) 2 = lit "python" ++ show_N a ++ lit "." ++ show_N b. Proof. reflexivity. Qed.
Lemma executables_differ : forall v, executable v 0 <> executable v 1 /\ executable v 0 <> executable v 2 /\ executable v 1 <> executable v 2.
Proof.
  intros [[a b] c]. rewrite executable_0, executable_1, executable_2. repeat split; intro H.
  - apply (f_equal (skipn 6)) in H. cbn in H. exact (show_N_nonempty a (eq_sym H)).
  - apply (f_equal (skipn 6)) in H. cbn in H. destruct (show_N a); discriminate H.
  - apply app_inv_head in H. apply (f_equal (@List.length ascii)) in H. rewrite !app_length in H. cbn in H. lia.
Qed.
(** what there is below the environment before the executables *)
Definition before (py : python) : list (list str) :=
  [[]; [lit "pyvenv.cfg"]; [lit "bin"]; [lit "include"]; [lit "lib"];
   [lit "lib"; lit "python" ++ join (lit ".") (map show_N (firstn 2 (version_of (info py))))];
   [lit "lib"; lit "python" ++ join (lit ".") (map show_N (firstn 2 (version_of (info py)))); lit "site-packages"]]
  ++ (if negb (bits32 py) && posix py && negb (darwin py) then [[lit "lib64"]] else []).
Lemma created : forall cwd there py env interpreter w, windows py = false -> create cwd there py env interpreter = Ok w ->
  there (place cwd env) = false /\
  exists base, w = base ++ map (fun i => (place cwd env ++ [lit "bin"; executable (info py) i], Link (Path true (place cwd interpreter)))) [0; 1; 2] /\
  map fst base = map (fun l => place cwd env ++ l) (before py) /\
  In (place cwd env ++ [lit "lib"], Directory) base /\
  In (place cwd env ++ [lit "pyvenv.cfg"], Settings (parent (Path true (place cwd interpreter))) (join (lit ".") (map show_N (version_of (info py))))) base /\
  (bits32 py = false -> posix py = true -> darwin py = false -> In (place cwd env ++ [lit "lib64"], Link (sub env [lit "lib"])) base).
Proof.
  intros cwd there py env interpreter w W C. unfold create in C. rewrite W in C. destruct (there (place cwd env)) eqn:T; [discriminate C|].
  split; [reflexivity|]. apply Ok_inj in C. subst w. cbv beta iota zeta.
  set (I := Path true (place cwd interpreter)).
  match goal with |- exists base, fold_left _ _ ?x = _ /\ _ => set (base := x) end.
  assert (B : map fst base = map (fun l => place cwd env ++ l) (before py)).
  { unfold base, before. cbn [length seq map firstn]. rewrite !place_sub.
    destruct (negb (bits32 py) && posix py && negb (darwin py)); cbn [app map fst]; rewrite ?place_sub, ?app_nil_r; reflexivity. }
  exists base. split; [|split; [exact B|split; [|split]]].
  - assert (N : forall x, present base (place cwd env ++ [lit "bin"; x]) = false).
    { intro x. apply present_false. intros e E H. apply (in_map fst) in E. rewrite H, B in E. apply in_map_iff in E. destruct E as (l & L & J).
      apply app_inv_head in L. subst l. unfold before in J. destruct (negb (bits32 py) && posix py && negb (darwin py)); cbn [app] in J;
        repeat (destruct J as [J|J]; [discriminate J|]); exact J. }
    destruct (executables_differ (info py)) as (D1 & D2 & D3).
    assert (Step : forall done i, present base (place cwd env ++ [lit "bin"; executable (info py) i]) = false ->
      (forall e, In e done -> fst e <> place cwd env ++ [lit "bin"; executable (info py) i]) ->
      add_executable cwd (sub env [lit "bin"]) I (info py) (base ++ done) i =
      base ++ (done ++ [(place cwd env ++ [lit "bin"; executable (info py) i], Link I)])).
    { intros done i P Q. unfold add_executable. rewrite !place_sub, <- app_assoc. cbn [app].
      replace (present (base ++ done) (place cwd env ++ [lit "bin"; executable (info py) i])) with false; [rewrite <- app_assoc; reflexivity|].
      symmetry. unfold present in *. rewrite existsb_app, P. exact (present_false done _ Q). }
    cbn [seq fold_left]. rewrite <- (app_nil_r base) at 1. rewrite (Step [] 0 (N _)) by (intros e []). cbn [app].
    rewrite (Step _ 1 (N _)).
    2: { intros e [<-|[]] H. cbn [fst] in H. apply app_inv_head in H. apply (f_equal (fun l => nth 1 l [])) in H. exact (D1 H). }
    cbn [app]. rewrite (Step _ 2 (N _)).
    2: { intros e [<-|[<-|[]]] H; cbn [fst] in H; apply app_inv_head in H; apply (f_equal (fun l => nth 1 l [])) in H; [exact (D2 H)|exact (D3 H)]. }
    reflexivity.
  - unfold base. rewrite !place_sub. destruct (negb (bits32 py) && posix py && negb (darwin py)); cbn [length seq map firstn app]; rewrite ?place_sub;
      right; right; right; right; left; reflexivity.
  - unfold base. destruct (negb (bits32 py) && posix py && negb (darwin py)); cbn [length seq map firstn app]; rewrite ?place_sub; right; left; reflexivity.
  - intros X1 X2 X3. unfold base. rewrite X1, X2, X3. cbn [negb andb]. apply in_or_app. right. left. rewrite place_sub. reflexivity.
Qed.
(** a process that leaves its environment alone *)
Lemma restored : forall k old (e : env), dict_get k e <> None -> exists e', restore k old e = Ok e' /\ forall j, j <> k -> dict_get j e' = dict_get j e.
Proof.
  intros k [v|] e H; unfold restore.
  - eexists. split; [reflexivity|]. intros j J. apply dict_get_set_other. congruence.
  - unfold del_key, dict_has. destruct (dict_get k e); [|elim H; reflexivity]. cbn. eexists. split; [reflexivity|]. intros j J. apply dict_get_del_other. exact J.
Qed.
Lemma activate_same : forall scripts home started e,
  snd (activate scripts home (fun e => (e, started e)) e) = started (dict_set VENV home (dict_set PATH (extended scripts (dict_get PATH e)) e)).
Proof.
  intros scripts home started e. unfold activate. set (e1 := dict_set VENV home _).
  destruct (restored PATH (dict_get PATH e) e1) as (e3 & -> & O).
  { unfold e1. rewrite dict_get_set_other by (intro H; discriminate H). rewrite dict_get_set_same. discriminate. }
  destruct (restored VENV (dict_get VENV e) e3) as (e4 & -> & _).
  { rewrite O by (intro H; discriminate H). unfold e1. rewrite dict_get_set_same. discriminate. }
  reflexivity.
Qed.
Lemma activate_back : forall scripts home started e k, NoDup (map fst e) ->
  dict_get k (fst (activate scripts home (fun e => (e, started e)) e)) = dict_get k e.
Proof.
  intros scripts home started e k ND.
  destruct (activate_spec scripts home (fun e => (e, started e)) e _ _ ND eq_refl) as (e' & -> & _ & P & V & O).
  - apply set_nodup, set_nodup. exact ND.
  - intros _. rewrite dict_get_set_other by (intro H; discriminate H). rewrite dict_get_set_same. discriminate.
  - intros _. rewrite dict_get_set_same. discriminate.
  - cbn [fst]. destruct (str_eqb k PATH) eqn:E1; [apply str_eqb_eq in E1; subst k; exact P|].
    destruct (str_eqb k VENV) eqn:E2; [apply str_eqb_eq in E2; subst k; exact V|].
    assert (N1 : k <> PATH) by (intros ->; rewrite str_eqb_refl in E1; discriminate E1).
    assert (N2 : k <> VENV) by (intros ->; rewrite str_eqb_refl in E2; discriminate E2).
    rewrite O by assumption. rewrite !dict_get_set_other by congruence. reflexivity.
Qed.
