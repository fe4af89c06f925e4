(** Properties of the hooks of build backends (C300, C301). *)
From Coq Require Import String Ascii List Bool NArith ZArith Arith Lia.
From Verif Require Import Base BaseFacts HookModel.
Import ListNotations.
Open Scope string_scope. Open Scope nat_scope. Open Scope list_scope. Open Scope bool_scope.

(** ** C300: a hook succeeds exactly when the backend has it and it returns *)
(** a path that may stand between single quotes *)
Definition usual (path : str) : Prop := forall c, In c ["'"%char; "010"%char; "013"%char; "000"%char] -> ~ In c path.
Lemma usual_literal : forall p, usual p -> literal (doubled p) = Some p.
Proof.
  induction p as [|c p IH]; intro U; [reflexivity|].
  assert (U' : usual p) by (intros d D I; apply (U d D); right; exact I).
  assert (B : Ascii.eqb c "'" || Ascii.eqb c "010" || Ascii.eqb c "013" || Ascii.eqb c "000" = false).
  { destruct (Ascii.eqb_spec c "'") as [E|_]; [elim (U c); [left; auto|left; reflexivity]|].
    destruct (Ascii.eqb_spec c "010") as [E|_]; [elim (U c); [right; left; auto|left; reflexivity]|].
    destruct (Ascii.eqb_spec c "013") as [E|_]; [elim (U c); [right; right; left; auto|left; reflexivity]|].
    destruct (Ascii.eqb_spec c "000") as [E|_]; [elim (U c); [right; right; right; left; auto|left; reflexivity]|]. reflexivity. }
  cbn [doubled]. destruct (Ascii.eqb c "092") eqn:S.
  - apply Ascii.eqb_eq in S. subst c. cbn [literal]. rewrite B. cbn [Ascii.eqb Bool.eqb]. change (Ascii.eqb "092" "092") with true. cbv iota. rewrite (IH U'). reflexivity.
  - cbn [literal]. rewrite B, S, (IH U'). reflexivity.
Qed.
(** the names in the configuration: "module" or "module:object" *)
Definition names (build_backend m : str) (o : option str) : Prop :=
  ~ In ":"%char m /\ match o with None => build_backend = m | Some o => ~ In ":"%char o /\ build_backend = m ++ ":"%char :: o end.
Lemma split_one : forall s, ~ In ":"%char s -> split_on ":" s = [s].
Proof.
  induction s as [|c s IH]; intro H; [reflexivity|]. cbn [split_on]. destruct (Ascii.eqb_spec c ":") as [->|N]; [elim H; left; reflexivity|].
  rewrite IH; [reflexivity|]. intro I. apply H. right. exact I.
Qed.
Lemma split_two : forall m o, ~ In ":"%char m -> ~ In ":"%char o -> split_on ":" (m ++ ":"%char :: o) = [m; o].
Proof.
  induction m as [|c m IH]; intros o H H'; cbn [app split_on].
  - change (Ascii.eqb ":" ":") with true. cbv iota. rewrite split_one by exact H'. reflexivity.
  - destruct (Ascii.eqb_spec c ":") as [->|N]; [elim H; left; reflexivity|]. rewrite IH; [reflexivity| |exact H']. intro I. apply H. right. exact I.
Qed.
Lemma names_parts : forall n m o, names n m o -> backend_parts n = (m, o).
Proof.
  intros n m o [M O]. unfold backend_parts. destruct o as [o|]; [destruct O as [O ->]; rewrite split_two by assumption; reflexivity|]. subst. rewrite split_one by exact M. reflexivity.
Qed.
Lemma run_usual : forall b p n h args, usual p -> process b p n h args = script b n h args.
Proof. intros b p n h args U. unfold process. rewrite (usual_literal p U), str_eqb_refl. destruct (script b n h args); reflexivity. Qed.
Lemma ret_exec : forall (s : str) (v : value) (b : backend), str_eqb s FAIL = false ->
  (if negb (Z.eqb (leave b) 0) then BuildErr false else if str_eqb s FAIL then BuildErr false else Done (s, v)) = (if Z.eqb (leave b) 0 then Done (s, v) else BuildErr false).
Proof. intros s v b F. rewrite F. destruct (Z.eqb (leave b) 0); reflexivity. Qed.

Theorem C300_success : forall b p n m o h args v, usual p -> names n m o ->
  (exec_hook b p n h args = Done (lit "success", v) <->
   leave b = 0%Z /\ exists hooks, found b m o = Object hooks /\ hooks h args = Some (Returns v)).
Proof.
  intros b p n m o h args v U NM. unfold exec_hook. rewrite run_usual by exact U. unfold script. rewrite (names_parts n m o NM).
  assert (X : forall c : Z, (if negb (Z.eqb c 0) then BuildErr false else Fails IOErr) <> Done (lit "success", v)) by (intros c; destruct (Z.eqb c 0); discriminate).
  destruct (found b m o) as [| |c| |hooks].
  - split; [discriminate|]. intros (_ & h' & E & _). discriminate E.
  - split; [unfold ret; destruct (Z.eqb (leave b) 0); discriminate|]. intros (_ & h' & E & _). discriminate E.
  - split; [intro H; elim (X c H)|]. intros (_ & h' & E & _). discriminate E.
  - split; [unfold ret; destruct (Z.eqb (leave b) 0); discriminate|]. intros (_ & h' & E & _). discriminate E.
  - destruct (hooks h args) as [[w| | |c]|] eqn:HK.
    + unfold ret. rewrite ret_exec by reflexivity. split.
      * destruct (Z.eqb_spec (leave b) 0) as [L|L]; [|discriminate]. intro H. assert (w = v) by congruence. subst. split; [exact L|]. exists hooks. split; [reflexivity|exact HK].
      * intros (L & h' & E & K). injection E as <-. rewrite HK in K. injection K as ->. rewrite L. reflexivity.
    + split; [unfold ret; destruct (Z.eqb (leave b) 0); discriminate|]. intros (_ & h' & E & K). injection E as <-. congruence.
    + split; [unfold ret; destruct (Z.eqb (leave b) 0); discriminate|]. intros (_ & h' & E & K). injection E as <-. congruence.
    + split; [intro H; elim (X c H)|]. intros (_ & h' & E & K). injection E as <-. congruence.
    + split; [unfold ret; destruct (Z.eqb (leave b) 0); discriminate|]. intros (_ & h' & E & K). injection E as <-. congruence.
Qed.
Print Assumptions C300_success.
(** it counts as missing exactly when the object is there and has no such hook; nothing else is told the caller *)
Theorem C300_undefined : forall b p n m o h args, usual p -> names n m o ->
  ((exists v, exec_hook b p n h args = Done (lit "undefined_hook", v)) <->
   leave b = 0%Z /\ exists hooks, found b m o = Object hooks /\ hooks h args = None).
Proof.
  intros b p n m o h args U NM. unfold exec_hook. rewrite run_usual by exact U. unfold script. rewrite (names_parts n m o NM).
  assert (X : forall (c : Z) (v : value), (if negb (Z.eqb c 0) then BuildErr false else Fails IOErr) <> Done (lit "undefined_hook", v)) by (intros c v; destruct (Z.eqb c 0); discriminate).
  destruct (found b m o) as [| |c| |hooks].
  - split; [intros [v H]; discriminate H|]. intros (_ & h' & E & _). discriminate E.
  - split; [unfold ret; intros [v H]; revert H; destruct (Z.eqb (leave b) 0); discriminate|]. intros (_ & h' & E & _). discriminate E.
  - split; [intros [v H]; elim (X c v H)|]. intros (_ & h' & E & _). discriminate E.
  - split; [unfold ret; intros [v H]; revert H; destruct (Z.eqb (leave b) 0); discriminate|]. intros (_ & h' & E & _). discriminate E.
  - destruct (hooks h args) as [[w| | |c]|] eqn:HK.
    + split; [unfold ret; intros [v H]; revert H; destruct (Z.eqb (leave b) 0); discriminate|]. intros (_ & h' & E & K). injection E as <-. congruence.
    + split; [unfold ret; intros [v H]; revert H; destruct (Z.eqb (leave b) 0); discriminate|]. intros (_ & h' & E & K). injection E as <-. congruence.
    + split; [unfold ret; intros [v H]; revert H; destruct (Z.eqb (leave b) 0); discriminate|]. intros (_ & h' & E & K). injection E as <-. congruence.
    + split; [intros [v H]; elim (X c v H)|]. intros (_ & h' & E & K). injection E as <-. congruence.
    + unfold ret. rewrite ret_exec by reflexivity. split.
      * intros [v H]. destruct (Z.eqb_spec (leave b) 0) as [L|L]; [|discriminate H]. split; [exact L|]. exists hooks. split; [reflexivity|exact HK].
      * intros (L & _). rewrite L. exists JNull. reflexivity.
Qed.
Print Assumptions C300_undefined.
Theorem C300_told : forall b p n h args s v, exec_hook b p n h args = Done (s, v) -> s = lit "success" \/ s = lit "undefined_hook".
Proof.
  intros b p n h args s v. unfold exec_hook, process. destruct (literal (doubled p)) as [q|]; [|discriminate].
  assert (S : forall s w, snd (script b n h args) = Some (s, w) -> s = SUCCESS \/ s = UNDEFINED \/ s = FAIL).
  { intros t w. unfold script. destruct (backend_parts n) as [m o]. destruct (found b m o) as [| |c| |hooks]; cbn [snd ret]; try discriminate.
    - intro H. right. right. apply (f_equal (fun x => match x with Some (a, _) => a | None => t end)) in H. symmetry. exact H.
    - intro H. right. right. apply (f_equal (fun x => match x with Some (a, _) => a | None => t end)) in H. symmetry. exact H.
    - destruct (hooks h args) as [[u| | |c]|]; cbn [snd ret]; try discriminate; intro H; apply (f_equal (fun x => match x with Some (a, _) => a | None => t end)) in H; symmetry in H; auto. }
  destruct (script b n h args) as [code out]. cbn [snd] in S. destruct (negb (Z.eqb code 0)); [discriminate|]. destruct (str_eqb q p); [|discriminate].
  destruct out as [[t w]|]; [|discriminate]. destruct (str_eqb t FAIL) eqn:F; [discriminate|]. intro H.
  assert (T : t = s) by (apply (f_equal (fun x => match x with Done (a, _) => a | _ => t end)) in H; exact H). subst t.
  destruct (S s w eq_refl) as [E|[E|E]]; [left; exact E|right; exact E|]. rewrite E, str_eqb_refl in F. discriminate.
Qed.
Print Assumptions C300_told.
(** a failure is reported as one of the build *)
Definition fails (b : backend) (m : str) (o : option str) (h : str) (args : list arg) : Prop :=
  match found b m o with
  | NotPython | ImportRaises | NoObject => True
  | ImportExits c => c <> 0%Z
  | Object hooks => match hooks h args with Some Raises | Some ReturnsOpaque => True | Some (Exits c) => c <> 0%Z | _ => leave b <> 0%Z end
  end.
Theorem C300_failure_partial : forall b p n m o h args, usual p -> names n m o -> fails b m o h args -> exec_hook b p n h args = BuildErr false.
Proof.
  intros b p n m o h args U NM F. unfold exec_hook. rewrite run_usual by exact U. unfold script. rewrite (names_parts n m o NM). unfold fails in F.
  assert (Z1 : forall c : Z, c <> 0%Z -> Z.eqb c 0 = false) by (intros c C; apply Z.eqb_neq; exact C).
  destruct (found b m o) as [| |c| |hooks]; try (unfold ret; destruct (Z.eqb (leave b) 0); reflexivity); try reflexivity.
  - rewrite (Z1 c F). reflexivity.
  - destruct (hooks h args) as [[u| | |c]|]; try (unfold ret; rewrite ?(Z1 _ F); try destruct (Z.eqb (leave b) 0); reflexivity).
Qed.
Print Assumptions C300_failure_partial.
(** ... but not if the process ends as if all was well, and every hook fails if the temporary directory has a quote in its name *)
Theorem C300_exit_refuted : forall b p n m o h args hooks, usual p -> names n m o -> found b m o = Object hooks -> hooks h args = Some (Exits 0) ->
  exec_hook b p n h args = Fails IOErr.
Proof. intros b p n m o h args hooks U NM F H. unfold exec_hook. rewrite run_usual by exact U. unfold script. rewrite (names_parts n m o NM), F, H. reflexivity. Qed.
Print Assumptions C300_exit_refuted.
Lemma quote_literal : forall p, In "'"%char p -> literal (doubled p) = None.
Proof.
  induction p as [|c p IH]; intro I; [elim I|]. cbn [doubled]. destruct (Ascii.eqb_spec c "'") as [->|N]; [reflexivity|]. destruct I as [->|I]; [elim N; reflexivity|].
  destruct (Ascii.eqb c "092") eqn:S.
  - apply Ascii.eqb_eq in S. subst c. cbn [literal]. change (Ascii.eqb "092" "092") with true. rewrite (IH I). reflexivity.
  - cbn [literal]. rewrite S, (IH I). destruct (_ || _); reflexivity.
Qed.
Theorem C300_quote_refuted : forall b p n h args, In "'"%char p -> exec_hook b p n h args = BuildErr false.
Proof. intros b p n h args I. unfold exec_hook, process. rewrite (quote_literal p I). reflexivity. Qed.
Print Assumptions C300_quote_refuted.

(** a backend in a module "mine", object "it"; what the hooks do is given *)
Definition mine (hooks : str -> list arg -> option call) : backend := Backend (fun m o => if str_eqb m (lit "mine") then match o with Some o => if str_eqb o (lit "it") then Object hooks else NoObject | None => NoObject end else ImportRaises) 0.
Definition few (h : str) (args : list arg) : option call :=
  if str_eqb h (lit "build_wheel") then Some (Returns (JStr (lit "p-1.whl"))) else if str_eqb h (lit "get_requires_for_build_wheel") then Some (Returns (JList [lit "cffi"]))
  else if str_eqb h (lit "build_sdist") then Some Raises else if str_eqb h (lit "build_editable") then Some (Exits 0) else None.
Definition temp : str := lit "C:\tmp\new\output".
Example C300_example : usual temp /\ names (lit "mine:it") (lit "mine") (Some (lit "it")) /\
  exec_hook (mine few) temp (lit "mine:it") (lit "build_wheel") [] = Done (lit "success", JStr (lit "p-1.whl")) /\
  exec_hook (mine few) temp (lit "mine:it") (lit "prepare_metadata_for_build_wheel") [] = Done (lit "undefined_hook", JNull) /\
  exec_hook (mine few) temp (lit "mine:it") (lit "build_sdist") [] = BuildErr false /\ fails (mine few) (lit "mine") (Some (lit "it")) (lit "build_sdist") [] /\
  exec_hook (mine few) temp (lit "mine:that") (lit "build_wheel") [] = BuildErr false /\ exec_hook (mine few) temp (lit "mine:it") (lit "build_editable") [] = Fails IOErr /\
  exec_hook (mine few) (lit "/tmp/it's/output") (lit "mine:it") (lit "build_wheel") [] = BuildErr false.
Proof.
  split.
  { intros c [<-|[<-|[<-|[<-|[]]]]] I; cbn in I; repeat (destruct I as [E|I]; [discriminate E|]); exact I. }
  split.
  { split; [|split; [|reflexivity]]; intro I; cbn in I; repeat (destruct I as [E|I]; [discriminate E|]); exact I. }
  vm_compute. repeat split.
Qed.

(** ** C301: what a build does, and what it gives *)
(** a build asks for what is needed, installs it, and then builds; it gives the file that the backend named *)
Definition asked (editable : bool) : str := if editable then lit "get_requires_for_build_editable" else lit "get_requires_for_build_wheel".
Definition asked_to_build (only_meta editable : bool) : str := if only_meta then lit "prepare_metadata_for_build_wheel" else if editable then lit "build_editable" else lit "build_wheel".
Definition told (j : job) (h : str) (args : list arg) (status : str) (v : value) : Prop := exec_hook (j_backend j) (j_outputs j h) (j_name j) h args = Done (status, v).
Definition first_steps (j : job) : list event := (match j_requires j with [] => [] | l => [InstallDeps l] end) ++ (match j_paths j with [] => [] | l => [Link l] end).
Lemma prepared_done : forall j k ev p, prepared j k = (ev, Done p) -> exists ev', k = (ev', Done p) /\ ev = first_steps j ++ ev' /\ (j_requires j <> [] -> j_install j (j_requires j) = None).
Proof.
  intros j [e q] ev p. unfold prepared, first_steps, installing, also. destruct (j_requires j) as [|r l]; destruct (j_paths j) as [|x y]; cbn [fst snd app].
  - intro H. injection H as <- ->. exists e. repeat split. intro N. elim N. reflexivity.
  - intro H. injection H as <- ->. exists e. repeat split. intro N. elim N. reflexivity.
  - destruct (j_install j (r :: l)) eqn:I; [discriminate|]. cbn [fst snd]. intro H. injection H as <- ->. exists e. repeat split.
  - destruct (j_install j (r :: l)) eqn:I; [discriminate|]. cbn [fst snd]. intro H. injection H as <- ->. exists e. repeat split.
Qed.
Lemma hooking_done : forall j h args k ev p, hooking j h args k = (ev, Done p) -> exists s v ev', told j h args s v /\ k s v = (ev', Done p) /\ ev = Hook h args :: ev'.
Proof.
  intros j h args k ev p. unfold hooking, told. destruct (exec_hook _ _ _ _ _) as [[s v]|m|e] eqn:E; try discriminate. unfold also. destruct (k s v) as [e q] eqn:K. cbn [fst snd app].
  intro H. injection H as <- ->. exists s, v, e. split; [reflexivity|]. split; [exact K|reflexivity].
Qed.
Lemma joined_done : forall d v p, joined d v = Done p -> exists s, v = JStr s /\ p = (if starts_with (lit "/") s then s else d ++ lit "/" ++ s).
Proof. intros d [| s|l|] p H; try discriminate H. exists s. split; [reflexivity|]. injection H as <-. reflexivity. Qed.
(** the requirements a backend tells: a list *)
Definition wants (j : job) (h : str) (l : list event) : Prop :=
  (exists v, told j h [ANone] (lit "undefined_hook") v /\ l = []) \/
  (exists v r, told j h [ANone] (lit "success") v /\ requirements v = Ok r /\ j_install j r = None /\ l = [InstallDeps r]).
Theorem C301_wheel : forall j d only_meta editable ev p, build_wheel j d only_meta editable = (ev, Done p) ->
  exists extra s args, (args = if only_meta then [AStr d; ANone] else [AStr d; ANone; ANone]) /\
    ev = first_steps j ++ [Hook (asked editable) [ANone]] ++ extra ++ [Hook (asked_to_build only_meta editable) args] /\
    wants j (asked editable) extra /\ told j (asked_to_build only_meta editable) args (lit "success") (JStr s) /\
    p = (if starts_with (lit "/") s then s else d ++ lit "/" ++ s) /\ (j_requires j <> [] -> j_install j (j_requires j) = None).
Proof.
  intros j d only_meta editable ev p H. unfold build_wheel in H. apply prepared_done in H. destruct H as (e1 & H & -> & I).
  apply hooking_done in H. destruct H as (s & v & e2 & T & H & ->).
  set (args := if only_meta then [AStr d; ANone] else [AStr d; ANone; ANone]).
  match type of H with (if _ then match _ with Ok l => installing j l ?r | Err e => _ end else _) = _ => set (rest := r) in H end.
  assert (R : forall e, rest = (e, Done p) -> exists s, told j (asked_to_build only_meta editable) args (lit "success") (JStr s) /\ p = (if starts_with (lit "/") s then s else d ++ lit "/" ++ s) /\ e = [Hook (asked_to_build only_meta editable) args]).
  { intros e E. unfold rest in E. assert (K : exists m, hooking j (asked_to_build only_meta editable) args (fun s v => ([], if str_eqb s SUCCESS then joined d v else BuildErr m)) = (e, Done p)).
    { unfold asked_to_build, args. destruct only_meta; [exists true; exact E|exists false; exact E]. }
    destruct K as [m K]. apply hooking_done in K. destruct K as (t & w & e3 & T' & K & ->). destruct (str_eqb t SUCCESS) eqn:S; [|discriminate K]. apply str_eqb_eq in S. subst t.
    assert (e3 = []) by congruence. subst e3. assert (J : joined d w = Done p) by congruence. apply joined_done in J. destruct J as (x & -> & P). exists x. split; [exact T'|]. split; [exact P|reflexivity]. }
  fold (asked editable) in T |- *.
  destruct (C300_told _ _ _ _ _ _ _ T) as [S|S]; subst s.
  - change (str_eqb (lit "success") SUCCESS) with true in H. cbv iota in H. destruct (requirements v) as [l|e] eqn:Q; [|discriminate H].
    unfold installing in H. destruct (j_install j l) eqn:JI; [discriminate H|]. unfold also in H. destruct rest as [e q] eqn:RE. cbn [fst snd] in H. assert (q = Done p) by congruence. subst q.
    destruct (R e eq_refl) as (x & T' & P & ->). assert (e2 = [InstallDeps l] ++ [Hook (asked_to_build only_meta editable) args]) by congruence. subst e2.
    exists [InstallDeps l], x, args. split; [reflexivity|]. split; [reflexivity|]. split; [right; exists v, l; repeat split; assumption|]. split; [exact T'|]. split; [exact P|exact I].
  - change (str_eqb (lit "undefined_hook") SUCCESS) with false in H. cbv iota in H. destruct (R e2 H) as (x & T' & P & ->).
    exists [], x, args. split; [reflexivity|]. split; [reflexivity|]. split; [left; exists v; split; [exact T|reflexivity]|]. split; [exact T'|]. split; [exact P|exact I].
Qed.
Print Assumptions C301_wheel.
Theorem C301_sdist : forall j d ev p, build_sdist j d = (ev, Done p) ->
  exists extra s, ev = first_steps j ++ [Hook (lit "get_requires_for_build_sdist") [ANone]] ++ extra ++ [Hook (lit "build_sdist") [AStr d; ANone]] /\
    (wants j (lit "get_requires_for_build_sdist") extra \/ (extra = [] /\ exists v, told j (lit "get_requires_for_build_sdist") [ANone] (lit "success") v /\ requirements v = Ok [])) /\
    told j (lit "build_sdist") [AStr d; ANone] (lit "success") (JStr s) /\
    p = (if starts_with (lit "/") s then s else d ++ lit "/" ++ s) /\ (j_requires j <> [] -> j_install j (j_requires j) = None).
Proof.
  intros j d ev p H. unfold build_sdist in H. apply prepared_done in H. destruct H as (e1 & H & -> & I).
  apply hooking_done in H. destruct H as (s & v & e2 & T & H & ->).
  set (rest := hooking j (lit "build_sdist") _ _) in H.
  assert (R : forall e, rest = (e, Done p) -> exists s, told j (lit "build_sdist") [AStr d; ANone] (lit "success") (JStr s) /\ p = (if starts_with (lit "/") s then s else d ++ lit "/" ++ s) /\ e = [Hook (lit "build_sdist") [AStr d; ANone]]).
  { intros e K. unfold rest in K. apply hooking_done in K. destruct K as (t & w & e3 & T' & K & ->). destruct (str_eqb t SUCCESS) eqn:S; [|discriminate K]. apply str_eqb_eq in S. subst t.
    assert (e3 = []) by congruence. subst e3. assert (J : joined d w = Done p) by congruence. apply joined_done in J. destruct J as (x & -> & P). exists x. split; [exact T'|]. split; [exact P|reflexivity]. }
  destruct (C300_told _ _ _ _ _ _ _ T) as [S|S]; subst s.
  - change (str_eqb (lit "success") SUCCESS) with true in H. cbv iota in H. destruct (requirements v) as [l|e] eqn:Q; [|discriminate H]. destruct l as [|r l].
    + destruct (R e2 H) as (x & T' & P & ->). exists [], x. split; [reflexivity|]. split; [right; split; [reflexivity|]; exists v; split; [exact T|exact Q]|]. split; [exact T'|]. split; [exact P|exact I].
    + unfold installing in H. destruct (j_install j (r :: l)) eqn:JI; [discriminate H|]. unfold also in H. destruct rest as [e q] eqn:RE. cbn [fst snd] in H. assert (q = Done p) by congruence. subst q.
      destruct (R e eq_refl) as (x & T' & P & ->). assert (e2 = [InstallDeps (r :: l)] ++ [Hook (lit "build_sdist") [AStr d; ANone]]) by congruence. subst e2.
      exists [InstallDeps (r :: l)], x. split; [reflexivity|]. split; [left; right; exists v, (r :: l); repeat split; assumption|]. split; [exact T'|]. split; [exact P|exact I].
  - change (str_eqb (lit "undefined_hook") SUCCESS) with false in H. cbv iota in H. destruct (R e2 H) as (x & T' & P & ->).
    exists [], x. split; [reflexivity|]. split; [left; left; exists v; split; [exact T|reflexivity]|]. split; [exact T'|]. split; [exact P|exact I].
Qed.
Print Assumptions C301_sdist.
(** only metadata can be missing, and exactly then the cache of source builds (source_build_cache.py 66-73) builds a wheel instead *)
Lemma exec_not_missing : forall b p n h args, exec_hook b p n h args <> BuildErr true.
Proof. intros b p n h args. unfold exec_hook. destruct (process b p n h args) as [c [[s v]|]]; destruct (Z.eqb c 0); cbn [negb]; try discriminate. destruct (str_eqb s FAIL); discriminate. Qed.
Lemma prepared_missing : forall j k, snd (prepared j k) = BuildErr true -> snd k = BuildErr true.
Proof. intros j [e q]. unfold prepared, installing, also. destruct (j_requires j) as [|r l]; destruct (j_paths j); cbn [fst snd]; try (destruct (j_install j (r :: l)); cbn [fst snd]); auto; discriminate. Qed.
Lemma hooking_missing : forall j h args k, snd (hooking j h args k) = BuildErr true -> exists s v, told j h args s v /\ snd (k s v) = BuildErr true.
Proof.
  intros j h args k. unfold hooking, told. pose proof (exec_not_missing (j_backend j) (j_outputs j h) (j_name j) h args) as N. destruct (exec_hook _ _ _ _ _) as [[s v]|m|e]; cbn [snd also]; intro H; try congruence.
  exists s, v. split; [reflexivity|exact H].
Qed.
Theorem C301_missing : forall j d only_meta editable, snd (build_wheel j d only_meta editable) = BuildErr true ->
  only_meta = true /\ exists v, told j (lit "prepare_metadata_for_build_wheel") [AStr d; ANone] (lit "undefined_hook") v.
Proof.
  intros j d only_meta editable H. unfold build_wheel in H. apply prepared_missing, hooking_missing in H. destruct H as (s & v & _ & H).
  match type of H with snd (if _ then match _ with Ok l => installing j l ?r | Err e => _ end else _) = _ => set (rest := r) in H end.
  assert (R : snd rest = BuildErr true).
  { destruct (str_eqb s SUCCESS); [|exact H]. destruct (requirements v) as [l|e]; [|discriminate H]. unfold installing in H. destruct (j_install j l); [discriminate H|exact H]. }
  unfold rest in R. destruct only_meta; apply hooking_missing in R; destruct R as (t & w & T & R); cbn [snd] in R.
  - split; [reflexivity|]. exists w. destruct (C300_told _ _ _ _ _ _ _ T) as [S|S]; subst t; [|exact T]. change (str_eqb (lit "success") SUCCESS) with true in R. cbv iota in R. destruct w; discriminate R.
  - exfalso. destruct (str_eqb t SUCCESS); [destruct w; discriminate R|discriminate R].
Qed.
Print Assumptions C301_missing.
Theorem C301_missing_told : forall j d editable extra v, (j_requires j <> [] -> j_install j (j_requires j) = None) -> wants j (asked editable) extra ->
  told j (lit "prepare_metadata_for_build_wheel") [AStr d; ANone] (lit "undefined_hook") v -> snd (build_wheel j d true editable) = BuildErr true.
Proof.
  intros j d editable extra v I W T. unfold build_wheel. fold (asked editable).
  set (rest := hooking j (lit "prepare_metadata_for_build_wheel") _ _).
  assert (R : snd rest = BuildErr true) by (unfold rest, hooking; unfold told in T; rewrite T; reflexivity).
  assert (P : forall k, snd k = BuildErr true -> snd (prepared j k) = BuildErr true).
  { intros [e q] E. unfold prepared, installing, also. cbn [snd] in E. destruct (j_requires j) as [|r l] eqn:Q; destruct (j_paths j); cbn [fst snd]; try exact E; rewrite I by discriminate; exact E. }
  apply P. unfold hooking at 1. destruct W as [(w & W & _)|(w & r & W & Q & J & _)]; unfold told in W; rewrite W; cbn [also snd].
  - exact R.
  - change (str_eqb (lit "success") SUCCESS) with true. cbv iota. rewrite Q. unfold installing. rewrite J. exact R.
Qed.
Print Assumptions C301_missing_told.
(** the metadata of an editable build is asked from the hook for wheels that are not editable *)
Theorem C301_editable_refuted : exists j d ev p, build_wheel j d true true = (ev, Done p) /\ In (Hook (lit "prepare_metadata_for_build_wheel") [AStr d; ANone]) ev /\
  (exists v, told j (lit "prepare_metadata_for_build_editable") [AStr d; ANone] (lit "success") (JStr v) /\ p <> d ++ lit "/" ++ v).
Proof.
  exists (Job (mine (fun h _ => if str_eqb h (lit "prepare_metadata_for_build_wheel") then Some (Returns (JStr (lit "a.dist-info"))) else if str_eqb h (lit "prepare_metadata_for_build_editable") then Some (Returns (JStr (lit "b.dist-info"))) else None)) (lit "mine:it") [] [] (fun h => lit "/tmp/" ++ h) (fun _ => None)), (lit "/out").
  eexists. eexists. split; [vm_compute; reflexivity|]. split; [right; left; reflexivity|]. exists (lit "b.dist-info"). split; [vm_compute; reflexivity|discriminate].
Qed.
(** the backend puts its file where pkm looks for it, if the directory is told from the root *)
Theorem C301_place_partial : forall project cwd d s p, starts_with (lit "/") d = true -> starts_with (lit "/") s = false -> joined d (JStr s) = Done p ->
  seen_from cwd p = seen_from project d ++ lit "/" ++ s.
Proof.
  intros project cwd d s p D S J. unfold joined in J. rewrite S in J. assert (P : p = d ++ lit "/" ++ s) by congruence. subst p.
  unfold seen_from. rewrite D. destruct d as [|c d]; [discriminate D|]. replace (starts_with (lit "/") ((c :: d) ++ lit "/" ++ s)) with true by (symmetry; exact D). reflexivity.
Qed.
Print Assumptions C301_place_partial.
Theorem C301_place_refuted : exists project cwd d s p, joined d (JStr s) = Done p /\ seen_from cwd p <> seen_from project d ++ lit "/" ++ s.
Proof. exists (lit "/src/p"), (lit "/src"), (lit "out"), (lit "p-1.whl"). eexists. split; [reflexivity|]. vm_compute. discriminate. Qed.

Definition job1 : job := Job (mine few) (lit "mine:it") [lit "setuptools"] [lit "backend"] (fun h => lit "/tmp/" ++ h) (fun l => if str_mem (lit "nothing") l then Some NoSuchElement else None).
Example C301_example : build_wheel job1 (lit "/out") false false =
    ([InstallDeps [lit "setuptools"]; Link [lit "backend"]; Hook (lit "get_requires_for_build_wheel") [ANone]; InstallDeps [lit "cffi"]; Hook (lit "build_wheel") [AStr (lit "/out"); ANone; ANone]], Done (lit "/out/p-1.whl")) /\
  snd (build_wheel job1 (lit "/out") true false) = BuildErr true /\ wants job1 (asked false) [InstallDeps [lit "cffi"]] /\ told job1 (lit "prepare_metadata_for_build_wheel") [AStr (lit "/out"); ANone] (lit "undefined_hook") JNull /\
  snd (build_sdist job1 (lit "/out")) = BuildErr false /\ snd (build_wheel job1 (lit "/out") false true) = Fails IOErr /\
  (exists ev, build_sdist (Job (mine (fun h _ => if str_eqb h (lit "build_sdist") then Some (Returns (JStr (lit "p-1.tar.gz"))) else Some (Returns (JList [])))) (lit "mine:it") [] [] (fun h => h) (fun _ => None)) (lit "/out") = (ev, Done (lit "/out/p-1.tar.gz"))).
Proof.
  split; [vm_compute; reflexivity|]. split; [vm_compute; reflexivity|]. split; [right; exists (JList [lit "cffi"]), [lit "cffi"]; vm_compute; repeat split|].
  split; [vm_compute; reflexivity|]. split; [vm_compute; reflexivity|]. split; [vm_compute; reflexivity|]. eexists. vm_compute. reflexivity.
Qed.
