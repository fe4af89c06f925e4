(** Properties C209-C211: the interpreters that are found, and the one that is taken for a new environment. *)
From Coq Require Import List Bool NArith Ascii String Arith Lia Permutation.
From Verif Require Import Base BaseFacts VersionModel VersionSpec VersionProofs VersionParse SpecifierModel SpecifierSpec SpecParse SpecParseSpec SpecParseProofs PlanProofs IndexModel IndexProofs InstallProofs MonitorModel MonitorProps PythonsModel PythonsProofs SpecifierProps.
From Verif Require RecordFileModel RecordFileProofs.
Import ListNotations.
Open Scope string_scope. Open Scope nat_scope. Open Scope list_scope. Open Scope bool_scope.

(** ** C209: the interpreters that are found *)
(** what an interpreter prints: its version and its executable, one line each *)
Definition one_line (s : str) : Prop := s <> [] /\ forallb (fun c => negb (is_space c)) s = true.
Definition announces (run_python : str -> outcome) (p v e : str) : Prop := run_python p = Printed (v ++ [newline] ++ e ++ [newline]) /\ one_line v /\ one_line e.
Definition usual (run_python : str -> outcome) (p : str) : Prop := run_python p = FailedRun \/ exists v e, announces run_python p v e.

Lemma space_ends : forall s, forallb (fun c => negb (is_space c)) s = true -> forallb (fun c => negb (RecordFileModel.is_line_end c)) s = true.
Proof.
  intros s H. rewrite forallb_forall in *. intros c I. specialize (H c I). destruct c as [[] [] [] [] [] [] [] []]; vm_compute in H |- *; congruence.
Qed.
Lemma one_line_ends : forall s, one_line s -> (forall c r, s = c :: r -> is_space c = false) /\ (forall r c, s = r ++ [c] -> is_space c = false).
Proof.
  intros s [_ H]. rewrite forallb_forall in H. split; intros; subst; apply negb_true_iff, H; [left; reflexivity|apply in_or_app; right; left; reflexivity].
Qed.
Lemma announces_says : forall run_python resolve p v e ver, announces run_python p v e -> parse_version v = Ok ver -> says run_python resolve p (resolve e) ver.
Proof.
  intros run_python resolve p v e ver (R & V & E) P. exists (v ++ [newline] ++ e ++ [newline]), v, e. split; [exact R|].
  assert (SV : strip_line v = v). { pose proof (C208_stripped [] v [] eq_refl eq_refl (proj1 (one_line_ends v V)) (proj2 (one_line_ends v V))) as Q. rewrite app_nil_r in Q. exact Q. }
  assert (SE : strip_line e = e). { pose proof (C208_stripped [] e [] eq_refl eq_refl (proj1 (one_line_ends e E)) (proj2 (one_line_ends e E))) as Q. rewrite app_nil_r in Q. exact Q. }
  split; [|split; [rewrite SE; reflexivity|rewrite SV; exact P]].
  assert (S : strip_line (v ++ [newline] ++ e ++ [newline]) = v ++ [newline] ++ e).
  { pose proof (C208_stripped [] (v ++ [newline] ++ e) [newline] eq_refl eq_refl) as Q. cbn [app] in Q. rewrite <- app_assoc in Q. cbn [app] in Q |- *. apply Q.
    - intros c r X. destruct V as [N V]. destruct v as [|c' v']; [congruence|]. cbn [app] in X. injection X as <- _. exact (proj1 (one_line_ends (c' :: v') (conj N V)) c' v' eq_refl).
    - intros r c X. destruct E as [N E]. destruct (exists_last N) as (e' & x & ->). change (v ++ newline :: e' ++ [x] = r ++ [c]) in X. rewrite app_comm_cons, app_assoc in X. apply app_inj_tail in X as [_ <-]. exact (proj2 (one_line_ends (e' ++ [x]) (conj N E)) e' x eq_refl). }
  rewrite S. cbn [app]. rewrite RecordFileProofs.split_lines_app by (apply space_ends, V). rewrite RecordFileProofs.split_lines_last; [reflexivity|apply space_ends, E|apply E].
Qed.
Lemma usual_regular : forall run_python resolve p, usual run_python p -> regular run_python resolve p.
Proof.
  intros run_python resolve p [F|(v & e & A)]; [left; exact F|]. right. destruct (VersionProps.C05_total v) as [ver P]. exists (resolve e), ver. apply (announces_says _ _ _ v); assumption.
Qed.
Lemma says_announced : forall run_python resolve p x ver, usual run_python p -> says run_python resolve p x ver -> exists v e, announces run_python p v e /\ x = resolve e /\ parse_version v = Ok ver.
Proof.
  intros run_python resolve p x ver [F|(v & e & A)] S; [destruct S as (o & a & b & R & _); congruence|].
  destruct (VersionProps.C05_total v) as [w P]. destruct (says_eq _ _ _ _ _ _ _ S (announces_says _ resolve _ _ _ _ A P)) as [-> ->]. exists v, e. auto.
Qed.

(** every executable that some candidate says it is is listed once, with the version that some candidate announced with it *)
Theorem C209_found_partial : forall run_python resolve order, Forall (usual run_python) order ->
  exists l, all_installed run_python resolve order = Ok l /\ NoDup (map p_path l) /\
    (forall p v e, In p order -> announces run_python p v e -> In (resolve e) (map p_path l)) /\
    (forall i, In i l -> exists p v e, In p order /\ announces run_python p v e /\ p_path i = resolve e /\ parse_version v = Ok (p_version i)).
Proof.
  intros run_python resolve order U. unfold all_installed.
  destruct (locate_spec run_python resolve order [] []) as (l & E & N & _ & S & C).
  - rewrite Forall_forall in *. intros p I. apply usual_regular, U, I.
  - intro x. reflexivity.
  - constructor.
  - rewrite E. cbn [bind]. exists (sorted_by_version p_version l). pose proof (sort_perm p_version l) as P. split; [reflexivity|]. split; [|split].
    + apply Permutation_NoDup with (l := map p_path l); [apply Permutation_map, Permutation_sym, P|exact N].
    + intros p v e I A. destruct (VersionProps.C05_total v) as [w PV]. apply Permutation_in with (l := map p_path l); [apply Permutation_map, Permutation_sym, P|]. apply (C p _ w I), (announces_says _ resolve _ v e w A PV).
    + intros i I. apply (Permutation_in _ P) in I. destruct (S i I) as [[]|(p & J & K)]. rewrite Forall_forall in U. destruct (says_announced _ _ _ _ _ (U p J) K) as (v & e & A & X & V). exists p, v, e. auto.
Qed.
Print Assumptions C209_found_partial.

(** the newest is first, for versions without local labels *)
Theorem C209_newest : forall run_python resolve order l, all_installed run_python resolve order = Ok l -> (forall i, In i l -> orderly (p_version i)) ->
  ForallOrdPairs (fun i j => version_ltb (p_version i) (p_version j) = false) l.
Proof.
  intros run_python resolve order l A O. unfold all_installed in A. destruct (locate run_python resolve order [] []) as [r|]; [|discriminate]. cbn [bind] in A.
  assert (l = sorted_by_version p_version r) by congruence. subst l. apply (sort_sorted p_version). rewrite Forall_forall. intros i I. apply O. apply (Permutation_in _ (Permutation_sym (sort_perm p_version r)) I).
Qed.
Print Assumptions C209_newest.

(** the order in which the candidates are visited does not change which interpreters are listed, if the same executable always announces the same version *)
Theorem C209_order_partial : forall run_python resolve order order' l l', Forall (usual run_python) order -> (forall p, In p order <-> In p order') ->
  (forall p v e p' v' e', In p order -> In p' order -> announces run_python p v e -> announces run_python p' v' e' -> resolve e = resolve e' -> parse_version v = parse_version v') ->
  all_installed run_python resolve order = Ok l -> all_installed run_python resolve order' = Ok l' -> forall i, In i l <-> In i l'.
Proof.
  assert (H : forall run_python resolve order order' l l', Forall (usual run_python) order -> (forall p, In p order <-> In p order') ->
    (forall p v e p' v' e', In p order -> In p' order -> announces run_python p v e -> announces run_python p' v' e' -> resolve e = resolve e' -> parse_version v = parse_version v') ->
    all_installed run_python resolve order = Ok l -> all_installed run_python resolve order' = Ok l' -> forall i, In i l -> In i l').
  { intros run_python resolve order order' l l' U Same V A A' i I.
    assert (U' : Forall (usual run_python) order') by (rewrite Forall_forall in *; intros p J; apply U, Same, J).
    destruct (C209_found_partial run_python resolve order U) as (m & E & _ & _ & S). assert (m = l) by congruence. subst m.
    destruct (C209_found_partial run_python resolve order' U') as (m & E' & _ & C & S'). assert (m = l') by congruence. subst m.
    destruct (S i I) as (p & v & e & J & K & X & P). pose proof (C p v e (proj1 (Same p) J) K) as M. apply in_map_iff in M as (k & Y & M).
    destruct (S' k M) as (p' & v' & e' & J' & K' & X' & P'). assert (Q : parse_version v = parse_version v') by (apply (V p v e p' v' e'); [exact J|apply Same, J'|exact K|exact K'|congruence]).
    replace i with k; [exact M|]. destruct i as [ip iv], k as [kp kv]. cbn in *. f_equal; congruence. }
  intros run_python resolve order order' l l' U Same V A A' i. split; [apply (H run_python resolve order order' l l' U Same V A A' i)|].
  apply (H run_python resolve order' order l' l); try assumption.
  - rewrite Forall_forall in *. intros p J. apply U, Same, J.
  - intro p. symmetry. apply Same.
  - intros p v e p' v' e' J J'. apply V; apply Same; assumption.
Qed.
Print Assumptions C209_order_partial.

(** three executables, two of them the same interpreter, and one that is broken *)
Definition machine (p : str) : outcome :=
  if str_eqb p (lit "/usr/bin/python3") then Printed (lit "3.9.2" ++ [newline] ++ lit "/usr/bin/python3.9" ++ [newline])
  else if str_eqb p (lit "/usr/bin/python3.9") then Printed (lit "3.9.2" ++ [newline] ++ lit "/usr/bin/python3.9" ++ [newline])
  else if str_eqb p (lit "/opt/python3.10") then Printed (lit "3.10.1" ++ [newline] ++ lit "/opt/python3.10" ++ [newline])
  else if str_eqb p (lit "/opt/python2") then FailedRun
  else if str_eqb p (lit "/old/python3") then NotStarted
  else Printed (lit "hello" ++ [newline] ++ lit "3.8" ++ [newline] ++ lit "/site/python" ++ [newline]).
Definition candidates : list str := [lit "/usr/bin/python3"; lit "/opt/python2"; lit "/opt/python3.10"; lit "/usr/bin/python3.9"].
Definition same (s : str) : str := s.
Example C209_sample : Forall (usual machine) candidates /\
  all_installed machine same candidates = Ok [Interp (lit "/opt/python3.10") (VStd (final [3; 10; 1]%N)); Interp (lit "/usr/bin/python3.9") (VStd (final [3; 9; 2]%N))].
Proof.
  split; [|vm_compute; reflexivity]. unfold candidates.
  constructor; [right; exists (lit "3.9.2"), (lit "/usr/bin/python3.9"); split; [reflexivity|split; split; [discriminate|reflexivity|discriminate|reflexivity]]|].
  constructor; [left; reflexivity|].
  constructor; [right; exists (lit "3.10.1"), (lit "/opt/python3.10"); split; [reflexivity|split; split; [discriminate|reflexivity|discriminate|reflexivity]]|].
  constructor; [right; exists (lit "3.9.2"), (lit "/usr/bin/python3.9"); split; [reflexivity|split; split; [discriminate|reflexivity|discriminate|reflexivity]]|constructor].
Qed.

(** one executable that cannot be started hides every interpreter *)
Theorem C209_started_refuted : forall run_python resolve p a b, run_python p = NotStarted -> Forall (usual run_python) a -> all_installed run_python resolve (a ++ p :: b) = Err IOErr.
Proof.
  intros run_python resolve p a b N U. unfold all_installed.
  assert (H : forall a known acc, Forall (usual run_python) a -> locate run_python resolve (a ++ p :: b) known acc = Err IOErr).
  { clear U a. induction a as [|q a IH]; intros known acc U; [cbn; rewrite N; reflexivity|]. inversion U as [|? ? Q R]; subst. cbn [app locate].
    apply (usual_regular _ resolve) in Q as [F|(x & ver & (o & v & e & RR & SP & X & PV))]; [rewrite F; apply IH, R|]. rewrite RR, SP, PV. cbn [bind]. destruct (str_mem _ known); apply IH, R. }
  rewrite H by exact U. reflexivity.
Qed.
Print Assumptions C209_started_refuted.
(** so does one that prints another line, or a file in PATH *)
Theorem C209_chatty_refuted : exists p, all_installed machine same (candidates ++ [p]) = Err ValueError.
Proof. exists (lit "/site/python"). vm_compute. reflexivity. Qed.
Theorem C209_path_refuted : forall a b, In Unlistable a -> lookup_env (a ++ b) = Err IOErr.
Proof.
  induction a as [|x a IH]; intros b I; [destruct I|]. destruct x as [| |fs]; cbn; [destruct I as [D|I]; [discriminate|apply IH, I]|reflexivity|]. destruct I as [D|I]; [discriminate|]. rewrite IH by exact I. reflexivity.
Qed.
Example C209_failures : all_installed machine same (candidates ++ [lit "/old/python3"]) = Err IOErr /\ lookup_env [Missing; Directory []; Unlistable] = Err IOErr.
Proof. vm_compute. split; reflexivity. Qed.

(** ** C210: the files that count as interpreters *)
(** "python", possibly a dash, numbers and dots, possibly one sign and "exe" *)
Definition python_name (n : str) : Prop := exists h d e, n = lit "python" ++ h ++ d ++ e /\ (h = [] \/ h = lit "-") /\ (forall c, In c d -> is_digit c = true \/ c = "."%char) /\
  (e = [] \/ exists c, e = c :: lit "exe" /\ c <> newline).
Lemma digits_or_dots : forall d, forallb digit_or_dot d = true <-> forall c, In c d -> is_digit c = true \/ c = "."%char.
Proof.
  intro d. rewrite forallb_forall. split; intros H c I; specialize (H c I); unfold digit_or_dot in *; [apply orb_true_iff in H as [H|H]; [left; exact H|right; apply Ascii.eqb_eq, H]|].
  destruct H as [H| ->]; [rewrite H; reflexivity|apply orb_true_r].
Qed.
Lemma name_end_iff : forall r, name_end r = true <-> exists d e, r = d ++ e /\ (forall c, In c d -> is_digit c = true \/ c = "."%char) /\ (e = [] \/ exists c, e = c :: lit "exe" /\ c <> newline).
Proof.
  intro r. unfold name_end. rewrite orb_true_iff. split.
  - intros [H|H].
    + exists r, []. split; [rewrite app_nil_r; reflexivity|]. split; [apply digits_or_dots, H|left; reflexivity].
    + pose proof (firstn_skipn (List.length r - 4) r) as F. destruct (skipn (List.length r - 4) r) as [|c e]; [discriminate|]. apply andb_true_iff in H as [H E]. apply andb_true_iff in H as [D C].
      exists (firstn (List.length r - 4) r), (c :: e). split; [symmetry; exact F|]. split; [apply digits_or_dots, D|]. right. exists c. split; [f_equal; apply str_eqb_eq, E|]. intros ->. discriminate C.
  - intros (d & e & -> & D & [-> |(c & -> & C)]); [left; rewrite app_nil_r; apply digits_or_dots, D|]. right.
    assert (L : List.length (d ++ c :: lit "exe") - 4 = List.length d) by (rewrite app_length; cbn; lia). rewrite L. rewrite skipn_app, skipn_all, Nat.sub_diag. cbn [app skipn].
    rewrite firstn_app, firstn_all, Nat.sub_diag. cbn [firstn]. rewrite app_nil_r. rewrite (proj2 (digits_or_dots d) D). cbn [andb]. rewrite andb_true_iff. split; [|reflexivity]. apply negb_true_iff. apply Ascii.eqb_neq, C.
Qed.
Theorem C210_names : forall n, exec_name n = true <-> python_name (lower n).
Proof.
  intro n. unfold exec_name, python_name. set (m := lower n). clearbody m. rewrite andb_true_iff, orb_true_iff. split.
  - intros [P H]. apply starts_with_iff in P as [r ->]. change (skipn 6 (lit "python" ++ r)) with r in H. destruct H as [H|H].
    + apply name_end_iff in H as (d & e & -> & D & E). exists [], d, e. split; [reflexivity|]. auto.
    + destruct r as [|c r]; [discriminate|]. apply andb_true_iff in H as [C H]. apply Ascii.eqb_eq in C. subst c. apply name_end_iff in H as (d & e & -> & D & E). exists (lit "-"), d, e. split; [reflexivity|]. auto.
  - intros (h & d & e & -> & H & D & E). split; [apply starts_with_iff; exists (h ++ d ++ e); reflexivity|].
    change (skipn 6 (lit "python" ++ h ++ d ++ e)) with (h ++ d ++ e). destruct H as [-> | ->].
    + left. apply name_end_iff. exists d, e. auto.
    + right. cbn [app lit]. apply andb_true_iff. split; [reflexivity|]. apply name_end_iff. exists d, e. auto.
Qed.
Print Assumptions C210_names.
(** the files of a directory that are taken *)
Theorem C210_taken : forall f p, In p (found [f]) <-> f_dir f = false /\ f_exec f = true /\ python_name (lower (f_name f)) /\ f_resolved f = Some p.
Proof.
  intros f p. unfold found, as_python. cbn [flat_map]. rewrite app_nil_r. rewrite <- C210_names. destruct (f_dir f), (f_exec f), (exec_name (f_name f)), (f_resolved f) as [q|]; cbn;
    (split; [intro H; try (destruct H as [H|[]]); try (destruct H); subst; repeat split; congruence|intros (A & B & C & D); try discriminate; left; congruence]).
Qed.
Print Assumptions C210_taken.
Theorem C210_all : forall fs p, In p (found fs) <-> exists f, In f fs /\ In p (found [f]).
Proof.
  intros fs p. unfold found. rewrite in_flat_map. split; intros (f & I & J); exists f; (split; [exact I|]); cbn [flat_map] in *; rewrite app_nil_r in *; exact J.
Qed.
(** everything that is in PATH *)
Theorem C210_path : forall l, ~ In Unlistable l -> exists r, lookup_env l = Ok r /\ forall p, In p r <-> exists fs, In (Directory fs) l /\ In p (found fs).
Proof.
  induction l as [|x l IH]; intro N.
  - exists []. split; [reflexivity|]. intro p. split; [intros []|intros (fs & [] & _)].
  - destruct IH as (r & E & H); [intro I; apply N; right; exact I|]. destruct x as [| |fs].
    + exists r. split; [exact E|]. intro p. rewrite H. split; intros (g & I & J); exists g; (split; [|exact J]); [right; exact I|destruct I as [D|I]; [discriminate|exact I]].
    + exfalso. apply N. left. reflexivity.
    + exists (found fs ++ r). cbn [lookup_env]. rewrite E. split; [reflexivity|]. intro p. rewrite in_app_iff, H. split.
      * intros [I|(g & I & J)]; [exists fs; split; [left; reflexivity|exact I]|exists g; split; [right; exact I|exact J]].
      * intros (g & [D|I] & J); [left; congruence|right; exists g; auto].
Qed.
Print Assumptions C210_path.
Example C210_sample : exec_name (lit "python3.10") = true /\ exec_name (lit "Python-3.10.EXE") = true /\ exec_name (lit "python3-config") = false /\ exec_name (lit "pythonw.exe") = false /\
  lookup_env [Missing; Directory [File (lit "python3") false true (Some (lit "/usr/bin/python3.9")); File (lit "python3-config") false true (Some (lit "/usr/bin/c"))]] = Ok [lit "/usr/bin/python3.9"].
Proof. vm_compute. repeat split. Qed.
(** any sign may stand before "exe" *)
Theorem C210_sign_refuted : exists n m, n = lit "python3_exe" /\ m = lit "pythonyexe" /\ exec_name n = true /\ exec_name m = true.
Proof. exists (lit "python3_exe"), (lit "pythonyexe"). vm_compute. auto. Qed.
(** an interpreter in PATH is found, the same one below a search path is not, unless its name is "python" *)
Theorem C210_search_refuted : forall n d p, exec_name n = true -> n <> lit "python" -> let f := File n false true (Some p) in
  lookup_env [Directory [f]] = Ok [p] /\ lookup_below (d ++ [f]) = lookup_below d.
Proof.
  intros n d p E N f. split.
  - cbn. unfold as_python. cbn. rewrite E. reflexivity.
  - unfold lookup_below. rewrite filter_app. cbn [filter]. destruct (str_eqb (f_name f) (lit "python")) eqn:Q; [apply str_eqb_eq in Q; exfalso; exact (N Q)|]. rewrite app_nil_r. reflexivity.
Qed.
Print Assumptions C210_search_refuted.
Example C210_search_sample : exec_name (lit "python3.10") = true /\ lit "python3.10" <> lit "python" /\ lookup_below [File (lit "python3.10") false true (Some (lit "/opt/3.10/bin/python3.10"))] = [] /\
  lookup_below [File (lit "python") false true (Some (lit "/opt/3.10/bin/python3.10"))] = [lit "/opt/3.10/bin/python3.10"].
Proof. vm_compute. repeat split. discriminate. Qed.

(** ** C211: the interpreter of a new environment *)
(** the interpreter that is taken is allowed, and none that is allowed is newer *)
Theorem C211_newest : forall run_python resolve order s l i, all_installed run_python resolve order = Ok l -> (forall j, In j l -> orderly (p_version j)) -> create_matching run_python resolve order s = Ok i ->
  In i l /\ allows s (p_version i) = true /\ forall j, In j l -> allows s (p_version j) = true -> version_ltb (p_version i) (p_version j) = false.
Proof.
  intros run_python resolve order s l i A O H. unfold create_matching, matching in H. rewrite A in H. cbn [bind] in H.
  set (m := filter (fun p => allows s (p_version p)) l) in *. pose proof (sort_perm p_version m) as P.
  assert (SS : ForallOrdPairs (not_before p_version) (sorted_by_version p_version m)). { apply sort_sorted. rewrite Forall_forall. intros j J. apply O. apply filter_In in J as [J _]. exact J. }
  destruct (sorted_by_version p_version m) as [|x r] eqn:E; [discriminate|]. assert (x = i) by congruence. subst x.
  assert (I : In i m) by (apply (Permutation_in _ P); left; reflexivity). apply filter_In in I as [I AL]. split; [exact I|]. split; [exact AL|].
  intros j J K. assert (M : In j m) by (apply filter_In; auto). apply (Permutation_in _ (Permutation_sym P)) in M. destruct M as [<-|M].
  - destruct (version_ltb (p_version i) (p_version i)) eqn:X; [|reflexivity]. exfalso. pose proof (version_ltb_irrefl (p_version i)). congruence.
  - inversion SS as [|? ? F _]; subst. rewrite Forall_forall in F. apply (F j M).
Qed.
Print Assumptions C211_newest.
(** it is an error exactly when none is allowed *)
Theorem C211_none : forall run_python resolve order s l, all_installed run_python resolve order = Ok l ->
  (create_matching run_python resolve order s = Err NoSuchElement <-> forall j, In j l -> allows s (p_version j) = false) /\
  ((exists i, create_matching run_python resolve order s = Ok i) <-> exists j, In j l /\ allows s (p_version j) = true).
Proof.
  intros run_python resolve order s l A. unfold create_matching, matching. rewrite A. cbn [bind].
  set (m := filter (fun p => allows s (p_version p)) l) in *. pose proof (sort_perm p_version m) as P.
  destruct (sorted_by_version p_version m) as [|x r].
  - apply Permutation_nil in P. split; split.
    + intros _ j J. destruct (allows s (p_version j)) eqn:K; [|reflexivity]. exfalso. assert (I : In j m) by (apply filter_In; auto). rewrite P in I. exact I.
    + reflexivity.
    + intros [i D]. discriminate.
    + intros (j & J & K). exfalso. assert (I : In j m) by (apply filter_In; auto). rewrite P in I. exact I.
  - assert (I : In x m) by (apply (Permutation_in _ P); left; reflexivity). apply filter_In in I as [I K]. split; split.
    + discriminate.
    + intro H. rewrite (H x I) in K. discriminate.
    + intros _. exists x. auto.
    + intros _. exists x. reflexivity.
Qed.
Print Assumptions C211_none.

(** *** the choice of a version in the template of environments *)
Lemma minor_ok : forall a b, clause_ok (Compat, final [a; b; 0%N]).
Proof. intros a b. repeat split; cbn; try discriminate; try lia. Qed.
Lemma minor_text : forall a b, chosen (version_str (without_patch (VStd (final [a; b])))) = spec_str (Range (Some (final [a; b; 0%N])) (Some (final [a; (b + 1)%N; 0%N])) true false).
Proof.
  intros a b. cbn [spec_str]. unfold range_str, compat_release. cbn [final release rev app andb negb]. rewrite (proj2 (list_eqb_N [a; (b + 1)%N; 0%N] [a; (b + 1)%N; 0%N]) eq_refl). unfold chosen. f_equal.
  cbn [without_patch sv_without_patch]. unfold sv_without_patch. cbn [release List.length Nat.ltb Nat.leb final]. cbn [version_str]. unfold sv_str. cbn. rewrite ?app_nil_r, <- ?app_assoc. reflexivity.
Qed.
(** a chosen "a.b" means the versions from a.b.0 on, below a.(b+1).0 *)
Theorem C211_meaning : forall as_uri a b, parse_specifier as_uri (chosen (version_str (VStd (final [a; b])))) = Ok (Range (Some (final [a; b; 0%N])) (Some (final [a; (b + 1)%N; 0%N])) true false).
Proof.
  intros as_uri a b. change (VStd (final [a; b])) with (without_patch (VStd (final [a; b]))). rewrite minor_text. apply print_parse. cbn [printable]. split; [|split; [|split]].
  - apply (compat_range (final [a; b; 0%N]) [a] b 0%N); [apply minor_ok|reflexivity].
  - intros m E. injection E as <-. apply (minor_ok a b).
  - intros m E. injection E as <-. split; cbn; try discriminate; try lia; repeat split.
  - intros m n E E' _ _ p x y R R'. injection E as <-. injection E' as <-. cbn in R, R'. unfold final. f_equal. exact R'.
Qed.
Print Assumptions C211_meaning.
(** the environment is made, and if the interpreter that is taken is a final version it has the chosen numbers *)
Theorem C211_same_minor_partial : forall run_python resolve order l as_uri a b c r, all_installed run_python resolve order = Ok l -> In (Interp r (VStd (final [a; b; c]))) l ->
  In (version_str (VStd (final [a; b]))) (choices l) /\
  exists s i, parse_specifier as_uri (chosen (version_str (VStd (final [a; b])))) = Ok s /\ create_matching run_python resolve order s = Ok i /\ In i l /\
    forall n, p_version i = VStd (final n) -> nth 0 n 0%N = a /\ nth 1 n 0%N = b.
Proof.
  intros run_python resolve order l as_uri a b c r A I. split.
  - unfold choices. apply in_map_iff. exists (Interp r (VStd (final [a; b; c]))). split; [reflexivity|exact I].
  - exists (Range (Some (final [a; b; 0%N])) (Some (final [a; (b + 1)%N; 0%N])) true false).
    assert (Y : allows (Range (Some (final [a; b; 0%N])) (Some (final [a; (b + 1)%N; 0%N])) true false) (VStd (final [a; b; c])) = true).
    { cbn [allows]. unfold range_allows. destruct (version_eqb (VStd (final [a; b; 0%N])) (VStd (final [a; b; c]))) eqn:Q; [reflexivity|].
      cbn [version_eqb version_ltb] in *. cbn [orb].
      assert (U : sv_ltb (final [a; b; c]) (final [a; (b + 1)%N; 0%N]) = true). { apply sv_ltb_release; [reflexivity|]. exists 1. split; [cbn; lia|]. intros j J. assert (j = 0) by lia. subst. reflexivity. }
      assert (Z : c <> 0%N). { intros ->. assert (X : sv_eqb (final [a; b; 0%N]) (final [a; b; 0%N]) = true) by exact (version_eqb_refl (VStd (final [a; b; 0%N]))). congruence. }
      assert (L : sv_ltb (final [a; b; 0%N]) (final [a; b; c]) = true). { apply sv_ltb_release; [reflexivity|]. exists 2. split; [cbn; lia|]. intros [|[|j]] J; [reflexivity|reflexivity|lia]. }
      unfold final in *. cbn. cbn in L, U. rewrite ?L, ?U. cbn. rewrite ?orb_true_r. reflexivity. }
    destruct (proj2 (proj2 (C211_none run_python resolve order (Range (Some (final [a; b; 0%N])) (Some (final [a; (b + 1)%N; 0%N])) true false) l A))) as [i E]; [exists (Interp r (VStd (final [a; b; c]))); split; [exact I|exact Y]|].
    exists i. split; [apply C211_meaning|]. split; [exact E|].
    unfold create_matching, matching in E. rewrite A in E. cbn [bind] in E. set (m := filter _ l) in E. pose proof (sort_perm p_version m) as P. destruct (sorted_by_version p_version m) as [|x y]; [discriminate|]. assert (x = i) by congruence. subst x.
    assert (J : In i m) by (apply (Permutation_in _ P); left; reflexivity). apply filter_In in J as [J K]. split; [exact J|]. intros n V. rewrite V in K. apply (final_in_minor a b n K).
Qed.
Print Assumptions C211_same_minor_partial.

(** a machine with the given versions; the versions it offers, and the interpreter that is taken for one of them *)
Definition installed (vs : list str) (p : str) : outcome := if str_mem p vs then Printed (p ++ [newline] ++ lit "/opt/" ++ p ++ [newline]) else FailedRun.
Definition offers (vs : list str) : res (list str) := do l <- all_installed (installed vs) same vs; Ok (choices l).
Definition taken (vs : list str) (c : str) : res str := do s <- parse_specifier same (chosen c); do i <- create_matching (installed vs) same vs s; Ok (p_path i).
Example C211_sample : let vs := [lit "3.9.2"; lit "3.10.4"; lit "3.10.1"; lit "3.11.0"] in
  offers vs = Ok [lit "3.11"; lit "3.10"; lit "3.10"; lit "3.9"] /\ taken vs (lit "3.10") = Ok (lit "/opt/3.10.4") /\
  create_matching (installed vs) same vs (Range (Some (final [4%N])) None true false) = Err NoSuchElement.
Proof. vm_compute. repeat split. Qed.
(** a candidate of the next version is taken although a final version with the chosen numbers is there *)
Theorem C211_candidate_refuted : exists vs, offers vs = Ok [lit "3.11rc1"; lit "3.10"] /\ taken vs (lit "3.10") = Ok (lit "/opt/3.11.0rc1").
Proof. exists [lit "3.10.4"; lit "3.11.0rc1"]. vm_compute. split; reflexivity. Qed.
(** who chooses a candidate gets any later version; who chooses a version built with local changes too *)
Theorem C211_chosen_candidate_refuted : exists vs, offers vs = Ok [lit "3.14"; lit "3.13rc1"] /\ taken vs (lit "3.13rc1") = Ok (lit "/opt/3.14.2").
Proof. exists [lit "3.13.0rc1"; lit "3.14.2"]. vm_compute. split; reflexivity. Qed.
