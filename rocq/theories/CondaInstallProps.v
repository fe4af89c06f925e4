(** C250: conda packages are checked.  C251: their files are installed as signed.  C252: they are recorded.  C253: all that is installed
    is recorded.  C254: requested packages are marked.  C255: an installation that fails leaves nothing.  C256: hooks are run.
    C257: packages for all platforms can be imported.  C258: nothing else is touched. *)
From Coq Require Import String Ascii List Bool NArith Arith Lia.
From Verif Require Import Base BaseFacts ParserModel FsModel FsFacts FilesModel FilesProofs CopyTxModel CopyTxSpec CopyTxProofs ArtifactModel
  PthModel RecordFileModel RecordFileProofs InstallModel WheelModel WheelSpec WheelProofs WheelInstallProofs CondaInstallModel CondaInstallSpec CondaInstallProofs CondaRollbackProofs.
Import ListNotations.
Open Scope string_scope. Open Scope nat_scope. Open Scope list_scope. Open Scope bool_scope.

(** hashes as [hashlib] has them, in an alphabet without the sign that separates them from their kind *)
Definition printable_sha (h : hashlib) : Prop := forall g s, h (lit "sha256") = Some g -> ~ In "="%char (g s) /\ lstrip_ws (g s) = g s.
Lemma moved_other : forall w tmp pylib w' q, moved w tmp pylib = Ok w' -> (forall z : path, under (z ++ lit "lib" :: tmp) q = false) -> lookup w' q = lookup w q.
Proof.
  intros w tmp pylib w' q M U. unfold moved in M. destruct (relocated_dir w tmp pylib) as [n|]; [|injection M as <-; reflexivity]. unfold move in M.
  destruct (path_eqb _ _); [injection M as <-; reflexivity|]. pose proof (U [n]) as U1. pose proof (U [pylib]) as U2. pose proof (U [n; pylib]) as U3. cbn [app] in U1, U2, U3.
  destruct (lookup w (pylib :: lit "lib" :: tmp)) as [[s|]|].
  - destruct (is_dir w _); [discriminate|]. assert (X : forall a c : fs, Ok a = Ok c -> a = c) by (intros a c Z; injection Z; auto). apply X in M. rewrite <- M, lookup_graft, U2, lookup_remove, lookup_remove_tree, U1. destruct (path_eqb q _) eqn:E; [|reflexivity].
    apply path_eqb_eq in E. rewrite <- E, under_refl in U2. discriminate.
  - destruct (exists_at w _); [discriminate|]. assert (X : forall a c : fs, Ok a = Ok c -> a = c) by (intros a c Z; injection Z; auto). apply X in M. rewrite <- M, lookup_graft, U3, lookup_remove_tree, U1. reflexivity.
  - assert (X : forall a c : fs, Ok a = Ok c -> a = c) by (intros a c Z; injection Z; auto). apply X in M. rewrite <- M, lookup_graft, U2, lookup_remove_tree, U1. reflexivity.
Qed.
Section Conda.
Variables (h : hashlib) (hexdigest : str -> str) (read_paths : str -> res (list (str * str))) (read_index : str -> res bool) (run_script : str -> res unit) (order : list path -> list path).
Variables (w : fs) (tmp : path) (tg : target) (info_name wheel metadata : str) (request mode : option str) (b : nat) (f : fs).
Notation site := (t_purelib tg).
Notation data := (t_data tg).
Notation pylib := (name_of (tl (t_purelib tg))).
Notation info := (info_name :: t_purelib tg).
Notation install := (install_conda h hexdigest read_paths read_index run_script order w tmp tg info_name wheel metadata request mode b f).
(** paths.json has this path with this hash *)
Notation signed := (signs read_paths w tmp).

(** ** C250 *)
Theorem C250_refused : forall x sha, signed x sha -> ~ (exists s, lookup w (resolve_record tmp x) = Some (File s) /\ hexdigest s = sha) -> exists e, install = Refused e.
Proof.
  intros x sha (text & l & L & R & I) N. unfold install_conda, prepare, text_at. rewrite L.
  destruct (negb (is_dir w _)); [eauto|]. destruct (negb (exists_at w _)); [eauto|]. cbn [bind]. rewrite R. cbn [bind].
  destruct (verify_paths h hexdigest w tmp l []) as [sg|e] eqn:V; [|cbn [bind]; eauto]. exfalso. apply N. destruct (verify_spec _ _ _ _ _ _ _ V) as [A _]. exact (A x sha I).
Qed.
Theorem C250_unsigned : lookup w (lit "paths.json" :: lit "info" :: tmp) = None -> exists e, install = Refused e.
Proof.
  intro L. unfold install_conda, prepare, exists_at. rewrite L. destruct (negb (is_dir w _)); eexists; reflexivity.
Qed.

Section Done.
Variable f' : fs.
Hypothesis T : tidy_package w tmp pylib.
Hypothesis OS : forall l p, In p (order l) <-> In p l.
Hypothesis WF : wf_fs f.
Hypothesis IN : install = Installed f'.
Notation arrived := (arrives w tmp tg).
Lemma done_keeps : forall p r s, files_at w tmp tg p r s -> p <> lit "RECORD" :: info -> exists f1 f2 f3, frame (eq (lit "RECORD" :: info)) f1 f2 /\ frame (eq (lit "RECORD" :: info)) f2 f3 /\ f3 = f' /\ lookup f2 p = Some (File s) /\ lookup f' p = Some (File s).
Proof.
  intros p r s FA NR. destruct (conda_spec h hexdigest read_paths read_index run_script order w tmp tg info_name wheel metadata request mode T OS b f f' WF IN) as (f1 & f2 & f3 & new & text & g & U & F1 & _ & L1 & F2 & F2' & _ & F3 & _ & ND & F4 & _).
  pose proof (L1 _ _ _ FA) as L. assert (W1 : wf_fs f1) by (apply (fr_wf _ _ _ F1); exact WF). assert (W2 : wf_fs f2) by (apply (fr_wf _ _ _ F2); exact W1).
  assert (L2 : lookup f2 p = Some (File s)).
  { destruct (lookup f1 info) as [n|] eqn:LI; [rewrite F2' by discriminate; exact L|]. apply (fr_keep _ _ _ F2); [exact L|]. intros q Q. destruct (under q p) eqn:UQ; [|reflexivity]. exfalso.
    assert (X : lookup f1 info <> None); [|exact (X LI)]. apply (wf_under f1 info p W1); [|rewrite L; discriminate]. apply (under_trans _ q); [|exact UQ]. destruct Q as [->| ->]; apply under_cons. }
  assert (UR : under (lit "RECORD" :: info) p = false).
  { destruct (under (lit "RECORD" :: info) p) eqn:UQ; [|reflexivity]. exfalso. apply under_iff in UQ. destruct UQ as ([|c z] & E); [exact (NR E)|].
    apply ND. apply (wf_above f2 (c :: z) _ W2); [rewrite <- E, L2; discriminate|discriminate]. }
  assert (L3 : lookup f3 p = Some (File s)) by (apply (fr_keep _ _ _ F3); [exact L2|]; intros q <-; exact UR).
  exists f2, f3, f'. split; [exact F3|]. split; [exact F4|]. split; [reflexivity|]. split; [exact L3|]. apply (fr_keep _ _ _ F4); [exact L3|]. intros q <-. exact UR.
Qed.

(** ** C251 *)
Theorem C251_installed_partial : forall r, to_install w tmp r -> r <> [] -> Forall proper r ->
  exists p s x sha, home w tmp data pylib r p /\ packaged w tmp r s /\ signed x sha /\ resolve_record tmp x = rev r ++ tmp /\ hexdigest s = sha /\
    (p <> lit "RECORD" :: info -> lookup f' p = Some (File s)).
Proof.
  intros r I N P. destruct (conda_spec h hexdigest read_paths read_index run_script order w tmp tg info_name wheel metadata request mode T OS b f f' WF IN) as (f1 & f2 & f3 & new & text & g & U & F1 & A & _).
  destruct (A r I N P) as (p & s & x & sha & FA & L & SG & RX & HX). pose proof FA as (_ & _ & _ & PK & HM). exists p, s, x, sha. split; [exact HM|]. split; [exact PK|]. split; [exact SG|]. split; [exact RX|]. split; [exact HX|].
  intro NR. destruct (done_keeps p r s FA NR) as (_ & _ & _ & _ & _ & _ & _ & X). exact X.
Qed.

(** ** C252 *)
(** the RECORD has every file of the package, with its size and its hash *)
Theorem C252_recorded_partial : printable_sha h -> Forall proper (t_data tg) -> exists text l g,
  lookup f' (lit "RECORD" :: info) = Some (File text) /\ load_records text = Ok l /\
  (forall r p s, to_install w tmp r -> r <> [] -> Forall proper r -> packaged w tmp r s -> home w tmp data pylib r p -> p <> lit "RECORD" :: info ->
     exists n, resolve_record site n = p /\ h (lit "sha256") = Some g /\ In (Rec (Some n) (Some (Sig (lit "sha256") (g s))) (Some (N.of_nat (List.length s)))) l) /\
  (forall x, In x l -> exists n r p s, rec_file x = Some n /\ resolve_record site n = p /\ to_install w tmp r /\ packaged w tmp r s /\ home w tmp data pylib r p /\
     lookup f' p = Some (File s) /\ rec_hash x = Some (Sig (lit "sha256") (g s)) /\ rec_length x = Some (N.of_nat (List.length s))).
Proof.
  intros PH PD. destruct (conda_spec h hexdigest read_paths read_index run_script order w tmp tg info_name wheel metadata request mode T OS b f f' WF IN) as (f1 & f2 & f3 & new & text & g & U & F1 & A & L1 & F2 & F2' & _ & F3 & NR & ND & F4 & R & SV & S1 & S2).
  assert (PP : forall p r s, files_at w tmp tg p r s -> p <> [] /\ Forall proper p).
  { intros p r s (_ & N & P & _ & HM). inversion HM as [r0 n rest (E & NR0 & _) NL|r0 V]; subst.
    - split; [destruct (rev rest); discriminate|]. apply Forall_app. split; [apply Forall_rev; inversion P as [|? ? _ P1]; subst; inversion P1; subst; assumption|]. constructor; [exact (tp_pylib _ _ _ T)|]. inversion P; subst. constructor; assumption.
    - split; [intro Z; apply app_eq_nil in Z; destruct Z as [Z _]; apply (f_equal (@rev str)) in Z; rewrite rev_involutive in Z; exact (N Z)|]. apply Forall_app. split; [apply Forall_rev; exact P|exact PD]. }
  exists text, new, g. split; [exact R|]. split; [|split].
  - apply saved_loads; [exact SV|]. intros x X. destruct (S2 x X) as (p & r & s & y & _ & _ & _ & HG & ->). intros z Z. injection Z as <-. destruct (PH g s HG) as [A1 A2].
    split; [cbn; intuition discriminate|]. split; [exact A1|]. split; [reflexivity|exact A2].
  - intros r p s I N P PK HM NP. assert (FA : files_at w tmp tg p r s) by (split; [exact I|]; auto). pose proof (L1 _ _ _ FA) as L.
    assert (L3 : lookup f3 p = Some (File s)).
    { destruct (done_keeps p r s FA NP) as (g1 & g2 & g3 & G1 & G2 & _ & _ & LF). destruct (fr_files _ _ _ F4 p s LF) as [X|X]; [exact X|]. congruence. }
    destruct (S1 p r s FA L3) as (y & PT & HG & X). exists (join "/" y). split; [|split; [exact HG|exact X]]. destruct (PP _ _ _ FA) as [NE PR]. exact (recorded_name _ _ _ NE PR PT).
  - intros x X. destruct (S2 x X) as (p & r & s & y & FA & L3 & PT & HG & ->). exists (join "/" y), r, p, s. cbn [rec_file rec_hash rec_length]. destruct (PP _ _ _ FA) as [NE PR]. pose proof FA as (TI & _ & _ & PK & HM).
    split; [reflexivity|]. split; [exact (recorded_name _ _ _ NE PR PT)|]. split; [exact TI|]. split; [exact PK|]. split; [exact HM|]. split; [|split; reflexivity].
    destruct (done_keeps p r s FA) as (_ & _ & _ & _ & _ & _ & _ & LF); [|exact LF]. intro E. subst p. congruence.
Qed.

(** ** C258 *)
Theorem C258_untouched_partial : forall q n, lookup f q = Some n ->
  (forall p, arrived p \/ In p [lit "RECORD" :: info; lit "WHEEL" :: info; lit "METADATA" :: info] -> under p q = false) -> lookup f' q = Some n.
Proof.
  intros q n L H. destruct (conda_spec h hexdigest read_paths read_index run_script order w tmp tg info_name wheel metadata request mode T OS b f f' WF IN) as (f1 & f2 & f3 & new & text & g & U & F1 & A & L1 & F2 & F2' & _ & F3 & NR & ND & F4 & _).
  apply (fr_keep _ _ _ F4); [apply (fr_keep _ _ _ F3); [apply (fr_keep _ _ _ F2); [apply (fr_keep _ _ _ F1); [exact L|]|]|]|]; intros p P; apply H; [left; exact P|right|right|right].
  - destruct P as [->| ->]; cbn [In]; auto.
  - subst p. cbn [In]. auto.
  - subst p. cbn [In]. auto.
Qed.
Theorem C258_new_files_partial : forall q s, lookup f' q = Some (File s) -> lookup f q = Some (File s) \/ arrived q \/ q = lit "RECORD" :: info \/
  ((q = lit "WHEEL" :: info \/ q = lit "METADATA" :: info) /\ forall r p, to_install w tmp r -> Forall proper r -> r <> [] -> home w tmp data pylib r p -> under info p = false).
Proof.
  intros q s L. destruct (conda_spec h hexdigest read_paths read_index run_script order w tmp tg info_name wheel metadata request mode T OS b f f' WF IN) as (f1 & f2 & f3 & new & text & g & U & F1 & A & L1 & F2 & F2' & _ & F3 & NR & ND & F4 & _).
  destruct (fr_files _ _ _ F4 q s L) as [X|X]; [|auto]. destruct (fr_files _ _ _ F3 q s X) as [Y|Y]; [|auto].
  destruct (lookup f1 info) as [n|] eqn:LI.
  - rewrite F2' in Y by discriminate. destruct (fr_files _ _ _ F1 q s Y); auto.
  - destruct (fr_files _ _ _ F2 q s Y) as [Z|Z]; [destruct (fr_files _ _ _ F1 q s Z); auto|]. right. right. right. split; [exact Z|]. intros r p I P N HM.
    destruct (under info p) eqn:UI; [|reflexivity]. exfalso. destruct (A r I N P) as (p' & s' & x & sha & FA & LP & _). assert (E : p = p').
    { destruct FA as (_ & _ & _ & _ & HM'). inversion HM as [r1 n rest V NL|r1 V]; subst; inversion HM' as [r2 n' rest' V' NL'|r2 V']; subst; try reflexivity.
      - destruct V as (E & _), V' as (E' & _). rewrite E in E'. injection E' as _ <-. reflexivity.
      - exfalso. apply NL. exact (V' _ _ V).
      - exfalso. apply NL'. exact (V _ _ V'). }
    subst p'. assert (W1 : wf_fs f1) by (apply (fr_wf _ _ _ F1); exact WF). apply (wf_under f1 info p W1 UI); [congruence|exact LI].
Qed.

(** ** C253 *)
(** what the installation creates is recorded, when the package has its own dist-info directory *)
Theorem C253_own_partial : printable_sha h -> Forall proper (t_data tg) ->
  (exists r p, to_install w tmp r /\ Forall proper r /\ r <> [] /\ home w tmp data pylib r p /\ under info p = true) ->
  forall q s, lookup f' q = Some (File s) -> lookup f q <> Some (File s) -> q <> lit "RECORD" :: info -> listed f' info q.
Proof.
  intros PH PD (r & p & TI & P & N & HM & UI) q s L NL NR. destruct (C252_recorded_partial PH PD) as (text & l & g & LR & LD & A & _).
  destruct (C258_new_files_partial q s L) as [X|[(r' & s' & TI' & N' & P' & PK' & HM')|[X|(_ & X)]]]; [congruence| |congruence|].
  - destruct (A r' q s' TI' N' P' PK' HM' NR) as (n & RN & _ & I). exists text, l, (Rec (Some n) (Some (Sig (lit "sha256") (g s'))) (Some (N.of_nat (List.length s')))), n. auto.
  - rewrite (X r p TI P N HM) in UI. discriminate.
Qed.

(** ** C254 *)
(** whatever was asked for: nothing is written down about it *)
Theorem C254_never : lookup f (lit "REQUESTED" :: info) = None -> ~ arrived (lit "REQUESTED" :: info) -> forall s, lookup f' (lit "REQUESTED" :: info) <> Some (File s).
Proof.
  intros L NA s X. destruct (C258_new_files_partial _ s X) as [Y|[Y|[Y|([Y|Y] & _)]]]; [congruence|contradiction|discriminate Y|discriminate Y|discriminate Y].
Qed.
End Done.

(** ** C255 *)
(** after a failure whatever was there is there, except for the RECORD of the package; what is new are directories and generated files *)
Theorem C255_kept_partial : tidy_package w tmp pylib -> (forall l p, In p (order l) <-> In p l) ->
  (forall text, lookup w (lit "files" :: lit "info" :: tmp) = Some (File text) -> NoDup (filter (fun l => negb (str_eqb l "")) (split_lines text))) ->
  wf_fs f -> forall o, install = Broken o -> exists f1, o = Some f1 /\
    (forall q n, lookup f q = Some n -> q <> lit "RECORD" :: info -> lookup f1 q = Some n) /\
    (forall q s, lookup f1 q = Some (File s) -> lookup f q = Some (File s) \/ In q [lit "RECORD" :: info; lit "WHEEL" :: info; lit "METADATA" :: info]).
Proof.
  intros T OS ONCE WF o H. destruct (broken_spec h hexdigest read_paths read_index run_script order w tmp tg info_name wheel metadata request mode T OS ONCE b f o WF H) as (f1 & f2 & E & SF & C).
  exists f1. split; [exact E|]. split.
  - intros q n L N. rewrite (SF q). destruct (C q N) as [X|(X & _)]; congruence.
  - intros q s L. rewrite (SF q) in L. destruct (path_eqb q (lit "RECORD" :: info)) eqn:Q; [apply path_eqb_eq in Q; right; left; symmetry; exact Q|]. apply path_eqb_neq in Q.
    destruct (C q Q) as [X|(X & [Y|[Y|Y]])]; [left; congruence|congruence|right; right; left; symmetry; exact Y|right; right; right; left; symmetry; exact Y].
Qed.
(** ** C256 *)
(** with a build number that is a number, as it always is, no package with a hook can be installed *)
Theorem C256_never : forall name, In name [lit "pre-link"; lit "post-link"] -> (forall s, read_index s <> Ok true) -> proper pylib ->
  lookup w ((name ++ lit ".sh") :: lit "bin" :: lit "info" :: tmp) <> None -> forall f', install <> Installed f'.
Proof.
  intros name I NT PP L f' H. unfold install_conda in H. destruct (prepare _ _ _ _ _ _ _ _) as [[[[sg w'] lines] textual]|] eqn:PR; [|discriminate].
  destruct (conda_transaction _ _ _ _ _ _ _ _ _ _ _ _ _ _ _) as [b' t|t] eqn:C in H; [|discriminate]. unfold conda_transaction in C. destruct (under data site); [|discriminate].
  destruct (copy_lines _ _ _ _ _ _ _ _ _ _ _) as [o pre]. apply and_then_go in C. destruct C as (b1 & t1 & -> & C). destruct (finish_spec _ _ _ _ _ _ _ _ _ _ _ _ C) as (_ & _ & _ & _ & _ & _ & _ & _ & _ & _ & _ & _ & _ & _ & PO).
  unfold prepare in PR. destruct (negb (is_dir w _)); [discriminate|]. destruct (negb (exists_at w _)); [discriminate|].
  destruct (text_at w (lit "paths.json" :: lit "info" :: tmp)); [|discriminate]. cbn [bind] in PR. destruct (read_paths a); [|discriminate]. cbn [bind] in PR. destruct (verify_paths _ _ _ _ _ _); [|discriminate]. cbn [bind] in PR.
  destruct (text_at w (lit "index.json" :: lit "info" :: tmp)) as [it|]; [|discriminate]. cbn [bind] in PR. destruct (read_index it) as [tx|] eqn:RI; [|discriminate]. cbn [bind] in PR.
  destruct tx; [exfalso; exact (NT it RI)|]. destruct (hook run_script w tmp false (lit "pre-link")) as [u|] eqn:HK; [|discriminate]. cbn [bind] in PR. destruct (moved w tmp pylib) as [w1|] eqn:M; [|discriminate]. cbn [bind] in PR.
  destruct (text_at w1 (lit "files" :: lit "info" :: tmp)); [|discriminate]. cbn [bind] in PR. injection PR as <- <- <- <-.
  assert (K : forall x, hook run_script x tmp false name = Ok tt -> lookup x ((name ++ lit ".sh") :: lit "bin" :: lit "info" :: tmp) = None).
  { intros x X. unfold hook in X. destruct (lookup x _); [discriminate|reflexivity]. }
  destruct I as [<-|[<-|[]]]; [apply L, K; destruct u; exact HK|].
  (* the hook is not moved *)
  apply L. apply K in PO. rewrite (moved_other w tmp pylib w1 _ M) in PO; [exact PO|]. clear.
  intro z. apply under_false. intros y E. assert (S : skipn 2 ((lit "post-link" ++ lit ".sh") :: lit "bin" :: lit "info" :: tmp) = skipn 2 (y ++ z ++ lit "lib" :: tmp)) by (rewrite E; reflexivity).
  assert (LN : length (y ++ z) = 2) by (apply (f_equal (@length str)) in E; rewrite !app_length in E; cbn [length] in E; rewrite app_length; lia).
  rewrite app_assoc in S. rewrite <- LN in S at 2. assert (Q : forall u v : path, skipn (length u) (u ++ v) = v) by (clear; intros u v; induction u; [reflexivity|exact IHu]).
  rewrite Q in S. cbn [skipn] in S. assert (X : lit "info" = lit "lib") by congruence. discriminate X.
Qed.
End Conda.

(** ** Concrete packages *)
Definition at_ (s : string) : path := rev (path_parts (lit s)).
Lemma wf_checked : forall w : fs, lookup w [] = Some Dir -> forallb (fun e => is_dir w (tl (fst e))) w = true -> wf_fs w.
Proof.
  intros w R H. split; [exact R|]. intros c p L. destruct (lookup w (c :: p)) as [n|] eqn:E; [|congruence]. apply lookup_in in E. rewrite forallb_forall in H. apply H in E. apply is_dir_true, E.
Qed.
Lemma lib_checked : forall w tmp n, lib_has w tmp n -> In (n :: lit "lib" :: tmp) (map fst w).
Proof.
  intros w tmp n H. unfold lib_has in H. destruct (lookup w (n :: lit "lib" :: tmp)) as [x|] eqn:E; [|congruence]. apply lookup_in in E. apply in_map_iff. exists (n :: lit "lib" :: tmp, x). auto.
Qed.
Definition sha (k : str) : option (str -> str) := if str_eqb k "sha256" then Some (fun s => lit "h" ++ filter (fun c => negb (Ascii.eqb c "=")) s) else None.
Definition hex (s : str) : str := lit "x" ++ s.
Lemma sha_printable : printable_sha sha.
Proof.
  intros g s E. injection E as <-. split; [|reflexivity]. intros [X|X]; [discriminate X|]. apply filter_In in X. destruct X as [_ X]. discriminate X.
Qed.
Definition index_number (s : str) : res bool := Ok false.
Definition shell (s : str) : res unit := Ok tt.
Definition same (l : list path) : list path := nodup (list_eq_dec (list_eq_dec ascii_dec)) l.
Definition package (paths files : str) (more : fs) : fs :=
  [([], Dir); (at_ "tmp", Dir); (at_ "tmp/info", Dir); (at_ "tmp/info/paths.json", File paths); (at_ "tmp/info/index.json", File "i"); (at_ "tmp/info/files", File files)] ++ more.
Definition site_of (s : string) := Target (lit "py") [] [] [] (at_ s) (at_ s) [] (at_ "env") (at_ "env/bin").
Definition env : target := site_of "env/lib/python3.9/site-packages".
Definition env_info : path := at_ "env/lib/python3.9/site-packages/a-1.dist-info".
Definition empty_env : fs := [([], Dir); (at_ "env", Dir)].
(** a compiled module and a program, of a package for Python 3.8 *)
Definition module_and_program : fs := [(at_ "tmp/lib", Dir); (at_ "tmp/lib/python3.8", Dir); (at_ "tmp/lib/python3.8/site-packages", Dir);
  (at_ "tmp/lib/python3.8/site-packages/a.py", File "A"); (at_ "tmp/bin", Dir); (at_ "tmp/bin/x", File "X")].
Definition usual_files : str := lit "lib/python3.8/site-packages/a.py" ++ [lf] ++ lit "bin/x".
Definition usual : fs := package "p" usual_files module_and_program.
Definition usual_paths (s : str) : res (list (str * str)) := Ok [(lit "lib/python3.8/site-packages/a.py", lit "xA"); (lit "bin/x", lit "xX")].
Definition go (paths : str -> res (list (str * str))) (w : fs) (request : option str) (b : nat) (f : fs) : result :=
  install_conda sha hex paths index_number shell same w (at_ "tmp") env "a-1.dist-info" "W" "M" request None b f.
Definition usual_env : fs := match go usual_paths usual None 50 empty_env with Installed f => f | _ => [] end.
Lemma usual_installed : go usual_paths usual None 50 empty_env = Installed usual_env.
Proof. vm_compute. reflexivity. Qed.
Lemma usual_tidy : tidy_package usual (at_ "tmp") (lit "python3.9").
Proof.
  assert (K : forall n, python_name n -> lib_has usual (at_ "tmp") n -> n = lit "python3.8").
  { intros n _ H. apply lib_checked in H.
    assert (A : forallb (fun p => negb (path_eqb (tl p) (lit "lib" :: at_ "tmp")) || str_eqb (name_of p) "python3.8") (map fst usual) = true) by (vm_compute; reflexivity).
    rewrite forallb_forall in A. specialize (A _ H). cbn [tl name_of] in A. rewrite path_eqb_refl in A. cbn [negb orb] in A. apply str_eqb_eq in A. exact A. }
  constructor.
  - apply wf_checked; vm_compute; reflexivity.
  - apply proper_check. vm_compute. reflexivity.
  - assert (F : Forall proper [lit "python3.9"]) by (apply proper_check; vm_compute; reflexivity). inversion F. assumption.
  - intros n n' P P' L L'. rewrite (K n P L), (K n' P' L'). reflexivity.
  - intros n P L. right. intro X. vm_compute in X. congruence.
  - intros text l L I N. assert (E : text = usual_files) by (assert (E : lookup usual (lit "files" :: lit "info" :: at_ "tmp") = Some (File usual_files)) by reflexivity; congruence). subst text.
    assert (I' : In l [lit "lib/python3.8/site-packages/a.py"; lit "bin/x"]) by exact I. destruct I' as [<-|[<-|[]]].
    + exists [lit "lib"; lit "python3.8"; lit "site-packages"; lit "a.py"]. split; [discriminate|]. split; [apply proper_check|]; vm_compute; reflexivity.
    + exists [lit "bin"; lit "x"]. split; [discriminate|]. split; [apply proper_check|]; vm_compute; reflexivity.
Qed.
Lemma same_set : forall l p, In p (same l) <-> In p l.
Proof. intros. apply nodup_In. Qed.
Lemma empty_wf : wf_fs empty_env.
Proof. apply wf_checked; vm_compute; reflexivity. Qed.
Definition module_path : list str := [lit "lib"; lit "python3.8"; lit "site-packages"; lit "a.py"].
Lemma module_home : home usual (at_ "tmp") (t_data env) (lit "python3.9") module_path (at_ "env/lib/python3.9/site-packages/a.py").
Proof.
  refine (home_lib usual (at_ "tmp") (t_data env) (lit "python3.9") module_path (lit "python3.8") [lit "site-packages"; lit "a.py"] _ _); [|discriminate].
  split; [reflexivity|]. split; [discriminate|]. split; [exists (lit "3"), "8"%char, []; repeat split; [discriminate|repeat constructor]|vm_compute; discriminate].
Qed.
Lemma module_listed : to_install usual (at_ "tmp") module_path.
Proof. exists usual_files. split; [reflexivity|]. left. reflexivity. Qed.
Definition nodes (f : fs) (l : list path) : list (option node) := map (lookup f) l.
Ltac not_listed :=
  let L := fresh "L" in let LD := fresh "LD" in let I := fresh "I" in let RF := fresh "RF" in let RR := fresh "RR" in
  intros (? & ? & ? & ? & L & LD & I & RF & RR); vm_compute in L; injection L as <-; vm_compute in LD; injection LD as <-;
  cbn [In] in I; repeat (destruct I as [I|I]; [subst; injection RF as <-; vm_compute in RR; discriminate RR|]); exact I.

(** ** C250 *)
(** one byte of the program was changed after it was signed *)
Example C250_example : exists e, go (fun _ => Ok [(lit "bin/x", lit "xX")]) (package "p" "bin/x" [(at_ "tmp/bin", Dir); (at_ "tmp/bin/x", File "Y")]) None 50 empty_env = Refused e.
Proof.
  apply (C250_refused sha hex _ index_number shell same _ _ env _ _ _ None None 50 empty_env (lit "bin/x") (lit "xX")).
  - exists (lit "p"), [(lit "bin/x", lit "xX")]. split; [reflexivity|]. split; [reflexivity|]. left. reflexivity.
  - intros (s & L & H). vm_compute in L. injection L as <-. discriminate H.
Qed.
(** ** C251 *)
Example C251_example : to_install usual (at_ "tmp") module_path /\ Forall proper module_path /\ lookup usual_env (at_ "env/lib/python3.9/site-packages/a.py") = Some (File "A").
Proof. split; [exact module_listed|]. split; [apply proper_check; vm_compute; reflexivity|]. vm_compute. reflexivity. Qed.
(** a package with the same module for two versions of Python: nothing is installed of the first, and what is installed of the second
    is recorded with the hash of the first *)
Definition both_files : str := lit "lib/python3.9/a.py" ++ [lf] ++ lit "lib/python3.8/a.py".
Definition both : fs := package "p" both_files [(at_ "tmp/lib", Dir); (at_ "tmp/lib/python3.8", Dir); (at_ "tmp/lib/python3.8/a.py", File "A"); (at_ "tmp/lib/python3.9", Dir); (at_ "tmp/lib/python3.9/a.py", File "B")].
Definition both_paths (s : str) : res (list (str * str)) := Ok [(lit "lib/python3.8/a.py", lit "xA"); (lit "lib/python3.9/a.py", lit "xB")].
Theorem C251_two_versions_refuted : exists f', wf_fs both /\ go both_paths both None 50 empty_env = Installed f' /\
  lookup f' (at_ "env/lib/python3.9/a.py") = Some (File "B") /\
  (forall q s, lookup f' q = Some (File s) -> s <> lit "A") /\
  exists text, lookup f' (lit "RECORD" :: env_info) = Some (File text) /\ exists n size, load_records text = Ok [Rec (Some n) (Some (Sig (lit "sha256") (lit "hA"))) size] /\
    resolve_record (t_purelib env) n = at_ "env/lib/python3.9/a.py".
Proof.
  eexists. split; [apply wf_checked; vm_compute; reflexivity|]. split; [vm_compute; reflexivity|]. split; [vm_compute; reflexivity|]. split.
  - intros q s L E. apply lookup_in in L. subst s. cbn [In] in L. repeat (destruct L as [L|L]; [discriminate L|]). exact L.
  - eexists. split; [vm_compute; reflexivity|]. do 2 eexists. split; vm_compute; reflexivity.
Qed.
(** ** C252 *)
Example C252_example : exists text n, lookup usual_env (lit "RECORD" :: env_info) = Some (File text) /\ resolve_record (t_purelib env) n = at_ "env/bin/x" /\
  load_records text = Ok [Rec (Some (lit "a.py")) (Some (Sig "sha256" "hA")) (Some 1%N); Rec (Some n) (Some (Sig "sha256" "hX")) (Some 1%N)].
Proof. do 2 eexists. split; [vm_compute; reflexivity|]. split; [|vm_compute; reflexivity]. vm_compute. reflexivity. Qed.
(** ** C253 *)
Theorem C253_generated_refuted : wf_fs empty_env /\ go usual_paths usual None 50 empty_env = Installed usual_env /\
  forall n, n = lit "WHEEL" \/ n = lit "METADATA" -> lookup empty_env (n :: env_info) = None /\ (exists s, lookup usual_env (n :: env_info) = Some (File s)) /\ ~ listed usual_env env_info (n :: env_info).
Proof.
  split; [exact empty_wf|]. split; [exact usual_installed|]. intros n [->| ->]; (split; [vm_compute; reflexivity|]; split; [eexists; vm_compute; reflexivity|]); not_listed.
Qed.
(** a package with its own dist-info directory *)
Definition owned_files : str := lit "lib/python3.8/site-packages/a-1.dist-info/METADATA".
Definition owned : fs := package "p" owned_files [(at_ "tmp/lib", Dir); (at_ "tmp/lib/python3.8", Dir); (at_ "tmp/lib/python3.8/site-packages", Dir);
  (at_ "tmp/lib/python3.8/site-packages/a-1.dist-info", Dir); (at_ "tmp/lib/python3.8/site-packages/a-1.dist-info/METADATA", File "A")].
Example C253_example : tidy_package owned (at_ "tmp") (lit "python3.9") /\ (exists f', go (fun _ => Ok [(owned_files, lit "xA")]) owned None 50 empty_env = Installed f') /\
  exists r p, to_install owned (at_ "tmp") r /\ Forall proper r /\ r <> [] /\ home owned (at_ "tmp") (t_data env) (lit "python3.9") r p /\ under env_info p = true.
Proof.
  assert (K : forall n, python_name n -> lib_has owned (at_ "tmp") n -> n = lit "python3.8").
  { intros n _ H. apply lib_checked in H.
    assert (A : forallb (fun p => negb (path_eqb (tl p) (lit "lib" :: at_ "tmp")) || str_eqb (name_of p) "python3.8") (map fst owned) = true) by (vm_compute; reflexivity).
    rewrite forallb_forall in A. specialize (A _ H). cbn [tl name_of] in A. rewrite path_eqb_refl in A. cbn [negb orb] in A. apply str_eqb_eq in A. exact A. }
  set (r := [lit "lib"; lit "python3.8"; lit "site-packages"; lit "a-1.dist-info"; lit "METADATA"]). assert (PR : Forall proper r) by (apply proper_check; vm_compute; reflexivity).
  split; [|split; [eexists; vm_compute; reflexivity|]].
  - constructor.
    + apply wf_checked; vm_compute; reflexivity.
    + apply proper_check. vm_compute. reflexivity.
    + assert (F : Forall proper [lit "python3.9"]) by (apply proper_check; vm_compute; reflexivity). inversion F. assumption.
    + intros n n' P P' L L'. rewrite (K n P L), (K n' P' L'). reflexivity.
    + intros n P L. right. intro X. vm_compute in X. congruence.
    + intros text l L I N. assert (E : text = owned_files) by (assert (E : lookup owned (lit "files" :: lit "info" :: at_ "tmp") = Some (File owned_files)) by reflexivity; congruence). subst text.
      assert (I' : In l [owned_files]) by exact I. destruct I' as [<-|[]]. exists r. split; [discriminate|]. split; [exact PR|]. vm_compute. reflexivity.
  - exists r, (lit "METADATA" :: env_info). split; [exists owned_files; split; [reflexivity|left; reflexivity]|]. split; [exact PR|]. split; [discriminate|]. split; [|vm_compute; reflexivity].
    refine (home_lib owned (at_ "tmp") (t_data env) (lit "python3.9") r (lit "python3.8") (tl (tl r)) _ _); [|discriminate].
    split; [reflexivity|]. split; [discriminate|]. split; [exists (lit "3"), "8"%char, []; repeat split; [discriminate|repeat constructor]|vm_compute; discriminate].
Qed.
(** ** C254 *)
Theorem C254_refuted : exists f', go usual_paths usual (Some (lit "a")) 50 empty_env = Installed f' /\ lookup f' (lit "REQUESTED" :: env_info) = None.
Proof. eexists. split; vm_compute; reflexivity. Qed.
(** ** C255 *)
(** the disk is full when the record is written: the package is in the environment, without a record by which it could be removed *)
Example C255_example : exists b f', go usual_paths usual None b usual_env = Broken (Some f') /\ NoDup (filter (fun l => negb (str_eqb l "")) (split_lines usual_files)) /\
  lookup f' (at_ "env/bin/x") = Some (File "X").
Proof. exists 5. eexists. split; [vm_compute; reflexivity|]. split; [|vm_compute; reflexivity]. vm_compute. repeat (constructor; [cbn [In]; intuition discriminate|]). constructor. Qed.
Theorem C255_leftover_refuted : exists b f', go usual_paths usual None b empty_env = Broken (Some f') /\ wf_fs empty_env /\ lookup empty_env env_info = None /\
  lookup f' env_info = Some Dir /\ lookup f' (lit "METADATA" :: env_info) = Some (File "M") /\ lookup f' (lit "RECORD" :: env_info) = None.
Proof. exists 8. eexists. split; [vm_compute; reflexivity|]. split; [exact empty_wf|]. repeat split; vm_compute; reflexivity. Qed.
(** installing again: the files are as before, the record of them is lost *)
Theorem C255_record_refuted : exists b f', go usual_paths usual None b usual_env = Broken (Some f') /\ (exists text, lookup usual_env (lit "RECORD" :: env_info) = Some (File text)) /\
  lookup f' (lit "RECORD" :: env_info) = None /\ lookup f' (at_ "env/bin/x") = Some (File "X").
Proof. exists 7. eexists. split; [vm_compute; reflexivity|]. split; [eexists; vm_compute; reflexivity|]. split; vm_compute; reflexivity. Qed.
(** ** C256 *)
Theorem C256_refuted : forall name, In name [lit "pre-link"; lit "post-link"] -> forall b f f', go usual_paths (usual ++ [(at_ "tmp/info/bin", Dir); ((name ++ lit ".sh") :: at_ "tmp/info/bin", File "true")]) None b f <> Installed f'.
Proof.
  intros name I b f f'. apply (C256_never sha hex usual_paths index_number shell same _ (at_ "tmp") env _ _ _ None None b f name I).
  - intros s. discriminate.
  - assert (F : Forall proper [name_of (tl (t_purelib env))]) by (apply proper_check; vm_compute; reflexivity). inversion F. assumption.
  - destruct I as [<-|[<-|[]]]; vm_compute; discriminate.
Qed.
(** ** C257 *)
(** a package for every platform has its modules in site-packages; they are not installed where Python finds them *)
Theorem C257_refuted : exists f', go (fun _ => Ok [(lit "site-packages/a.py", lit "xA")]) (package "p" "site-packages/a.py" [(at_ "tmp/site-packages", Dir); (at_ "tmp/site-packages/a.py", File "A")]) None 50 empty_env = Installed f' /\
  lookup f' (at_ "env/site-packages/a.py") = Some (File "A") /\ lookup f' (at_ "env/lib/python3.9/site-packages/a.py") = None.
Proof. eexists. split; [vm_compute; reflexivity|]. split; vm_compute; reflexivity. Qed.
(** ** C258 *)
Example C258_example : lookup usual_env (at_ "env") = Some Dir /\ forall p, arrives usual (at_ "tmp") env p \/ In p [lit "RECORD" :: env_info; lit "WHEEL" :: env_info; lit "METADATA" :: env_info] -> under p (at_ "env") = false.
Proof.
  split; [vm_compute; reflexivity|]. intros p H. destruct (under p (at_ "env")) eqn:U; [|reflexivity]. exfalso. apply under_len in U. destruct H as [(r & s & _ & N & _ & _ & HM)|H].
  - inversion HM; subst; rewrite app_length in U; cbn in U; [lia|]. destruct r; [congruence|]. cbn in U. rewrite app_length in U. cbn in U. lia.
  - destruct H as [<-|[<-|[<-|[]]]]; vm_compute in U; lia.
Qed.
(** a listed path with [..] in it: a file next to the archive is copied to a place next to the environment *)
Definition outside : fs := [([], Dir); (at_ "t", Dir); (at_ "t/other", File "S"); (at_ "t/tmp", Dir); (at_ "t/tmp/info", Dir); (at_ "t/tmp/info/paths.json", File "p"); (at_ "t/tmp/info/index.json", File "i"); (at_ "t/tmp/info/files", File "../other")].
Theorem C258_outside_refuted : exists f', wf_fs outside /\
  install_conda sha hex (fun _ => Ok [(lit "../other", lit "xS")]) index_number shell same outside (at_ "t/tmp") env "a-1.dist-info" "W" "M" None None 50 (write empty_env (at_ "other") (File "mine")) = Installed f' /\
  under (t_data env) (at_ "other") = false /\ lookup f' (at_ "other") = Some (File "S").
Proof. eexists. split; [apply wf_checked; vm_compute; reflexivity|]. split; [vm_compute; reflexivity|]. split; vm_compute; reflexivity. Qed.
