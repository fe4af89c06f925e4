(** Properties of new environments and of what is known about interpreters (C295-C298). *)
From Coq Require Import String Ascii List Bool NArith ZArith Arith Lia.
From Verif Require Import Base BaseFacts VersionModel VersionParse VersionSpec VersionParserProofs SpecifierModel SpecParse ActivateModel VenvModel VenvProofs.
From Verif Require VersionProps.
Import ListNotations.
Open Scope string_scope. Open Scope nat_scope. Open Scope list_scope. Open Scope bool_scope.

(** ** C295 *)
(** the commands python, python3 and python3.10 of a new environment lead to the interpreter that it was made for, wherever pkm runs and
    however the two paths are written *)
Theorem C295_interpreter : forall cwd there py env interpreter w a b c, windows py = false -> info py = (a, b, c) ->
  create cwd there py env interpreter = Ok w ->
  forall name, In name [lit "python"; lit "python" ++ show_N a; lit "python" ++ show_N a ++ lit "." ++ show_N b] ->
  exists target, In (place cwd env ++ [lit "bin"; name], Link target) w
    /\ leads (place cwd env ++ [lit "bin"; name]) target = place cwd interpreter.
Proof.
  intros cwd there py env interpreter w a b c W I C name N. apply created in C; [|exact W]. destruct C as (_ & base & -> & _).
  exists (Path true (place cwd interpreter)). split; [|reflexivity]. apply in_or_app. right. rewrite I. cbn [map]. rewrite executable_0, executable_1, executable_2.
  destruct N as [<-|[<-|[<-|[]]]]; [left|right; left|right; right; left]; reflexivity.
Qed.
(** the configuration names the directory of that interpreter and its version *)
Theorem C295_settings : forall cwd there py env interpreter w a b c, windows py = false -> info py = (a, b, c) ->
  create cwd there py env interpreter = Ok w ->
  exists home, In (place cwd env ++ [lit "pyvenv.cfg"], Settings home (show_N a ++ lit "." ++ show_N b ++ lit "." ++ show_N c)) w
    /\ absolute home = true /\ parts home = removelast (place cwd interpreter).
Proof.
  intros cwd there py env interpreter w a b c W I C. apply created in C; [|exact W]. destruct C as (_ & base & -> & _ & _ & S & _).
  eexists. split; [apply in_or_app; left; rewrite I in S; exact S|]. split; reflexivity.
Qed.
(** nothing is put outside of the environment, and nothing at all where something exists *)
Theorem C295_inside : forall cwd there py env interpreter w, windows py = false -> create cwd there py env interpreter = Ok w ->
  there (place cwd env) = false /\ forall e, In e w -> exists l, fst e = place cwd env ++ l.
Proof.
  intros cwd there py env interpreter w W C. apply created in C; [|exact W]. destruct C as (T & base & -> & B & _). split; [exact T|].
  intros e E. apply in_app_or in E. destruct E as [E|E].
  - apply (in_map fst) in E. rewrite B in E. apply in_map_iff in E. destruct E as (l & L & _). eauto.
  - apply in_map_iff in E. destruct E as (i & <- & _). cbn [fst]. eauto.
Qed.
Theorem C295_refused : forall cwd there py env interpreter, there (place cwd env) = true -> create cwd there py env interpreter = Err IOErr.
Proof. intros cwd there py env interpreter T. unfold create. rewrite T. reflexivity. Qed.
(** lib64 is lib, if the path of the environment is absolute *)
Theorem C295_lib64_partial : forall cwd there py env interpreter w,
  windows py = false -> bits32 py = false -> posix py = true -> darwin py = false -> absolute env = true ->
  create cwd there py env interpreter = Ok w ->
  exists target, In (place cwd env ++ [lit "lib64"], Link target) w /\ leads (place cwd env ++ [lit "lib64"]) target = place cwd env ++ [lit "lib"]
    /\ In (place cwd env ++ [lit "lib"], Directory) w.
Proof.
  intros cwd there py env interpreter w W B32 P Dw A C. apply created in C; [|exact W]. destruct C as (_ & base & -> & _ & L & _ & X).
  exists (sub env [lit "lib"]). split; [apply in_or_app; left; apply X; assumption|]. split; [|apply in_or_app; left; exact L].
  unfold leads, sub, place. cbn [absolute parts]. rewrite A. reflexivity.
Qed.
(** lib64 of an environment that was made at a relative path leads nowhere *)
Theorem C295_lib64_refuted : forall cwd there py env interpreter w,
  windows py = false -> bits32 py = false -> posix py = true -> darwin py = false -> absolute env = false -> parts env <> [] ->
  create cwd there py env interpreter = Ok w ->
  exists target, In (place cwd env ++ [lit "lib64"], Link target) w
    /\ forall e, In e w -> fst e <> leads (place cwd env ++ [lit "lib64"]) target.
Proof.
  intros cwd there py env interpreter w W B32 P Dw A NE C. apply created in C; [|exact W]. destruct C as (_ & base & -> & B & _ & _ & X).
  exists (sub env [lit "lib"]). split; [apply in_or_app; left; apply X; assumption|].
  assert (L : leads (place cwd env ++ [lit "lib64"]) (sub env [lit "lib"]) = place cwd env ++ (parts env ++ [lit "lib"])).
  { unfold leads, sub. cbn [absolute parts]. rewrite A. change (removelast (place cwd env ++ [lit "lib64"])) with (removelast (place cwd env ++ [lit "lib64"])).
    rewrite removelast_app by discriminate. cbn [removelast]. rewrite app_nil_r. reflexivity. }
  rewrite L. intros e E H.
  assert (Z : forall l, place cwd env ++ l = place cwd env ++ (parts env ++ [lit "lib"]) -> 2 <= length l /\ last l [] = lit "lib").
  { intros l Q. apply app_inv_head in Q. subst l. rewrite last_last, app_length. cbn [length]. split; [|reflexivity].
    destruct (parts env); [elim NE; reflexivity|cbn [length]; lia]. }
  apply in_app_or in E. destruct E as [E|E].
  - apply (in_map fst) in E. rewrite B in E. apply in_map_iff in E. destruct E as (l & Q & J). rewrite H in Q. apply Z in Q. destruct Q as [Q1 Q2].
    unfold before in J. destruct (negb (bits32 py) && posix py && negb (darwin py)); cbn [app] in J;
      repeat (destruct J as [J|J]; [subst l; cbn [length] in Q1; try lia; cbn [last] in Q2; discriminate Q2|]); exact J.
  - apply in_map_iff in E. destruct E as (i & <- & _). cbn [fst] in H. apply Z in H. destruct H as [_ H]. cbn [last] in H. unfold executable in H. discriminate H.
Qed.

(** on windows the programs of the interpreter are copied, those that there are *)
Theorem C295_windows : forall cwd there py env interpreter w f, windows py = true -> create cwd there py env interpreter = Ok w ->
  In f [lit "python.exe"; lit "python_d.exe"; lit "pythonw.exe"; lit "pythonw_d.exe"] ->
  let source := removelast (place cwd interpreter) ++ [f] in
  (there source = true -> In (place cwd env ++ [lit "Scripts"; f], Copy (Path true source)) w)
  /\ (there source = false -> forall t, ~ In (place cwd env ++ [lit "Scripts"; f], t) w).
Proof.
  intros cwd there py env interpreter w f W C F source. unfold create in C. rewrite W in C. destruct (there (place cwd env)) eqn:T; [discriminate C|].
  apply Ok_inj in C. subst w. cbv beta iota zeta. split.
  - intro S. apply in_or_app. right. apply in_flat_map. exists f. split; [exact F|]. change (place cwd (sub (parent (Path true (place cwd interpreter))) [f])) with source.
    rewrite S. left. rewrite place_sub. reflexivity.
  - intros S t I. apply in_app_or in I. destruct I as [I|I].
    + destruct (negb (bits32 py) && posix py && negb (darwin py)); cbn [length seq map firstn app] in I; rewrite ?place_sub in I;
        repeat (destruct I as [I|I]; [apply (f_equal fst) in I; cbn [fst] in I; first [apply app_inv_head in I; discriminate I | apply (f_equal (@length str)) in I; rewrite app_length in I; cbn [length] in I; lia]|]); destruct I.
    + apply in_flat_map in I. destruct I as (g & G & I). change (place cwd (sub (parent (Path true (place cwd interpreter))) [g])) with (removelast (place cwd interpreter) ++ [g]) in I.
      destruct (there (removelast (place cwd interpreter) ++ [g])) eqn:E; [|destruct I]. destruct I as [I|[]]. apply (f_equal fst) in I. cbn [fst] in I.
      rewrite place_sub in I. apply app_inv_head in I. apply (f_equal (fun l => nth 1 l [])) in I. cbn [nth app] in I. subst g. unfold source in S. rewrite S in E. discriminate E.
Qed.

(** ** C296 *)
(** whatever the hashes of the processes are, what is known is what the interpreter says, as long as neither it nor its path changes *)
Theorem C296_true_partial : forall D (run : str -> res D) (p : str) (l : list ((str -> Z) * str)) (f : file D) r f',
  (f = Missing \/ f = Garbage) -> Forall (fun u => snd u = p) l -> uses run f l = Ok (r, f') ->
  length r = length l /\ Forall (fun x => run p = Ok (fst x)) r.
Proof.
  intros D run p l f r f' F A.
  assert (G : forall s d, f = Saved s d -> run p = Ok d) by (intros s d ->; destruct F; discriminate).
  assert (ND : f <> NotADictionary) by (destruct F as [-> | ->]; discriminate). clear F.
  revert f r f' G ND. induction A as [|[h q] l Q A IH]; intros f r f' G ND U.
  - injection U as <- <-. split; [reflexivity|constructor].
  - cbn [snd] in Q. subst q. cbn [uses] in U. destruct (load_or_compute h run f p) as [[[d f1] ran]|e] eqn:L; [|discriminate U]. cbn [bind] in U.
    assert (R : run p = Ok d /\ forall s d', f1 = Saved s d' -> run p = Ok d').
    { unfold load_or_compute in L. destruct f as [| | |[s|] d0]; try (elim ND; reflexivity).
      1, 2, 4: destruct (run p) as [d1|e1]; [|discriminate L]; injection L as <- <- <-; split; [reflexivity|intros s' d' H; injection H as _ <-; reflexivity].
      destruct (negb (s =? 0)%Z && (s =? h p)%Z).
      - injection L as <- <- <-. split; [exact (G _ _ eq_refl)|exact G].
      - destruct (run p) as [d1|e1]; [|discriminate L]; injection L as <- <- <-; split; [reflexivity|intros s' d' H; injection H as _ <-; reflexivity]. }
    assert (N1 : f1 <> NotADictionary).
    { unfold load_or_compute in L. destruct f as [| | |[s|] d0]; try (elim ND; reflexivity).
      1, 2, 4: destruct (run p) as [d1|e1]; [|discriminate L]; injection L as _ <- _; discriminate.
      destruct (negb (s =? 0)%Z && (s =? h p)%Z); [injection L as _ <- _; discriminate|].
      destruct (run p) as [d1|e1]; [|discriminate L]; injection L as _ <- _; discriminate. }
    destruct (uses run f1 l) as [[r1 f2]|e] eqn:U1; [|discriminate U]. cbn [bind fst snd] in U. injection U as <- <-.
    destruct (IH f1 r1 f2 (proj2 R) N1 U1) as [IH1 IH2]. split; [cbn [length]; rewrite IH1; reflexivity|constructor; [exact (proj1 R)|exact IH2]].
Qed.
(** what was saved for another interpreter (another hash) is not used *)
Theorem C296_moved : forall D (hash : str -> Z) (run : str -> res D) (p : str) s d d',
  hash p <> s -> run p = Ok d' -> load_or_compute hash run (Saved (Some s) d) p = Ok (d', Saved (Some (hash p)) d', true).
Proof.
  intros D hash run p s d d' N R. unfold load_or_compute. replace (s =? hash p)%Z with false by (symmetry; apply Z.eqb_neq; congruence).
  rewrite andb_false_r, R. reflexivity.
Qed.
(** one process runs the interpreter once *)
Theorem C296_once_partial : forall D (hash : str -> Z) (run : str -> res D) (p : str) d n, hash p <> 0%Z -> run p = Ok d ->
  uses run Missing (repeat (hash, p) (Datatypes.S n)) = Ok ((d, true) :: repeat (d, false) n, Saved (Some (hash p)) d).
Proof.
  intros D hash run p d n N R.
  assert (K : forall n, uses run (Saved (Some (hash p)) d) (repeat (hash, p) n) = Ok (repeat (d, false) n, Saved (Some (hash p)) d)).
  { clear n. induction n as [|n IH]; [reflexivity|]. cbn [repeat uses]. unfold load_or_compute. rewrite Z.eqb_refl.
    replace (hash p =? 0)%Z with false by (symmetry; apply Z.eqb_neq; exact N). cbn [negb andb bind]. rewrite IH. reflexivity. }
  cbn [repeat uses]. unfold load_or_compute at 1. rewrite R. cbn [bind]. rewrite K. reflexivity.
Qed.
(** but every further process runs it again, because its hashes differ, and each overwrites what the other has saved *)
Theorem C296_processes_refuted : forall D (h1 h2 : str -> Z) (run : str -> res D) (p : str) d, h1 p <> h2 p -> run p = Ok d ->
  uses run Missing [(h1, p); (h2, p); (h1, p); (h2, p)] = Ok ([(d, true); (d, true); (d, true); (d, true)], Saved (Some (h2 p)) d).
Proof.
  intros D h1 h2 run p d N R.
  cbn [uses]. unfold load_or_compute at 1. rewrite R. cbn [bind].
  rewrite (C296_moved D h2 run p _ d d (fun H => N (eq_sym H)) R). cbn [bind].
  rewrite (C296_moved D h1 run p _ d d N R). cbn [bind].
  rewrite (C296_moved D h2 run p _ d d (fun H => N (eq_sym H)) R). reflexivity.
Qed.
(** a process does not notice that the interpreter was replaced *)
Theorem C296_replaced_refuted : forall D (hash : str -> Z) (old new : str -> res D) (p : str) d d', hash p <> 0%Z -> old p = Ok d -> new p = Ok d' -> d <> d' ->
  exists f, (exists r, uses old Missing [(hash, p)] = Ok (r, f)) /\ uses new f [(hash, p)] = Ok ([(d, false)], f).
Proof.
  intros D hash old new p d d' N O W Q. exists (Saved (Some (hash p)) d). split.
  - exists [(d, true)]. cbn [uses]. unfold load_or_compute. rewrite O. reflexivity.
  - cbn [uses]. unfold load_or_compute. rewrite Z.eqb_refl. replace (hash p =? 0)%Z with false by (symmetry; apply Z.eqb_neq; exact N). reflexivity.
Qed.
(** a broken file is written again, but not one with JSON that is no dictionary *)
Theorem C296_broken : forall D (hash : str -> Z) (run : str -> res D) (p : str) d, run p = Ok d ->
  load_or_compute hash run Garbage p = Ok (d, Saved (Some (hash p)) d, true).
Proof. intros D hash run p d R. unfold load_or_compute. rewrite R. reflexivity. Qed.
Theorem C296_dictionary_refuted : forall D (hash : str -> Z) (run : str -> res D) (p : str), introspection true hash run NotADictionary p = Err AttributeError.
Proof. reflexivity. Qed.

(** ** C297 *)
(** the marker implementation_version is read back as the version of the interpreter, with the pre-release *)
Theorem C297_marker : forall a b c l k (norm : str), In (l, norm) [(lit "alpha", lit "a"); (lit "beta", lit "b"); (lit "candidate", lit "rc")] ->
  parse_version (implementation_version (Some (Info (a, b, c) l k))) = Ok (VStd (SV [a; b; c] None (Some (norm, k)) None None None)).
Proof.
  intros a b c l k norm I.
  assert (Low : forall s, forallb (fun x => is_digit x || Ascii.eqb x ".") s = true -> lower s = s).
  { induction s as [|x s IH]; [reflexivity|]. cbn [forallb]. intro H. apply andb_prop in H. destruct H as [H1 H2]. unfold lower in *. cbn [map].
    rewrite (IH H2). f_equal. clear -H1. destruct x as [[] [] [] [] [] [] [] []]; vm_compute in H1; try discriminate H1; reflexivity. }
  assert (Dg : forall n, forallb (fun x => is_digit x || Ascii.eqb x ".") (show_N n) = true).
  { intro n. assert (D := show_N_digits n). rewrite forallb_forall in *. intros x X. rewrite (D x X). reflexivity. }
  assert (E : exists tag, In (tag, norm) [(lit "a", lit "a"); (lit "b", lit "b"); (lit "rc", lit "rc"); (lit "c", lit "rc")] /\
    implementation_version (Some (Info (a, b, c) l k)) = join (lit ".") (map show_N [a; b; c]) ++ tag ++ show_N k /\ lower tag = tag).
  { destruct I as [I|[I|[I|[]]]]; injection I as <- <-; [exists (lit "a")|exists (lit "b")|exists (lit "c")]; (split; [|split; reflexivity]);
      [left|right; left|right; right; right; left]; reflexivity. }
  destruct E as (tag & T & -> & LT).
  apply (VersionProps.C05_pre_spelling_partial _ [] a [b; c] [] tag norm [] k); [left; reflexivity|left; reflexivity|left; reflexivity|exact T|].
  cbn [app]. unfold lower in *. rewrite !map_app, LT. f_equal; [|f_equal; apply Low, Dg].
  apply Low. cbn [map join]. rewrite !forallb_app, !Dg. reflexivity.
Qed.
(** a final interpreter has one version: the marker and the version that requires-python is held against are the same *)
Theorem C297_final_partial : forall a b c k, parse_version (implementation_version (Some (Info (a, b, c) (lit "final") k))) = Ok (interpreter_version (Info (a, b, c) (lit "final") k)).
Proof.
  intros a b c k. assert (E : implementation_version (Some (Info (a, b, c) (lit "final") k)) = sv_str (SV [a; b; c] None None None None None)).
  { unfold implementation_version, sv_str. cbn [numbers version_of level]. rewrite str_eqb_refl. rewrite !app_nil_r. reflexivity. }
  rewrite E. apply VersionProps.C04_roundtrip; [split; [discriminate|intros t n H; discriminate H]|intros x H; discriminate H].
Qed.
(** a candidate of python 3.11 counts as python 3.11 for requires-python, and as older than it for the marker *)
Theorem C297_candidate_refuted : forall k as_uri, exists spec marker, parse_specifier as_uri (lit ">=3.11") = Ok spec
  /\ parse_version (implementation_version (Some (Info (3, 11, 0)%N (lit "candidate") k))) = Ok marker
  /\ allows spec (interpreter_version (Info (3, 11, 0)%N (lit "candidate") k)) = true /\ allows spec marker = false.
Proof.
  intros k as_uri. eexists. exists (VStd (SV [3; 11; 0]%N None (Some (lit "rc", k)) None None None)). split; [vm_compute; reflexivity|].
  split; [apply (C297_marker 3 11 0 (lit "candidate") k (lit "rc")); right; right; left; reflexivity|]. split; reflexivity.
Qed.

(** ** C298 *)
(** a process that runs in an environment finds its programs first, and is told the environment; nothing of pkm's own environment changes *)
Theorem C298_process : forall scripts home started own given, exists child,
  run_proc scripts home started own given = (own, given, started child)
  /\ dict_get VENV child = Some home
  /\ (exists rest, dict_get PATH child = Some (scripts ++ rest) /\ (rest = [] \/ exists old, rest = pathsep ++ old))
  /\ forall k, k <> PATH -> k <> VENV -> (given = None -> dict_get k child = dict_get k own)
       /\ (forall g, given = Some g -> g <> [] -> dict_get k child = dict_get k g).
Proof.
  intros scripts home started own given. set (copy := match given with Some (x :: l) => x :: l | _ => own end).
  exists (dict_set VENV home (dict_set PATH (extended scripts (dict_get PATH copy)) copy)). split; [|split; [|split]].
  - unfold run_proc. fold copy. rewrite (surjective_pairing (activate scripts home (fun e => (e, started e)) copy)).
    rewrite activate_same. reflexivity.
  - apply dict_get_set_same.
  - rewrite dict_get_set_other by (intro H; discriminate H). rewrite dict_get_set_same. destruct (dict_get PATH copy) as [[|c r]|].
    + exists []. rewrite app_nil_r. auto.
    + exists (pathsep ++ (c :: r)). split; [reflexivity|right; eauto].
    + exists []. rewrite app_nil_r. auto.
  - intros k N1 N2. rewrite !dict_get_set_other by congruence. split.
    + intros ->. reflexivity.
    + intros g -> NE. destruct g; [elim NE; reflexivity|reflexivity].
Qed.
(** exec_proc without the optional argument fails, for every command *)
Theorem C298_exec_refuted : forall scripts home replaced own, exec_proc scripts home replaced own None = (own, None, Some AttributeError).
Proof. reflexivity. Qed.
(** with a dictionary it gives the same environment to the program, and the dictionary is as before if the program cannot be started *)
Theorem C298_exec_partial : forall scripts home replaced own g x l, g = x :: l -> NoDup (map fst g) -> exists child g',
  run_proc scripts home replaced own (Some g) = (own, Some g, replaced child)
  /\ exec_proc scripts home replaced own (Some g) = (own, Some g', replaced child)
  /\ forall k, dict_get k g' = dict_get k g.
Proof.
  intros scripts home replaced own g x l G ND.
  exists (dict_set VENV home (dict_set PATH (extended scripts (dict_get PATH g)) g)), (fst (activate scripts home (fun e => (e, replaced e)) g)). split; [|split].
  - unfold run_proc. subst g. rewrite (surjective_pairing (activate scripts home (fun e => (e, replaced e)) (x :: l))), activate_same. reflexivity.
  - unfold exec_proc. rewrite (surjective_pairing (activate scripts home (fun e => (e, replaced e)) g)), activate_same. reflexivity.
  - intro k. apply activate_back. exact ND.
Qed.

Example C295_example : let py := Python false false true false (3, 10, 4)%N in let there (l : list str) := same_place l [lit "home"; lit "old"] in
  let interpreter := Path true [lit "usr"; lit "bin"; lit "python3"] in
  (exists w, create [lit "home"] there py (Path true [lit "srv"; lit "e"]) interpreter = Ok w /\ length w = 11
    /\ In ([lit "srv"; lit "e"; lit "bin"; lit "python3.10"], Link interpreter) w)
  /\ (exists w, create [lit "home"] there py (Path false [lit "e"]) interpreter = Ok w
    /\ In ([lit "home"; lit "e"; lit "lib64"], Link (Path false [lit "e"; lit "lib"])) w)
  /\ create [lit "home"] there py (Path false [lit "old"]) interpreter = Err IOErr.
Proof.
  cbv zeta. split; [|split].
  - eexists. split; [reflexivity|]. split; [reflexivity|]. repeat ((left; reflexivity) || right).
  - eexists. split; [reflexivity|]. repeat ((left; reflexivity) || right).
  - reflexivity.
Qed.
Example C296_example : let run (p : str) := Ok (lit "about " ++ p) in
  uses run Missing [((fun _ => 7%Z), lit "/e/bin/python"); ((fun _ => 7%Z), lit "/e/bin/python"); ((fun _ => 9%Z), lit "/e/bin/python")]
    = Ok ([(lit "about /e/bin/python", true); (lit "about /e/bin/python", false); (lit "about /e/bin/python", true)], Saved (Some 9%Z) (lit "about /e/bin/python")).
Proof. reflexivity. Qed.
Example C297_example : implementation_version (Some (Info (3, 11, 0)%N (lit "candidate") 2%N)) = lit "3.11.0c2" /\ implementation_version None = lit "0"
  /\ implementation_version (Some (Info (3, 10, 4)%N (lit "final") 0%N)) = lit "3.10.4".
Proof. repeat split. Qed.
Example C298_example : let started (e : env) := if str_eqb (match dict_get PATH e with Some p => p | None => [] end) (lit "/e/bin:/usr/bin") then None else Some IOErr in
  snd (run_proc (lit "/e/bin") (lit "/e") started [(PATH, lit "/usr/bin")] None) = None
  /\ snd (run_proc (lit "/e/bin") (lit "/e") started [(PATH, lit "/usr/bin")] (Some [])) = None
  /\ snd (run_proc (lit "/e/bin") (lit "/e") started [(PATH, lit "/usr/bin")] (Some [(lit "A", lit "1")])) = Some IOErr.
Proof. repeat split. Qed.
