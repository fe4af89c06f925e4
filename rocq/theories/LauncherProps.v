(** Properties of the executables made for scripts: C290, C291. *)
From Coq Require Import String Ascii List Bool NArith Arith Lia.
From Verif Require Import Base BaseFacts ParserModel ParserFacts LauncherModel LauncherProofs.
Import ListNotations.
Open Scope string_scope.
Open Scope nat_scope.
Open Scope list_scope.
Open Scope bool_scope.

(** ** C290: the executable suits the system of the environment *)
(** on every system a text with the interpreter in its first line is written, and no other file *)
Theorem C290_written : forall system machine bits shipped interpreter dir name script group f,
  exists f', generate_for_entrypoint shipped (platform_of system machine bits) interpreter dir name script group f = (f', Ok (dir ++ lit "/" ++ name)) /\
    dict_get (dir ++ lit "/" ++ name) f' = Some (lit "#!" ++ interpreter ++ ["010"%char] ++ script) /\
    (forall other, other <> dir ++ lit "/" ++ name -> dict_get other f' = dict_get other f).
Proof.
  intros. unfold generate_for_entrypoint, generate. rewrite never_windows. eexists. split; [reflexivity|]. split.
  - rewrite dict_get_set_same. reflexivity.
  - intros other Ho. apply dict_get_set_other. unfold under. congruence.
Qed.
(** so on Windows as well, where no executable is made for any entry point *)
Theorem C290_windows_refuted : forall machine bits shipped interpreter dir name script group f f' r,
  generate_for_entrypoint shipped (platform_of (lit "Windows") machine bits) interpreter dir name script group f = (f', r) ->
  dict_get (dir ++ lit "/" ++ name ++ lit ".exe") f' = dict_get (dir ++ lit "/" ++ name ++ lit ".exe") f.
Proof.
  intros * H. destruct (C290_written (lit "Windows") machine bits shipped interpreter dir name script group f) as (f2 & E & _ & Ho).
  rewrite E in H. injection H as <- _. apply Ho. intros X. do 2 apply app_inv_head in X. symmetry in X. revert X. apply longer_name. discriminate.
Qed.
(** a platform that is recognised as Windows gets no executable either: making one always fails, and leaves an incomplete file *)
Theorem C290_launcher_refuted : forall p shipped interpreter dir name script gui f, p_os p = lit "Windows" ->
  exists f' e, generate shipped p interpreter dir name script gui f = (f', Err e) /\
    (forall data, dict_get (launcher_name p gui) shipped = Some data ->
       dict_get (dir ++ lit "/" ++ name ++ lit ".exe") f' = Some (data ++ lit "#!" ++ interpreter ++ ["013"%char; "010"%char])).
Proof.
  intros * Hp. unfold generate, has_windows_os. rewrite Hp, str_eqb_refl. unfold windows_launcher.
  destruct (dict_get (launcher_name p gui) shipped) as [data|]; eexists; eexists; (split; [reflexivity|]).
  - intros d [= <-]. rewrite dict_get_set_same. reflexivity.
  - discriminate.
Qed.
(** for the ARM processors that are recognised, no program of the name exists *)
Theorem C290_arm_refuted : forall p gui, has_arm_cpu p = true -> ~ In (launcher_name p gui) shipped_names.
Proof.
  intros p gui H. unfold launcher_name. rewrite H. unfold shipped_names. cbn [In].
  intros X. repeat (destruct X as [X|X]; [destruct gui; discriminate|]). exact X.
Qed.
(** for other processors it does, and an entry point of the console gets the one for the console *)
Theorem C290_kind : forall p group, has_arm_cpu p = false -> p_bits p = 32%N \/ p_bits p = 64%N ->
  let gui := str_eqb group (lit "console_scripts") in
  In (launcher_name p gui) shipped_names /\
  (exists r, launcher_name p gui = lit (if gui then "t" else "w") ++ r).
Proof.
  intros p group H Hb gui. split; [|eexists; reflexivity]. unfold launcher_name. rewrite H. unfold shipped_names.
  destruct Hb as [-> | ->], gui; vm_compute; tauto.
Qed.
(** the processor of Windows on ARM is not recognised *)
Example C290_example :
  generate_for_entrypoint (map (fun n => (n, lit "MZ")) shipped_names) (platform_of (lit "Windows") (lit "AMD64") 64) (lit "C:\env\Scripts\python.exe") (lit "C:\env\Scripts")
    (lit "tool") (lit "import tool") (lit "console_scripts") []
    = ([(lit "C:\env\Scripts/tool", lit "#!C:\env\Scripts\python.exe" ++ ["010"%char] ++ lit "import tool")], Ok (lit "C:\env\Scripts/tool")) /\
  has_arm_cpu (platform_of (lit "Windows") (lit "ARM64") 64) = false /\
  (let p := {| p_os := lit "Windows"; p_bits := 64; p_machine := lit "amd64" |} in
   launcher_name p true = lit "t64.exe" /\ launcher_name p false = lit "w64.exe" /\
   snd (generate (map (fun n => (n, lit "MZ")) shipped_names) p (lit "i") (lit "d") (lit "tool") (lit "s") true []) = Err OtherErr) /\
  launcher_name (platform_of (lit "Windows") (lit "aarch64") 64) true = lit "t-arm64.exe".
Proof. vm_compute. repeat split. Qed.

(** ** C291: a script starts the interpreter of its environment *)
(** exactly when its path is one word, and is seen whole: a posix system looks at [buf] bytes *)
Theorem C291_exactly : forall buf interpreter script,
  started buf (lit "#!" ++ interpreter ++ ["010"%char] ++ script) = Some (interpreter, []) <->
  interpreter <> [] /\ (forall c, In c interpreter -> c <> " "%char /\ c <> "009"%char /\ c <> "000"%char /\ c <> "010"%char) /\
  length interpreter + 3 <= buf.
Proof.
  intros. split.
  - intros H. exact (started_word buf interpreter script interpreter [] H).
  - intros (Hn & Hp & Hl). pose proof (started_line buf interpreter [] script) as H. rewrite app_nil_r in H. apply H; [exact Hn|exact Hp|intros c []|reflexivity|cbn [length]; lia].
Qed.
(** for an environment under a path with a space something else is started, with the rest of the path as its argument *)
Theorem C291_space_refuted : forall buf a b script, a <> [] ->
  (forall c, In c a -> c <> " "%char /\ c <> "009"%char /\ c <> "000"%char /\ c <> "010"%char) -> ~ In "010"%char b -> length a + length b + 4 <= buf ->
  exists argument, started buf (lit "#!" ++ (a ++ lit " " ++ b) ++ ["010"%char] ++ script) = Some (a, argument).
Proof.
  intros * Ha Hp Hb Hl. eexists. apply (started_line buf a (lit " " ++ b) script); [exact Ha|exact Hp| | |].
  - intros c [<-|Hc]; [discriminate|]. intros ->. contradiction.
  - reflexivity.
  - cbn [length lit list_ascii_of_string app]. lia.
Qed.
(** a long path is not started at all *)
Theorem C291_long_refuted : forall buf interpreter script, buf < length interpreter + 3 ->
  (forall c, In c interpreter -> c <> " "%char /\ c <> "009"%char /\ c <> "000"%char /\ c <> "010"%char) ->
  started buf (lit "#!" ++ interpreter ++ ["010"%char] ++ script) = None.
Proof.
  intros buf i s Hl Hp. destruct (le_lt_dec 2 buf) as [Hb|Hb].
  2: { destruct buf as [|[|b]]; [reflexivity|reflexivity|lia]. }
  unfold started. change (lit "#!" ++ i ++ ["010"%char] ++ s) with (posix_script i s). rewrite seen_after by assumption.
  assert (Hf : firstn (buf - 2) (i ++ [lf] ++ s ++ repeat nul buf) = firstn (buf - 2) i).
  { rewrite firstn_app. replace (buf - 2 - length i) with 0 by lia. cbn [firstn]. apply app_nil_r. }
  rewrite Hf. set (w := firstn (buf - 2) i). assert (Hw : forall c, In c w -> plain_char c).
  { intros c Hc. apply Hp. rewrite <- (firstn_skipn (buf - 2) i). apply in_or_app. left. exact Hc. }
  clearbody w. pose proof (span_app (fun c => negb (Ascii.eqb c lf)) w [] (lines w (fun c Hc => proj2 (proj2 (proj2 (Hw c Hc))))) eq_refl) as E1.
  rewrite app_nil_r in E1. rewrite E1. destruct w as [|x y]; [reflexivity|].
  pose proof (no_blank_head (x :: y) [] ltac:(discriminate) Hw) as E2. rewrite app_nil_r in E2. rewrite E2. cbn [snd].
  pose proof (span_app (fun c => negb (ends_word c)) (x :: y) [] (words _ Hw) eq_refl) as E3. rewrite app_nil_r in E3. rewrite E3. reflexivity.
Qed.
(** the scripts that a wheel ships: the line is replaced, whatever followed the name *)
Theorem C291_wheel_scripts : forall buf interpreter more rest, interpreter <> [] ->
  (forall c, In c interpreter -> c <> " "%char /\ c <> "009"%char /\ c <> "000"%char /\ c <> "010"%char) -> length interpreter + 3 <= buf ->
  ~ In "010"%char more -> (forall m, more <> "w"%char :: m) ->
  started buf (patched ["010"%char] interpreter (lit "#!python" ++ more ++ "010"%char :: rest)) = Some (interpreter, []).
Proof.
  intros * Hn Hp Hl Hm Hw. assert (E : patched ["010"%char] interpreter (lit "#!python" ++ more ++ "010"%char :: rest) = lit "#!" ++ interpreter ++ ["010"%char] ++ rest).
  { unfold patched. rewrite app_assoc. rewrite first_line_of.
    2: { intros c Hc. apply in_app_or in Hc. destruct Hc as [Hc|Hc]; [|intros ->; contradiction]. cbn in Hc. intros ->. repeat (destruct Hc as [Hc|Hc]; [discriminate|]). exact Hc. }
    rewrite <- app_assoc. change (list_ascii_of_string "#!python") with (lit "#!python"). rewrite (starts_with_app (lit "#!python")).
    replace (starts_with "#!pythonw" (lit "#!python" ++ more ++ [lf])) with false.
    - rewrite <- !app_assoc. reflexivity.
    - destruct more as [|m0 m]; [reflexivity|]. cbn. destruct (Ascii.eqb "w" m0) eqn:Em; [|destruct m0 as [[] [] [] [] [] [] [] []]; first [reflexivity | discriminate]].
      apply Ascii.eqb_eq in Em. subst. exfalso. apply (Hw m). reflexivity. }
  rewrite E. apply C291_exactly. auto.
Qed.
(** of those for windows the name gets a letter more, after the extension if there is one *)
Theorem C291_window_scripts_refuted : forall linesep interpreter rest,
  patched linesep interpreter (lit "#!pythonw" ++ "010"%char :: rest) = lit "#!" ++ interpreter ++ lit "w" ++ linesep ++ rest.
Proof.
  intros. unfold patched. rewrite first_line_of.
  2: { intros c Hc ->. cbn in Hc. repeat (destruct Hc as [Hc|Hc]; [discriminate|]). exact Hc. }
  replace (starts_with "#!python" (lit "#!pythonw" ++ [lf])) with true by reflexivity.
  replace (starts_with "#!pythonw" (lit "#!pythonw" ++ [lf])) with true by reflexivity.
  rewrite <- !app_assoc. reflexivity.
Qed.
Example C291_example :
  started 256 (posix_script (lit "/home/me/.env/bin/python3") (lit "import tool")) = Some (lit "/home/me/.env/bin/python3", []) /\
  started 256 (posix_script (lit "/home/me/my env/bin/python3") (lit "import tool")) = Some (lit "/home/me/my", lit "env/bin/python3") /\
  started 128 (posix_script (lit "/" ++ repeat "d"%char 130) (lit "import tool")) = None /\
  patched ["013"%char; "010"%char] (lit "C:\env\python.exe") (lit "#!pythonw" ++ ["010"%char] ++ lit "import tool") =
    lit "#!C:\env\python.exew" ++ ["013"%char; "010"%char] ++ lit "import tool" /\
  started 256 (patched ["010"%char] (lit "/env/bin/python") (lit "#!python -u" ++ ["010"%char] ++ lit "import tool")) = Some (lit "/env/bin/python", []).
Proof. vm_compute. repeat split. Qed.
