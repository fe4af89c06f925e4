(** C259: files of sections.  C260: values that cannot be written.  C261: the entry points of a package.  C262: the entry points of an
    environment.  C263: what is defined twice. *)
From Coq Require Import String Ascii List Bool NArith Arith.
From Verif Require Import Base BaseFacts ParserModel PthModel PthProofs RecordFileModel ProjectModel ProjectProofs IniModel IniProofs IniEntryProofs.
Import ListNotations.
Open Scope string_scope.
Open Scope nat_scope.
Open Scope list_scope.
Open Scope bool_scope.

(** ** C259 *)
(** a dictionary whose names and values are not touched by the rules of the format ([normal]: no blanks at the ends of lines, no
    comments, no percent signs, names without = and :, and no name outside of the sections that a section has not) is read as it
    was written *)
Theorem C259_round_trip_partial : forall d, normal d ->
  exists t d', ini_write d = Ok t /\ ini_read t = Ok d' /\ NoDup (map fst d') /\ forall k, dict_get k d' = dict_get k d.
Proof.
  intros d N. destruct (round_trip d N) as (t & W & R). exists t, (rearranged d). split; [exact W|]. split; [exact R|]. split.
  - rewrite rearranged_keys. apply parts_nodup. exact (n_keys d N).
  - intro k. apply rearranged_get. exact (n_keys d N).
Qed.
Definition sample : data := [(lit "console_scripts", Section_ [(lit "run", lit "pkg.cli:main"); (lit "[x", lit "pkg:other")]);
  (lit "notes", Section_ [(lit "first", lit "one" ++ [LF] ++ lit "two" ++ [LF; LF] ++ lit "four"); (lit "empty", [])]); (lit "nothing", Section_ [])].
Ltac absent := (apply no_sign || apply no_name); vm_compute; reflexivity.
Example C259_example : normal sample.
Proof.
  constructor.
  - cbn [sample map fst]. constructor; [absent|]. constructor; [absent|]. constructor; [absent|]. constructor.
  - constructor.
  - change (texts sample) with (@nil (str * str)).
    repeat (apply Forall_cons); [| | |apply Forall_nil]; cbn [fst snd]; (split; [split; [discriminate|split; [split; absent|discriminate]]|split; [split|intros x []]]).
    + constructor; [absent|]. constructor; [absent|]. constructor.
    + repeat (apply Forall_cons; [apply option_by; vm_compute; reflexivity|]). apply Forall_nil.
    + constructor; [absent|]. constructor; [absent|]. constructor.
    + repeat (apply Forall_cons; [apply option_by; vm_compute; reflexivity|]). apply Forall_nil.
    + constructor.
    + constructor.
Qed.
(** REFUTED without these conditions: two percent signs become one *)
Theorem C259_percent_refuted : exists t, ini_write [(lit "a", Section_ [(lit "k", lit "100%%")])] = Ok t /\
  ini_read t = Ok [(lit "a", Section_ [(lit "k", lit "100%")])].
Proof. eexists. split; [vm_compute; reflexivity|vm_compute; reflexivity]. Qed.
(** a line of a value that looks like a comment is lost *)
Theorem C259_comment_refuted : exists t, ini_write [(lit "a", Section_ [(lit "k", lit "one" ++ [LF] ++ lit "#two" ++ [LF] ++ lit "three")])] = Ok t /\
  ini_read t = Ok [(lit "a", Section_ [(lit "k", lit "one" ++ [LF] ++ lit "three")])].
Proof. eexists. split; [vm_compute; reflexivity|vm_compute; reflexivity]. Qed.
(** a name with a colon is cut *)
Theorem C259_name_refuted : exists t, ini_write [(lit "a", Section_ [(lit "x:y", lit "v")])] = Ok t /\
  ini_read t = Ok [(lit "a", Section_ [(lit "x", lit "y = v")])].
Proof. eexists. split; [vm_compute; reflexivity|vm_compute; reflexivity]. Qed.
(** a name outside of the sections appears in all of them *)
Theorem C259_default_refuted : exists t, ini_write [(lit "k", Text "v"); (lit "a", Section_ [])] = Ok t /\
  ini_read t = Ok [(lit "k", Text "v"); (lit "a", Section_ [(lit "k", lit "v")])].
Proof. eexists. split; [vm_compute; reflexivity|vm_compute; reflexivity]. Qed.
(** a name that is a comment spoils the file silently *)
Theorem C259_lost_refuted : exists t, ini_write [(lit "a", Section_ [(lit "#k", lit "v")])] = Ok t /\ ini_read t = Ok [(lit "a", Section_ [])].
Proof. eexists. split; [vm_compute; reflexivity|vm_compute; reflexivity]. Qed.

(** ** C260 *)
(** one value with a percent sign that is neither doubled nor the start of a reference, and nothing is written at all *)
Theorem C260_refused : forall d a b, In (a ++ lit "%" ++ b) (flat_map (fun e => match snd e with Text v => [v] | Section_ kvs => map snd kvs end) d) ->
  ~ In "%"%char a -> ~ In "%"%char b -> starts_with "(" b = false -> exists e, ini_write d = Err e.
Proof.
  intros d a b H A B S. destruct (fill_refused d (Parser [] []) (a ++ lit "%" ++ b) H) as [e E].
  - exists a, b. split; [reflexivity|]. split; [exact A|]. split; [exact B|]. destruct b as [|c b]; [exact I|]. intro X. subst c. discriminate S.
  - exists e. unfold ini_write. rewrite E. reflexivity.
Qed.
Example C260_example : ini_write [(lit "a", Section_ [(lit "good", lit "1"); (lit "rate", lit "5% of all")])] = Err ValueError.
Proof. vm_compute. reflexivity. Qed.
(** without percent signs everything is written that has distinct names and no section with a name of its own meaning *)
Theorem C260_written_partial : forall d, normal d -> exists t, ini_write d = Ok t.
Proof. intros d N. destruct (round_trip d N) as (t & W & _). exists t. exact W. Qed.
(** REFUTED: a section with the name DEFAULT cannot be written *)
Theorem C260_default_refuted : forall kvs, ini_write [(lit "DEFAULT", Section_ kvs)] = Err ValueError.
Proof. intro kvs. reflexivity. Qed.

(** ** C261 *)
(** the entry points that are saved are loaded again, if no two have the same group and name, their names are those of options that can
    be written ([good_entry]), and they refer to a module or to an object of it, without extras *)
Theorem C261_loaded_partial : forall l, NoDup (map (fun e => (e_group e, e_name e)) l) -> Forall good_entry l ->
  (forall e, In e l -> ~ In ":"%char (o_module (e_ref e)) /\ o_extras (e_ref e) = None /\
     (o_object (e_ref e) = None \/ exists o, o_object (e_ref e) = Some o /\ o <> [] /\ ~ In "["%char o)) ->
  exists t l', save_entries l = Ok t /\ load_entries (Some t) = Ok l' /\ forall e, In e l' <-> In e l.
Proof.
  intros l N G S. destruct (saved_loaded l G) as (t & A & B). exists t, (data_entries (entries_data l)). split; [exact A|]. split; [exact B|].
  assert (X : forall e, In e l -> oref_parse (oref_str (e_ref e)) = e_ref e).
  { intros [g n [m o x]] H. destruct (S _ H) as (M & E & O). cbn [e_ref o_module o_object o_extras] in *. subst x. destruct O as [->|(o' & -> & O1 & O2)].
    - apply oref_module, M.
    - apply oref_plain; assumption. }
  intro e. rewrite ProjectProofs.read_written. split.
  - intros (r & L & R). apply (last_entry_in l (Entry (e_group e) (e_name e) r) N) in L. pose proof (X _ L) as Y. cbn [e_ref] in Y.
    destruct e as [g n q]. cbn [e_group e_name e_ref] in *. rewrite R, Y. exact L.
  - intro H. exists (e_ref e). split; [apply (last_entry_in l e N), H|]. symmetry. exact (X e H).
Qed.
Definition two : list entry := [Entry "console_scripts" "run" (ORef "pkg.cli" (Some (lit "main")) None); Entry "pkm-repositories" "pkg" (ORef "pkg.repo" None None)].
Example C261_example : NoDup (map (fun e => (e_group e, e_name e)) two) /\ Forall good_entry two /\
  load_entries (Some (lit "[console_scripts]" ++ [LF] ++ lit "run = pkg.cli:main" ++ [LF; LF] ++ lit "[pkm-repositories]" ++ [LF] ++ lit "pkg = pkg.repo" ++ [LF; LF])) = Ok two.
Proof.
  split; [|split].
  - cbn [two map e_group e_name]. constructor; [intros [H|[]]; discriminate H|]. constructor; [intros []|constructor].
  - apply Forall_cons; [|apply Forall_cons; [|apply Forall_nil]];
      (split; [split; [discriminate|split; [split; absent|discriminate]]|]; apply option_by; vm_compute; reflexivity).
  - vm_compute. reflexivity.
Qed.
(** REFUTED: the name of an entry point may contain colons; such an entry point is read under another name with another reference *)
Theorem C261_colon_refuted : load_entries (Some (lit "[plugins]" ++ [LF] ++ lit "pkg:fast = pkg.impl:Fast" ++ [LF])) =
  Ok [Entry "plugins" "pkg" (ORef "fast = pkg.impl" (Some (lit "Fast")) None)].
Proof. vm_compute. reflexivity. Qed.
(** REFUTED: a file with values for all sections is read by configparser, but not as entry points *)
Theorem C261_default_refuted : exists t d, ini_read t = Ok d /\ load_entries (Some t) = Err AttributeError.
Proof. exists (lit "[DEFAULT]" ++ [LF] ++ lit "a = b" ++ [LF]), [(lit "a", Text "b")]. split; vm_compute; reflexivity. Qed.

(** ** C262 *)
(** if all files can be read, the entry points of a group are those of the packages in their order, each with its package *)
Theorem C262_found : forall P (packages : list (P * option str)) (found : list (P * list entry)),
  Forall2 (fun a b => fst a = fst b /\ load_entries (snd a) = Ok (snd b)) packages found ->
  extensions packages = Ok (flat_map (fun b => map (fun e => (fst b, e)) (filter (fun e => str_eqb "pkm-repositories" (e_group e)) (snd b))) found).
Proof.
  intros P packages found H. destruct (env_spec P packages found [] H) as (r & R & S). unfold extensions. rewrite R. cbn [bind]. rewrite S. reflexivity.
Qed.
(** a package without the file has none *)
Theorem C262_no_file : load_entries None = Ok [].
Proof. reflexivity. Qed.
Example C262_example : exists found, Forall2 (fun a b => fst a = fst b /\ load_entries (snd a) = Ok (snd b))
  [(1, Some (lit "[pkm-repositories]" ++ [LF] ++ lit "a = b:c" ++ [LF])); (2, None); (3, Some (lit "[pkm-repositories]" ++ [LF] ++ lit "d = e:f" ++ [LF]))] found /\
  length (flat_map snd found) = 2.
Proof.
  exists [(1, [Entry "pkm-repositories" "a" (ORef "b" (Some (lit "c")) None)]); (2, []); (3, [Entry "pkm-repositories" "d" (ORef "e" (Some (lit "f")) None)])].
  split; [|reflexivity]. repeat constructor.
Qed.
(** REFUTED: one package with a file that cannot be read, and no extension of any package is found *)
Theorem C262_one_bad_refuted : forall P (packages : list (P * option str)) p file e, In (p, file) packages -> load_entries file = Err e ->
  exists e', extensions packages = Err e'.
Proof.
  intros P packages p file e I L. destruct (env_bad P packages [] p file e I L) as [e' E]. exists e'. unfold extensions. rewrite E. reflexivity.
Qed.
Example C262_bad_example : load_entries (Some (lit "[pytest11]" ++ [LF] ++ lit "half = 50%:x" ++ [LF])) = Err Malformed /\
  load_entries (Some (lit "no section" ++ [LF])) = Err Malformed.
Proof. split; vm_compute; reflexivity. Qed.

(** ** C263 *)
(** a file in which a section is opened twice is refused, whatever is around *)
Theorem C263_twice : forall n a b c, n <> [] -> n <> lit "DEFAULT" -> Forall one_line (a ++ [lit "[" ++ n ++ lit "]"] ++ b ++ [lit "[" ++ n ++ lit "]"] ++ c) ->
  exists e, ini_read (concat (map (fun l => l ++ [LF]) (a ++ [lit "[" ++ n ++ lit "]"] ++ b ++ [lit "[" ++ n ++ lit "]"] ++ c))) = Err e.
Proof.
  intros n a b c N D L. unfold ini_read. pose proof (lines_of_closed _ L) as F. unfold closed in F. rewrite F.
  destruct (twice n a b c start N D) as [e E]. exists e. rewrite E. reflexivity.
Qed.
Example C263_example : ini_read (lit "[a]" ++ [LF] ++ lit "x = 1" ++ [LF] ++ lit "[b]" ++ [LF] ++ lit "[a]" ++ [LF]) = Err Malformed.
Proof. vm_compute. reflexivity. Qed.
(** so is a file in which a section, DEFAULT included, has the same name twice; [k = v] is one line and not that of a section *)
Theorem C263_option_twice : forall n k v w a b c d, n <> [] -> good_option (k, v) -> good_option (k, w) -> ~ In LF v -> ~ In LF w ->
  Forall (fun l => header (strip_ws l) = None) (b ++ c) ->
  let lines := a ++ [lit "[" ++ n ++ lit "]"] ++ b ++ [k ++ lit " = " ++ v] ++ c ++ [k ++ lit " = " ++ w] ++ d in
  Forall one_line lines -> exists e, ini_read (concat (map (fun l => l ++ [LF]) lines)) = Err e.
Proof.
  intros n k v w a b c d N (K & V & HV) (_ & W & HW) LV LW NH lines L. unfold ini_read. pose proof (lines_of_closed _ L) as F. unfold closed in F. rewrite F.
  apply Forall_app in NH as [NB NC]. destruct V as (_ & _ & _ & TV & _), W as (_ & _ & _ & TW & _). cbn [fst snd] in *.
  pose proof (first_line_header k v (proj1 K) HV) as X. pose proof (first_line_header k w (proj1 K) HW) as Y.
  rewrite split_on_single in * by assumption. cbn [hd] in X, Y. inversion TV; subst. inversion TW; subst.
  destruct (option_twice n k v w a b c d start) as [e E]; try assumption. exists e. fold lines in E. rewrite E. reflexivity.
Qed.
Example C263_option_example : good_option (lit "x", lit "1") /\ good_option (lit "x", lit "2") /\
  ini_read (lit "[a]" ++ [LF] ++ lit "x = 1" ++ [LF] ++ lit "y = 1" ++ [LF] ++ lit "x = 2" ++ [LF]) = Err Malformed.
Proof. split; [apply option_by; vm_compute; reflexivity|]. split; [apply option_by; vm_compute; reflexivity|]. vm_compute. reflexivity. Qed.
(** and so is a file with a line that means nothing: not indented, not a comment, without = and :, and not in brackets *)
Theorem C263_senseless : forall c r a b, strip_ws (c :: r) = c :: r -> c <> "["%char -> c <> "#"%char -> c <> ";"%char ->
  ~ In "="%char (c :: r) -> ~ In ":"%char (c :: r) -> Forall one_line (a ++ [c :: r] ++ b) ->
  exists e, ini_read (concat (map (fun l => l ++ [LF]) (a ++ [c :: r] ++ b))) = Err e.
Proof.
  intros c r a b T C1 C2 C3 D1 D2 L. unfold ini_read. pose proof (lines_of_closed _ L) as F. unfold closed in F. rewrite F.
  rewrite read_app. destruct (read_all start a) as [s1|e]; [|eexists; reflexivity]. cbn [bind]. rewrite read_app. cbn [read_all].
  destruct (read_one s1 (c :: r)) as [s2|e] eqn:E; [|eexists; reflexivity]. cbn [bind].
  destruct (read_all s2 b) as [s3|e] eqn:E3; [|eexists; reflexivity]. cbn [bind]. exists Malformed.
  assert (B : s_bad s2 = true).
  { apply (senseless c r s1 s2); [exact T| |exact C1| |exact E].
    - cbn [is_comment]. destruct (Ascii.eqb c "#") eqn:Q; [apply Ascii.eqb_eq in Q; contradiction|]. destruct (Ascii.eqb c ";") eqn:Q2; [apply Ascii.eqb_eq in Q2; contradiction|]. reflexivity.
    - apply forallb_forall. intros x X. unfold not_delimiter. destruct (Ascii.eqb x "=") eqn:Q; [apply Ascii.eqb_eq in Q; subst; contradiction|].
      destruct (Ascii.eqb x ":") eqn:Q2; [apply Ascii.eqb_eq in Q2; subst; contradiction|]. reflexivity. }
  rewrite (bad_all b s2 s3 B E3). reflexivity.
Qed.
Example C263_senseless_example : strip_ws "main" = lit "main" /\ ini_read (lit "[a]" ++ [LF] ++ lit "x = 1" ++ [LF] ++ lit "main" ++ [LF] ++ lit "y = 2" ++ [LF]) = Err Malformed.
Proof. split; vm_compute; reflexivity. Qed.
(** and so is a file with a percent sign that begins nothing: at the end of a value, before another sign, or without a closing parenthesis *)
Theorem C263_percent : forall v, In v [lit "5%"; lit "%"; lit "a%%b%"; lit "5% of all"; lit "%(x"; lit "%(y)s"] ->
  ini_read (lit "[a]" ++ [LF] ++ lit "x = 1" ++ [LF] ++ lit "k = " ++ v ++ [LF]) = Err Malformed.
Proof. intros v H. repeat (destruct H as [<-|H]; [vm_compute; reflexivity|]). destruct H. Qed.
Example C263_percent_example : ini_read (lit "[a]" ++ [LF] ++ lit "x = 1" ++ [LF] ++ lit "k = 5%% %(x)s" ++ [LF]) = Ok [(lit "a", Section_ [(lit "x", lit "1"); (lit "k", lit "5% 1")])].
Proof. vm_compute. reflexivity. Qed.
(** the section DEFAULT can be opened again *)
Example C263_default : ini_read (lit "[DEFAULT]" ++ [LF] ++ lit "x = 1" ++ [LF] ++ lit "[DEFAULT]" ++ [LF] ++ lit "y = 2" ++ [LF]) = Ok [(lit "x", Text "1"); (lit "y", Text "2")].
Proof. vm_compute. reflexivity. Qed.

Print Assumptions C259_round_trip_partial. Print Assumptions C260_refused. Print Assumptions C261_loaded_partial. Print Assumptions C262_found.
Print Assumptions C262_one_bad_refuted. Print Assumptions C263_twice. Print Assumptions C263_option_twice. Print Assumptions C263_senseless.
