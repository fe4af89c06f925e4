(** C273-C278: the help of commands. *)
From Coq Require Import String Ascii List Bool NArith Arith Lia Permutation Sorted.
From Verif Require Import Base BaseFacts ParserModel ProjectModel CliModel MethodModel HelpModel HelpProofs.
Import ListNotations.
Open Scope string_scope.
Open Scope nat_scope.
Open Scope list_scope.
Open Scope bool_scope.

(** samples *)
Definition words_reader : reader := RType (fun s => Ok (VS s)).
Definition sample_texts : texts := Texts (fun _ => lit "ZipPath") (fun _ => lit "what it does") (fun _ => lit "a command").
Definition opt (names : list str) (g : option str) (fs : option (list subdef)) : argdef := Arg names words_reader (Some VNone) fs (KOption false g).
Definition flg (names : list str) (g : option str) : argdef := Arg names RFlag (Some (VB false)) None (KOption false g).
Definition pos (name : str) (fs : option (list subdef)) : argdef := Arg [name] words_reader None fs (KPositional (Some 1)).
Definition plus_f : subdef := Sub [lit "+f"] RFlag (Some (VB false)).
Definition plus_level : subdef := Sub [lit "+level"] words_reader (Some VNone).
Definition sample : list argdef := [opt [lit "-c"; lit "--context"] (Some (lit "where")) None; flg [lit "-g"; lit "--global"] (Some (lit "where")); flg [lit "-v"; lit "--verbose"] None; flg [lit "--all"] None; pos (lit "package") (Some [plus_level])].

(** C273: the usage of a command can be shown if every option has a name, no name is empty, and every option that takes a
    value has a name that does not begin with two dashes; the same for fields *)
Theorem C273_shown_partial : forall T path t,
  (forall a, In a (args_of t) -> is_option a = true -> a_names a <> [] /\ ~ In [] (a_names a) /\
     (a_reader a = RFlag \/ exists n, In n (a_names a) /\ starts_with (lit "--") n = false)) ->
  (forall a fs f, In a (args_of t) -> a_fields a = Some fs -> In f fs -> s_names f <> [] /\ ~ In [] (s_names f) /\
     (s_reader f = RFlag \/ exists n, In n (s_names f) /\ starts_with (lit "--") n = false)) ->
  exists s, usage T path t = Ok s.
Proof.
  intros T path t HO HF. apply usage_ok.
  - intros a A O. destruct (HO a A O) as (X & Y & Z). split; [split; assumption|]. intro FL. destruct Z as [Z|Z]; [rewrite Z in FL; discriminate|exact Z].
  - intros a A fs f FS F. destruct (HF a fs f A FS F) as (X & Y & Z). split; [split; assumption|]. intro FL. destruct Z as [Z|Z]; [rewrite Z in FL; discriminate|exact Z].
Qed.
Print Assumptions C273_shown_partial.
Example C273_shown_sample : usage sample_texts [lit "pkm"; lit "install"] (Node (Some sample) [(lit "now", Node (Some []) [])]) =
  Ok (lit "Usage: pkm install [--all] [-v] [-g | -c ZIP_PATH] <package [+level=ZIP_PATH]> [SUB_COMMAND]").
Proof. vm_compute. reflexivity. Qed.
Example C273_sample_meets : forall a, In a sample -> is_option a = true -> a_names a <> [] /\ ~ In [] (a_names a) /\
     (a_reader a = RFlag \/ exists n, In n (a_names a) /\ starts_with (lit "--") n = false).
Proof.
  intros a [<-|[<-|[<-|[<-|[<-|[]]]]]] O; try discriminate O; (split; [discriminate|]); (split; [cbn; intuition discriminate|]); [right; exists (lit "-c"); split; [left; reflexivity|reflexivity]|left; reflexivity|left; reflexivity|left; reflexivity].
Qed.
(** a task whose letters are all taken gets an option with one long name only: asked for its help, it fails, whatever
    the name of the class *)
Definition three_options : signature :=
  Sig [] [] None false [lit "on"; lit "no"; lit "non"] (Some [(lit "on", VS (lit "1")); (lit "no", VS (lit "2")); (lit "non", VS (lit "3"))]) [].
Theorem C273_long_refuted : exists defs, definition three_options = Ok defs /\
  run_method 20 three_options [lit "--non"; lit "x"] = Some (Ok (Called [(lit "on", VS (lit "1")); (lit "no", VS (lit "2")); (lit "non", VS (lit "x"))])) /\
  run_method 20 three_options [lit "--help"] = Some (Ok Helped) /\
  forall T path, (forall c, class_name T c <> []) -> usage T path (Node (Some defs) []) = Err AttributeError.
Proof.
  eexists. split; [vm_compute; reflexivity|]. split; [vm_compute; reflexivity|]. split; [vm_compute; reflexivity|]. intros T path H.
  unfold usage, usage_tokens.
  match goal with |- context [unique_options ?t] => let x := eval vm_compute in (unique_options t) in change (unique_options t) with x end.
  match goal with |- context [filter ?f ?l] => let x := eval vm_compute in (filter f l) in change (filter f l) with x end.
  cbn [map]. unfold option_tokens.
  assert (HN : forall c, exists x r, upper_snake_case (class_name T c) = x :: r).
  { intro c. unfold upper_snake_case. pose proof (camel_concat (class_name T c)) as [A B]. specialize (H c). destruct (split_camel_case (class_name T c)) as [|w ws]; [cbn in A; congruence|]. destruct w as [|y w]; [exfalso; apply B; left; reflexivity|]. destruct ws; eexists; eexists; cbn [map join app]; reflexivity. }
  cbn [filter combinable option_item i_reader i_sub a_reader a_fields is_flag andb negb is_some flag_tokens bind map_res].
  match goal with |- context [option_token T ?i] => idtac end.
  assert (L : forall n h fs, short_name n <> None -> fs = None -> forall req mul sub, (exists x r, value_hint T h = x :: r) -> exists s, option_token T (Item n h req mul sub fs) = Ok s).
  { intros n h fs SN -> req mul sub (x & r & V). unfold option_token. cbn [i_reader i_names i_fields]. rewrite V. destruct (short_name n) as [m|]; [|contradiction]. cbn [bind]. eauto. }
  assert (V : forall c, exists x r, value_hint T (RType c) = x :: r) by (intro c; exact (HN c)).
  match goal with |- context [option_token T (option_item T ?a)] => destruct (L (a_names a) (a_reader a) (field_tokens T a)) with (req := negb (is_some (a_default a))) (mul := false) (sub := is_some (a_fields a)) as (s1 & S1); [discriminate|reflexivity|apply V|] end.
  match goal with |- context [option_token T (option_item T ?a)] => change (option_token T (option_item T a)) with (option_token T (Item (a_names a) (a_reader a) (negb (is_some (a_default a))) false (is_some (a_fields a)) (field_tokens T a))); rewrite S1 end. cbn [bind].
  match goal with |- context [option_token T (option_item T ?a)] => destruct (L (a_names a) (a_reader a) (field_tokens T a)) with (req := negb (is_some (a_default a))) (mul := false) (sub := is_some (a_fields a)) as (s2 & S2); [discriminate|reflexivity|apply V|] end.
  match goal with |- context [option_token T (option_item T ?a)] => change (option_token T (option_item T a)) with (option_token T (Item (a_names a) (a_reader a) (negb (is_some (a_default a))) false (is_some (a_fields a)) (field_tokens T a))); rewrite S2 end. cbn [bind].
  match goal with |- context [option_token T (option_item T ?a)] => replace (option_token T (option_item T a)) with (@Err str AttributeError); [reflexivity|] end.
  unfold option_token. cbn [option_item i_reader i_names]. match goal with |- context [value_hint T (a_reader ?a)] => destruct (V (match a_reader a with RType c => c | _ => fun _ => Err OtherErr end)) as (x & r & E) end. cbn [a_reader] in *. rewrite E. reflexivity.
Qed.
Print Assumptions C273_long_refuted.

(** C274: every option that a word of the command line stands for, every positional and every sub command is listed, with
    all names, the shorter first, and its help *)
Definition listed (T : texts) (lines : list str) (a : argdef) : Prop :=
  exists before after names tail, lines = before ++ ((lit "  " ++ join (lit ", ") names ++ tail) :: match arg_help T a with [] => [] | h => [lit "      " ++ h] end) ++ after /\
    Permutation names (a_names a) /\ StronglySorted (fun x y => length x <= length y) names /\
    tail = (if is_option a && is_flag (a_reader a) then [] else lit " <" ++ value_hint T (a_reader a) ++ lit ">").
Lemma arg_lines_listed : forall T b a r, listed T (b ++ arg_lines T a ++ r) a.
Proof.
  intros T b a r. exists b, r, (defined_names (a_names a)), (if is_option a && is_flag (a_reader a) then [] else lit " <" ++ value_hint T (a_reader a) ++ lit ">"). split; [unfold arg_lines, header, display_name; destruct (is_option a && is_flag (a_reader a)); [rewrite app_nil_r|]; reflexivity|].
  split; [apply sort_len_perm|]. split; [|reflexivity]. apply Sorted_StronglySorted; [intros x y z; lia|apply sort_len_sorted].
Qed.
Lemma flat_listed : forall T b l r a, In a l -> listed T (b ++ flat_map (arg_lines T) l ++ r) a.
Proof. intros T b l r a I. apply in_split in I. destruct I as (l1 & l2 & ->). rewrite flat_map_app. cbn [flat_map]. rewrite <- !app_assoc, (app_assoc b). apply arg_lines_listed. Qed.
Theorem C274_listed : forall T t,
  (forall n o, dict_get n (options t) = Some o -> listed T (overview_lines T t) o) /\
  (forall a, In a (args_of t) -> is_option a = false -> listed T (overview_lines T t) a) /\
  (forall name child, In (name, child) (children_of t) -> exists blanks desc, In (lit "  " ++ name ++ blanks ++ lit " " ++ desc) (overview_lines T t) /\
     blanks <> [] /\ (forall c, In c blanks -> c = " "%char) /\ (def_of child <> None -> desc = child_desc T name)) /\
  (exists ids rest, NoDup ids /\ (forall i, In i ids -> exists n o, nth_error (args_of t) i = Some o /\ dict_get n (options t) = Some o) /\
     overview_lines T t = match ids with [] => [] | _ => lit "Options: " :: flat_map (fun i => match nth_error (args_of t) i with Some o => arg_lines T o | None => [] end) ids end ++ rest).
Proof.
  intros T t. unfold overview_lines. split; [|split; [|split]].
  - intros n o G. apply option_shown in G. destruct (unique_options t) as [|u us]; [destruct G|]. cbn [app]. exact (flat_listed T [lit "Options: "] (u :: us) _ o G).
  - intros a A O. assert (I : In a (positionals t)) by (apply filter_In; split; [exact A|unfold is_positional; rewrite O; reflexivity]). destruct (positionals t) as [|u us]; [destruct I|].
    match goal with |- listed T (?x ++ (?h :: ?f) ++ ?y) a => change (x ++ (h :: f) ++ y) with (x ++ [h] ++ f ++ y) end. rewrite app_assoc. apply flat_listed. exact I.
  - intros name child I. destruct (children_of t) as [|k ks] eqn:K; [destruct I|]. rewrite <- K in *. set (p := list_max (map (fun c => length (fst c)) (children_of t)) + 2).
    exists (repeat " "%char (p - length name)), (match def_of child with Some _ => child_desc T name | None => [] end). split; [|split; [|split]].
    + apply in_or_app. right. apply in_or_app. right. right. apply in_map_iff. exists (name, child). split; [|exact I]. unfold child_line, pad. cbn [fst snd]. rewrite <- app_assoc. reflexivity.
    + assert (L : length name <= list_max (map (fun c => length (fst c)) (children_of t))) by (pose proof (proj1 (list_max_le (map (fun c : str * ast => length (fst c)) (children_of t)) _) (le_n _)) as X; rewrite Forall_forall in X; apply X; apply in_map_iff; exists (name, child); auto).
      unfold p. replace (_ + 2 - length name) with (Datatypes.S (list_max (map (fun c => length (fst c)) (children_of t)) + 1 - length name)) by lia. discriminate.
    + intros c C. apply repeat_spec in C. exact C.
    + intro D. destruct (def_of child); [reflexivity|contradiction].
  - exists (shown t). eexists. split; [apply uniq_nodup|]. split; [intros i I; apply shown_spec in I; destruct I as (n & o & A & B & _); exists n, o; auto|].
    rewrite unique_shown. assert (X : forall l, (forall i, In i l -> exists o, nth_error (args_of t) i = Some o) -> match flat_map (fun i => match nth_error (args_of t) i with Some a => [a] | None => [] end) l with [] => [] | _ => lit "Options: " :: flat_map (arg_lines T) (flat_map (fun i => match nth_error (args_of t) i with Some a => [a] | None => [] end) l) end = match l with [] => [] | _ => lit "Options: " :: flat_map (fun i => match nth_error (args_of t) i with Some o => arg_lines T o | None => [] end) l end).
    { intros l H. destruct l as [|i l]; [reflexivity|]. cbn [flat_map]. destruct (H i (or_introl eq_refl)) as (o & E). rewrite E. cbn [app flat_map]. do 2 f_equal. assert (Y : forall k, (forall i, In i k -> exists o, nth_error (args_of t) i = Some o) -> flat_map (arg_lines T) (flat_map (fun i => match nth_error (args_of t) i with Some a => [a] | None => [] end) k) = flat_map (fun i => match nth_error (args_of t) i with Some o => arg_lines T o | None => [] end) k).
      { intros k. induction k as [|j k IH]; intro HK; [reflexivity|]. cbn [flat_map]. rewrite flat_map_app, IH; [|intros z Z; apply HK; right; exact Z]. destruct (HK j (or_introl eq_refl)) as (p & P). rewrite P. cbn [flat_map]. rewrite app_nil_r. reflexivity. }
      apply Y. intros z Z. apply H. right. exact Z. }
    rewrite X; [reflexivity|]. intros i I. apply shown_spec in I. destruct I as (n & o & A & _). eauto.
Qed.
Print Assumptions C274_listed.
Example C274_sample : overview_lines sample_texts (Node (Some sample) [(lit "now", Node (Some []) []); (lit "later", Node None [])]) =
  map lit ["Options: "; "  -c, --context <ZIP_PATH>"; "      what it does"; "  -g, --global"; "      what it does"; "  -v, --verbose"; "      what it does"; "  --all"; "      what it does"] ++
  [lf :: lit "Positional Arguments: "; lit "  package <ZIP_PATH>"; lit "      what it does"; lf :: lit "Sub-Commands: "; lit "  now     a command"; lit "  later   "].
Proof. vm_compute. reflexivity. Qed.
(** of two options with the same name both are listed with it, though it stands for the second; and -h, which every
    command knows, is not listed *)
Theorem C274_taken_refuted : exists a b, let t := Node (Some [a; b]) [] in
  a <> b /\ dict_get (lit "--all") (options t) = Some a /\ dict_get (lit "--any") (options t) = Some b /\ dict_get (lit "-a") (options t) = Some b /\
  overview_lines (Texts (fun _ => []) (fun _ => []) (fun _ => [])) t = map lit ["Options: "; "  -a, --any"; "  -a, --all"].
Proof.
  exists (flg [lit "-a"; lit "--all"] None), (flg [lit "-a"; lit "--any"] None). split; [discriminate|]. split; [vm_compute; reflexivity|]. split; [vm_compute; reflexivity|]. split; vm_compute; reflexivity.
Qed.

(** C275: every option is spelled in the usage: by one of its names, or by the letter of one of them in a word of letters *)
Theorem C275_spelled_partial : forall T path t s n o, usage T path t = Ok s -> dict_get n (options t) = Some o ->
  (forall m, In m (a_names o) -> m <> [] /\ ~ In "["%char m /\ ~ In "]"%char m) ->
  (a_reader o = RFlag /\ a_fields o = None \/ exists m, In m (a_names o) /\ starts_with (lit "--") m = false) ->
  exists before word after, s = before ++ word ++ after /\
    (In word (a_names o) \/
     exists letters m c, word = lit "-" ++ letters ++ [c] /\ In [m; c] (a_names o) /\ forall x, In x letters -> exists k a, In a (args_of t) /\ In [k; x] (a_names a)).
Proof.
  intros T path t s n o U G P SH. destruct (usage_mention T path t s n o U G) as (core & (a & b & E) & SP).
  - intros m M. destruct (P m M) as (A & B & C). split; [exact A|]. intros c I. split; intros ->; contradiction.
  - intro L. destruct SH as [[A B]|H]; [|exact H]. unfold lean in L. rewrite A, B in L. discriminate.
  - exists a, core, b. split; [exact E|]. destruct SP as [I|(letters & m & c & X & Y & Z)]; [left; exact I|right]. exists letters, m, c. split; [exact X|]. split; [exact Y|]. intros x I. destruct (Z x I) as (k & ns & K1 & K2). apply in_map_iff in K1. destruct K1 as (arg & <- & A). exists k, arg. auto.
Qed.
Print Assumptions C275_spelled_partial.
Example C275_sample : exists s, usage sample_texts [lit "pkm"] (Node (Some [flg [lit "-v"; lit "--verbose"] None; flg [lit "-q"] None; opt [lit "-o"; lit "--out"] None None]) []) = Ok s /\ s = lit "Usage: pkm [-vq] [-o ZIP_PATH]".
Proof. eexists. split; vm_compute; reflexivity. Qed.
(** fields are not all spelled: the flag +f is shown as -f, which is refused *)
Theorem C275_field_flag_refuted : exists t, (forall T path, usage T path t = Ok (lit "Usage: " ++ join (lit " ") path ++ lit " <x [-f]>")) /\
  parse 20 t [lit "v"; lit "-f"] = Some (Err IOErr) /\ exists r, parse 20 t [lit "v"; lit "+f"] = Some (Ok r).
Proof.
  exists (Node (Some [pos (lit "x") (Some [plus_f])]) []). split; [intros; reflexivity|]. split; [vm_compute; reflexivity|]. eexists. vm_compute. reflexivity.
Qed.
Print Assumptions C275_field_flag_refuted.

(** C276: options that exclude each other are shown between bars, if each takes a value, may be left out and has no fields *)
Theorem C276_bars_partial : forall T path g opts shorts, g <> [] -> opts <> [] -> NoDup (flat_map a_names opts) ->
  Forall2 (fun o n => a_kind o = KOption false (Some g) /\ a_reader o <> RFlag /\ a_default o <> None /\ a_fields o = None /\
    short_name (a_names o) = Some n /\ starts_with (lit "-") n = true /\ ~ In "["%char n /\ ~ In "]"%char n /\
    value_hint T (a_reader o) <> [] /\ ~ In "["%char (value_hint T (a_reader o)) /\ ~ In "]"%char (value_hint T (a_reader o))) opts shorts ->
  usage T path (Node (Some opts) []) = Ok (lit "Usage: " ++ join (lit " ") path ++ lit " [" ++
    join (lit " | ") (map (fun on => snd on ++ lit " " ++ value_hint T (a_reader (fst on))) (combine opts shorts)) ++ lit "]").
Proof.
  intros T path g opts shorts G NE ND F. apply (alternatives T path g); try assumption. clear -F. induction F as [|o n opts ns H F IH]; constructor; [|exact IH].
  destruct H as (A & B & C & D & E & K & L1 & L2 & M & N1 & N2). split; [exact A|]. split; [destruct (a_reader o); try reflexivity; congruence|]. split; [exact C|]. split; [exact D|]. split; [exact E|]. split; [exact K|]. split; [intros c I; split; intros ->; contradiction|]. split; [exact M|]. intros c I. split; intros ->; contradiction.
Qed.
Print Assumptions C276_bars_partial.
Example C276_sample : usage sample_texts [lit "pkm"] (Node (Some [opt [lit "-a"] (Some (lit "g")) None; opt [lit "--bb"; lit "-b"] (Some (lit "g")) None]) []) = Ok (lit "Usage: pkm [-a ZIP_PATH | -b ZIP_PATH]").
Proof. vm_compute. reflexivity. Qed.
Example C276_sample_meets : Forall2 (fun o n => a_kind o = KOption false (Some (lit "g")) /\ a_reader o <> RFlag /\ a_default o <> None /\ a_fields o = None /\
    short_name (a_names o) = Some n /\ starts_with (lit "-") n = true /\ ~ In "["%char n /\ ~ In "]"%char n /\
    value_hint sample_texts (a_reader o) <> [] /\ ~ In "["%char (value_hint sample_texts (a_reader o)) /\ ~ In "]"%char (value_hint sample_texts (a_reader o)))
  [opt [lit "-a"] (Some (lit "g")) None; opt [lit "--bb"; lit "-b"] (Some (lit "g")) None] [lit "-a"; lit "-b"].
Proof. repeat constructor; try (cbn; discriminate); try (cbn; intuition discriminate); vm_compute; intuition discriminate. Qed.
(** flags that exclude each other are shown as a word of letters that is refused *)
Theorem C276_flags_refuted : exists t, (forall T path, usage T path t = Ok (lit "Usage: " ++ join (lit " ") path ++ lit " [-ab]")) /\
  (exists r, parse 20 t [lit "-a"] = Some (Ok r)) /\ (exists r, parse 20 t [lit "-b"] = Some (Ok r)) /\ parse 20 t [lit "-ab"] = Some (Err IOErr).
Proof.
  exists (Node (Some [flg [lit "-a"] (Some (lit "g")); flg [lit "-b"] (Some (lit "g"))]) []). split; [intros; reflexivity|]. split; [eexists; vm_compute; reflexivity|]. split; [eexists; vm_compute; reflexivity|]. vm_compute. reflexivity.
Qed.
Print Assumptions C276_flags_refuted.

(** C277: brackets match, if no options exclude each other *)
Fixpoint brackets (open : nat) (s : str) : bool :=
  match s with
  | [] => open =? 0
  | c :: r => if Ascii.eqb c "[" then brackets (Datatypes.S open) r
              else if Ascii.eqb c "]" then match open with 0 => false | Datatypes.S n => brackets n r end
              else brackets open r
  end.
Lemma brackets_scan : forall s n, brackets n s = true <-> scan n s = Some 0.
Proof.
  intros s. induction s as [|c s IH]; intro n; cbn [brackets scan]; [rewrite Nat.eqb_eq; split; [intros ->; reflexivity|intro H; injection H as ->; reflexivity]|].
  destruct (Ascii.eqb c "["); [apply IH|]. destruct (Ascii.eqb c "]"); [|apply IH]. destruct n; [split; discriminate|apply IH].
Qed.
Theorem C277_matched_partial : forall T path t s, usage T path t = Ok s ->
  (forall a, In a (args_of t) -> match a_kind a with KOption _ (Some (_ :: _)) => False | _ => True end) ->
  (forall w, In w path \/ (exists a, In a (args_of t) /\ (In w (a_names a) \/ w = value_hint T (a_reader a))) \/
     (exists a fs f, In a (args_of t) /\ a_fields a = Some fs /\ In f fs /\ (In w (s_names f) \/ w = value_hint T (s_reader f))) -> ~ In "["%char w /\ ~ In "]"%char w) ->
  brackets 0 s = true.
Proof.
  intros T path t s U NM P. apply brackets_scan. assert (Q : forall w, ~ In "["%char w /\ ~ In "]"%char w -> plain w) by (intros w [A B] c I; split; intros ->; contradiction).
  apply (usage_balanced T path t s U).
  - intros a A. specialize (NM a A). unfold mutex_of. destruct (a_kind a) as [r [[|x g]|]|]; try reflexivity. destruct NM.
  - intros a A. split; [|split].
    + intros n N. apply Q, P. right. left. eauto.
    + apply Q, P. right. left. eauto.
    + intros fs f FS F. split; [intros n N|]; apply Q, P; right; right; exists a, fs, f; auto.
  - intros w W. apply Q, P. left. exact W.
Qed.
Print Assumptions C277_matched_partial.
Example C277_sample : exists s, usage sample_texts [lit "pkm"] (Node (Some [flg [lit "-v"] None; opt [lit "-o"] None (Some [plus_level]); pos (lit "x") (Some [plus_f; plus_level])]) []) = Ok s /\
  s = lit "Usage: pkm [-v] [-o ZIP_PATH [+level=ZIP_PATH]] <x [-f] [+level=ZIP_PATH]>" /\ brackets 0 s = true.
Proof. eexists. split; [vm_compute; reflexivity|]. split; vm_compute; reflexivity. Qed.
(** an option with a field in such a group loses the bracket of the field *)
Theorem C277_group_refuted : exists t s, usage sample_texts [lit "pkm"] t = Ok s /\ s = lit "Usage: pkm [-a ZIP_PATH | -o ZIP_PATH [+level=ZIP_PATH]" /\ brackets 0 s = false.
Proof.
  exists (Node (Some [opt [lit "-a"] (Some (lit "g")) None; opt [lit "-o"] (Some (lit "g")) (Some [plus_level])]) []). eexists. split; [vm_compute; reflexivity|]. split; vm_compute; reflexivity.
Qed.

(** C278: the name of a type is shown in words of upper case with a line between them, cut where a lower letter meets an upper
    one and before the last of several upper letters that a lower one follows *)
Theorem C278_words : forall s, exists words, upper_snake_case s = join (lit "_") (map (map upper_char) words) /\ concat words = s /\ ~ In [] words /\
  forall a c d r, s = a ++ c :: d :: r ->
    ((exists w1 w2, words = w1 ++ w2 /\ concat w1 = a ++ [c]) <->
     (is_lower c = true /\ is_upper d = true) \/ (is_upper c = true /\ is_upper d = true /\ exists e r', r = e :: r' /\ is_lower e = true)).
Proof.
  intro s. exists (split_camel_case s). split; [reflexivity|]. destruct (camel_concat s) as [A B]. split; [exact A|]. split; [exact B|]. intros a c d r E. rewrite <- (camel_cut s a c d r E). unfold boundary. rewrite orb_true_iff, !andb_true_iff. split.
  - intros [H|[[H1 H2] H3]]; [left; exact H|right]. split; [exact H1|]. split; [exact H2|]. destruct r as [|e r']; [discriminate|]. eauto.
  - intros [H|(H1 & H2 & e & r' & -> & H3)]; [left; exact H|right]. auto.
Qed.
Print Assumptions C278_words.
Theorem C278_letters : forall c, (is_lower c = true -> is_upper (upper_char c) = true /\ nat_of_ascii (upper_char c) + 32 = nat_of_ascii c) /\ (is_lower c = false -> upper_char c = c).
Proof. intro c. destruct c as [[] [] [] [] [] [] [] []]; vm_compute; split; intro H; try discriminate H; try reflexivity; split; reflexivity. Qed.
Example C278_sample : map (fun s => upper_snake_case (lit s)) ["str"; "ZipPath"; "HTTPRequest"; "PDep3X"] = map lit ["STR"; "ZIP_PATH"; "HTTP_REQUEST"; "P_DEP3X"].
Proof. vm_compute. reflexivity. Qed.
