(** C191-C194: commands that are made of functions. *)
From Coq Require Import String Ascii List Bool NArith Arith Lia.
From Verif Require Import Base BaseFacts ParserModel MarkerModel MarkerProofs ProjectModel ProjectProofs CliModel CliProofs CliArgsProofs CliProps ContextModel MethodModel MethodProofs.
Import ListNotations.
Open Scope string_scope.
Open Scope nat_scope.
Open Scope list_scope.
Open Scope bool_scope.

(** *** C191: the names of the options *)
(** no name is given to two options *)
Theorem C191_distinct : forall args, NoDup args -> (forall a, In a args -> identifier a) -> NoDup (flat_map (fun kv => split_on "," (snd kv)) (option_names args)).
Proof.
  intros args N ID. destruct (raw_spec args N ID) as [D _]. unfold option_names. fold (raw_names args). rewrite flat_map_concat_map, map_map. cbn [snd].
  rewrite (map_ext_in _ snd), <- flat_map_concat_map; [exact D|]. intros kv I. exact (option_names_split args kv N ID I).
Qed.
(** a parameter of one letter is an option of that letter; any other has its name with dashes and perhaps one of its letters *)
Theorem C191_named : forall args a, NoDup args -> (forall x, In x args -> identifier x) -> In a args ->
  exists names rest, dict_get a (option_names args) = Some names /\
    split_on "," names = (if length a =? 1 then lit "-" ++ a else lit "--" ++ map (fun c => if Ascii.eqb c "_" then "-"%char else c) a) :: rest /\
    (rest = [] \/ exists c, In c a /\ is_alpha c = true /\ rest = [["-"%char; c]]).
Proof.
  intros args a N ID I. destruct (option_get args a N ID I) as (l & E & S & R). destruct (entry_cases args a l N ID R) as (_ & _ & C). exists (join (lit ",") l).
  destruct C as [[X ->]|[X [->|(c & C & A & ->)]]]; unfold single in X; rewrite X.
  - exists []. split; [exact E|]. split; [exact S|left; reflexivity].
  - exists []. split; [exact E|]. split; [exact S|left; reflexivity].
  - exists [["-"%char; c]]. split; [exact E|]. split; [exact S|right; eauto].
Qed.
Print Assumptions C191_distinct. Print Assumptions C191_named.
Example C191_sample : NoDup [lit "host"; lit "x"; lit "xx"; lit "dry_run"] /\ identifier (lit "dry_run") /\
  option_names [lit "host"; lit "x"; lit "xx"; lit "dry_run"] = [(lit "x", lit "-x"); (lit "host", lit "--host,-h"); (lit "xx", lit "--xx"); (lit "dry_run", lit "--dry-run,-d")].
Proof.
  split; [|split; [|vm_compute; reflexivity]].
  - repeat (apply NoDup_cons; [cbn; intuition discriminate|]). apply NoDup_nil.
  - split; [|reflexivity]. exists "d"%char, (lit "ry_run"). split; [reflexivity|left; reflexivity].
Qed.
Definition keyword (name : string) (t : cls) (d : val) : signature := Sig [] [] None false [lit name] (Some [(lit name, d)]) [(lit name, HClass t)].
(** an option may take "-h" away from the help *)
Theorem C191_help_refuted : run_method 50 (keyword "hard" CBool (VB false)) [lit "-h"] = Some (Ok (Called [(lit "hard", VB true)])) /\
  run_method 50 (keyword "soft" CBool (VB false)) [lit "-h"] = Some (Ok Helped).
Proof. split; vm_compute; reflexivity. Qed.
Print Assumptions C191_help_refuted.

(** *** C192: functions are called with what was given *)
(** the command of a function, wherever it is: a command line that is understood calls the function, and each parameter has the
    value of the argument of that name.  Missing: functions with other names or any number of arguments, below *)
Theorem C192_called_partial : forall g defs fuel root words r path values t, tidy_sig g -> definition g = Ok defs ->
  parse fuel root words = Some (Ok r) -> In (path, values) r -> node_at root path = Some t -> args_of t = defs ->
  exists bound, execution g values = Ok bound /\ map fst bound = g_args g ++ g_kwonly g /\
    forall p, In p (g_args g ++ g_kwonly g) -> exists v, dict_get p values = Some v /\ dict_get p bound = Some v.
Proof.
  intros g defs fuel root words r path values t T D P I NA A. pose proof (definition_fields g defs T D) as F. destruct (C58_whole fuel root words r path values P I) as (t' & NA' & W).
  rewrite NA in NA'. injection NA' as <-. rewrite A in W. pose proof T as (N & _ & L & _). pose proof (params_names g L) as PN.
  assert (V : forall p, In p (g_args g ++ g_kwonly g) -> exists v, dict_get p values = Some v).
  { intros p Ip. apply W. rewrite <- F in Ip. apply in_map_iff in Ip. destruct Ip as (a & E & Ia). exists a. split; [right; exact Ia|exact E]. }
  unfold execution. rewrite D. cbn [bind]. unfold call. rewrite F, PN.
  assert (X : forallb (fun kv : str * val => str_mem (fst kv) (g_args g ++ g_kwonly g)) (filter (fun kv => str_mem (fst kv) (g_args g ++ g_kwonly g)) values) = true).
  { apply forallb_forall. intros kv J. apply filter_In in J. exact (proj2 J). }
  rewrite X, orb_true_r.
  destruct (bind_spec (params g) (filter (fun kv => str_mem (fst kv) (g_args g ++ g_kwonly g)) values)) as (b & E & K & G).
  - intros p d J. left. assert (Ip : In p (g_args g ++ g_kwonly g)) by (rewrite <- PN; apply in_map_iff; exists (p, d); auto). rewrite dict_get_filter by exact Ip. destruct (V p Ip) as [v ->]. discriminate.
  - rewrite PN. exact N.
  - exists b. split; [exact E|]. split; [rewrite K; exact PN|]. intros p Ip. destruct (V p Ip) as [v Ev]. exists v. split; [exact Ev|].
    rewrite <- PN in Ip. apply in_map_iff in Ip. destruct Ip as ([q d] & Q & J). cbn in Q. subst q. rewrite (G p d J), dict_get_filter by (rewrite <- PN; apply in_map_iff; exists (p, d); auto). rewrite Ev. reflexivity.
Qed.
(** what is not given has the default of the function *)
Theorem C192_defaults : forall g defs p d, tidy_sig g -> definition g = Ok defs -> In (p, d) (params g) -> exists a, In a defs /\ a_field a = p /\ a_default a = d.
Proof.
  intros g defs p d T D I. unfold definition in D. destruct (kwonly_defs g) as [k|] eqn:K; [|discriminate]. cbn in D. injection D as <-. rewrite params_eq in I by apply T. apply in_app_or in I. destruct I as [I|I].
  - exists (Arg [dashes p] (reader_of (type_of g p)) d None (KPositional (Some 1))). split; [|split; [|reflexivity]].
    + apply in_or_app. left. unfold positional_defs. apply in_map_iff. exists (p, d). split; [reflexivity|exact I].
    + destruct T as (_ & T & _). unfold a_field. apply field_positional, T, in_or_app. left. exact (in_combine_l _ _ _ _ I).
  - apply in_map_iff in I. destruct I as (q & E & I). injection E as <- <-. unfold kwonly_defs in K. destruct (g_kwonly g) as [|x l] eqn:GK; [destruct I|]. unfold kwdefault. destruct (g_kwdefaults g) as [e|]; [|discriminate].
    assert (KE : k = map (kwonly_def g e) (x :: l)) by (injection K as <-; reflexivity). subst k. exists (kwonly_def g e q). split; [apply in_or_app; right; apply in_or_app; right; apply in_map; exact I|].
    split; [apply kwonly_field; [exact T|rewrite GK; exact I]|]. unfold kwonly_def. destruct (type_of g q) as [[]|], (dict_get q e) as [[|[]| | | |]|]; reflexivity.
Qed.
Print Assumptions C192_called_partial. Print Assumptions C192_defaults.
(** a value is read by the class of its parameter, of an optional one by the class that is not None; a keyword that is false unless
    it is given is a flag *)
Definition has_class (g : signature) (p : str) (c : cls) : Prop :=
  match dict_get p (g_types g) with
  | None => c = CStr
  | Some (HClass d) => c = d
  | Some (HUnion l) => exists a b, l = a ++ c :: b /\ c <> CNone /\ forall x, In x a -> x = CNone
  end.
Theorem C192_read : forall g defs p c, tidy_sig g -> definition g = Ok defs -> In p (g_args g ++ g_kwonly g) -> has_class g p c ->
  exists a, In a defs /\ a_field a = p /\
    (In p (g_kwonly g) -> c = CBool -> kwdefault g p = Some (VB false) -> a_reader a = RFlag) /\
    (In p (g_args g) \/ c <> CBool \/ kwdefault g p <> Some (VB false) -> a_reader a = RType (construct c)).
Proof.
  intros g defs p c T D I H. assert (TY : type_of g p = Some c).
  { unfold type_of. unfold has_class in H. destruct (dict_get p (g_types g)) as [[d|l]|]; [cbn; congruence| |congruence]. destruct H as (a & b & -> & C & N). cbn [adjust].
    induction a as [|x a IH]; cbn [app filter]; [destruct c; try reflexivity; contradiction|]. rewrite (N x (or_introl eq_refl)). cbn. apply IH. intros y Y. apply N. right. exact Y. }
  unfold definition in D. destruct (kwonly_defs g) as [k|] eqn:K; [|discriminate]. cbn in D. injection D as <-. pose proof T as (ND & TN & L & _). destruct (in_dec (list_eq_dec ascii_dec) p (g_args g)) as [IA|NA].
  - assert (CB : exists d, In (p, d) (combine (g_args g) (positional_defaults g))). { rewrite <- (map_fst_combine _ _ (g_args g) (positional_defaults g)) in IA by (symmetry; apply defaults_length, L). apply in_map_iff in IA. destruct IA as ([q d] & <- & J). exists d. exact J. }
    destruct CB as [d CB]. exists (Arg [dashes p] (reader_of (type_of g p)) d None (KPositional (Some 1))). split; [apply in_or_app; left; unfold positional_defs; apply in_map_iff; exists (p, d); split; [reflexivity|exact CB]|].
    split; [unfold a_field; apply field_positional, TN, I|]. cbn [a_reader]. rewrite TY. split; [|reflexivity]. intros IK. exfalso. clear -ND IA IK. induction (g_args g) as [|x l IH]; [destruct IA|]. cbn in ND. inversion ND; subst. destruct IA as [->|IA]; [apply H1; apply in_or_app; right; exact IK|auto].
  - assert (IK : In p (g_kwonly g)) by (apply in_app_or in I; destruct I as [I|I]; [contradiction|exact I]). unfold kwonly_defs in K. destruct (g_kwonly g) as [|x l] eqn:GK; [destruct IK|]. unfold kwdefault. destruct (g_kwdefaults g) as [e|]; [|discriminate].
    assert (KE : k = map (kwonly_def g e) (x :: l)) by (injection K as <-; reflexivity). subst k. exists (kwonly_def g e p). split; [apply in_or_app; right; apply in_or_app; right; apply in_map; exact IK|].
    split; [apply kwonly_field; [exact T|rewrite GK; exact IK]|]. unfold kwonly_def. rewrite TY. split.
    + intros _ -> V. rewrite V. reflexivity.
    + intros [X|[X|X]]; [contradiction| |]; destruct c, (dict_get p e) as [[|[]| | | |]|]; try reflexivity; contradiction.
Qed.
Print Assumptions C192_read.
Definition greet : signature := Sig [lit "name"; lit "my_arg"] [VS (lit "d")] None false [lit "force"; lit "host_name"] (Some [(lit "force", VB false); (lit "host_name", VNone)])
  [(lit "force", HClass CBool); (lit "host_name", HUnion [CStr; CNone])].
Lemma greet_tidy : tidy_sig greet.
Proof.
  split; [cbn; repeat (apply NoDup_cons; [cbn; intuition discriminate|]); apply NoDup_nil|]. split; [|split; [cbn; lia|reflexivity]].
  intros p [<-|[<-|[<-|[<-|[]]]]]; (split; [do 2 eexists; split; [reflexivity|reflexivity]|split; [reflexivity|cbn; repeat (split; [intros [A B]; discriminate|]); exact I]]).
Qed.
Example C192_sample : tidy_sig greet /\
  run_method 50 greet [lit "a"; lit "-f"; lit "b"] = Some (Ok (Called [(lit "name", VS (lit "a")); (lit "my_arg", VS (lit "b")); (lit "force", VB true); (lit "host_name", VNone)])) /\
  run_method 50 greet [lit "--host-name=q"; lit "b"] = Some (Ok (Called [(lit "name", VS (lit "b")); (lit "my_arg", VS (lit "d")); (lit "force", VB false); (lit "host_name", VS (lit "q"))])).
Proof. split; [exact greet_tidy|split; vm_compute; reflexivity]. Qed.
Example C192_read_sample : has_class greet (lit "name") CStr /\ has_class greet (lit "force") CBool /\ has_class greet (lit "host_name") CStr.
Proof. split; [reflexivity|split; [reflexivity|]]. exists [], [CNone]. split; [reflexivity|split; [discriminate|intros x []]]. Qed.
(** a function that takes any number of arguments cannot be called *)
Theorem C192_varargs_refuted : forall g a defs fuel root words r path values t, g_varargs g = Some a -> g_varkw g = false -> tidy_name a -> ~ In a (g_args g ++ g_kwonly g) ->
  length (g_defaults g) <= length (g_args g) -> definition g = Ok defs ->
  parse fuel root words = Some (Ok r) -> In (path, values) r -> node_at root path = Some t -> args_of t = defs -> execution g values = Err TypeError.
Proof.
  intros g a defs fuel root words r path values t VA VK T NI L D P I NA A. destruct (C58_whole fuel root words r path values P I) as (t' & NA' & W). rewrite NA in NA'. injection NA' as <-. rewrite A in W.
  assert (M : In a (map a_field defs)).
  { unfold definition in D. destruct (kwonly_defs g) as [k|]; [|discriminate]. cbn in D. injection D as <-. rewrite !map_app. apply in_or_app. right. apply in_or_app. left. unfold varargs_defs. rewrite VA. left. unfold a_field. apply field_positional, T. }
  assert (V : exists v, dict_get a values = Some v). { apply W. apply in_map_iff in M. destruct M as (x & E & J). exists x. split; [right; exact J|exact E]. }
  destruct V as [v V]. unfold execution. rewrite D. cbn [bind]. unfold call. rewrite VK, (params_names g L). cbn [orb].
  match goal with |- (if ?b then _ else _) = _ => destruct b eqn:X; [|reflexivity] end. exfalso. apply NI. rewrite forallb_forall in X. apply MethodProofs.str_mem_in'. apply (X (a, v)). apply filter_In. split; [exact (dict_get_in _ _ _ _ V)|]. apply MethodProofs.str_mem_in'. exact M.
Qed.
Print Assumptions C192_varargs_refuted.
Example C192_varargs_sample : run_method 50 (Sig [lit "x"] [] (Some (lit "files")) false [] None []) [lit "a"; lit "b"] = Some (Err TypeError).
Proof. vm_compute. reflexivity. Qed.
(** nor one whose keywords all have to be given, and its command cannot even be made *)
Theorem C192_required_refuted : forall g, g_kwonly g <> [] -> g_kwdefaults g = None -> definition g = Err AttributeError.
Proof. intros g K D. unfold definition, kwonly_defs. destruct (g_kwonly g); [contradiction|]. rewrite D. reflexivity. Qed.
Print Assumptions C192_required_refuted.
(** nor one with a parameter that begins with an underscore or has two of them in a row *)
Theorem C192_underscore_refuted : forall name, In name [lit "_x"; lit "a__b"] -> run_method 50 (Sig [name] [] None false [] None []) [lit "1"] = Some (Err TypeError).
Proof. intros name [<-|[<-|[]]]; vm_compute; reflexivity. Qed.
Print Assumptions C192_underscore_refuted.
(** "False" is true *)
Theorem C192_bool_refuted : run_method 50 (Sig [lit "check"] [VB true] None false [] None [(lit "check", HClass CBool)]) [lit "False"] = Some (Ok (Called [(lit "check", VB true)])).
Proof. vm_compute. reflexivity. Qed.
Print Assumptions C192_bool_refuted.
(** a parameter named help: whatever it is given, the help is shown *)
Theorem C192_help_refuted : run_method 50 (keyword "help" CStr VNone) [lit "--help"; lit "me"] = Some (Ok Helped).
Proof. vm_compute. reflexivity. Qed.
Print Assumptions C192_help_refuted.

(** *** C193: the documentation of the parameters *)
Lemma push_other : forall k sec, k <> [] -> dict_get k (push [] [] sec) = None.
Proof. intros k sec K. unfold push. change (strip []) with (@nil ascii). rewrite dict_get_set_other by exact K. reflexivity. Qed.
(** a text whose lines have a common margin *)
Definition doc_text (m : str) (desc : list str) (secs : list section) : str := join [lf] ([] :: map (app m) (desc ++ flat_map sec_lines secs) ++ [m]).
Theorem C193_documented_partial : forall m desc secs, forallb is_margin m = true -> NoDup (map s_key secs) ->
  (forall s, In s secs -> ~ In ":"%char (s_key s) /\ s_key s <> [] /\ trimmed (s_key s) /\ forall l, In l (s_more s) -> plain l) -> (forall l, In l desc -> plain l) ->
  (forall l, In l (desc ++ flat_map sec_lines secs) -> ~ In lf l /\ (blank l = true -> l = [])) ->
  (exists c r tl, desc ++ flat_map sec_lines secs = (c :: r) :: tl /\ is_space c = false) ->
  (exists i z d, desc ++ flat_map sec_lines secs = i ++ [z ++ [d]] /\ is_space d = false) ->
  (forall s, In s secs -> dict_get (s_key s) (parse_doc (doc_text m desc secs)) = Some (strip (s_text s ++ flat_map (fun l => lf :: l) (s_more s)))) /\
  dict_get [] (parse_doc (doc_text m desc secs)) = Some (strip (flat_map (fun l => lf :: l) desc)) /\
  forall k, ~ In k ([] :: map s_key secs) -> dict_get k (parse_doc (doc_text m desc secs)) = None.
Proof.
  intros m desc secs M N S D L (c & r & tl & HD & C) (i & z & d & LD & DD).
  assert (E : parse_doc (doc_text m desc secs) = fold_left (fun d s => dict_set (s_key s) (sec_text s) d) secs (push [] [] ([] ++ under desc))).
  { rewrite <- doc_sections by (intros s I; destruct (S s I) as (A1 & _ & A2 & A3); split; [exact A1|split; [apply strip_trimmed, A2|exact A3]]).
    rewrite <- doc_plain by exact D. unfold parse_doc. f_equal. unfold dedent, doc_text.
    set (lines := desc ++ flat_map sec_lines secs) in *.
    assert (LF : forall l, In l ([] :: map (app m) lines ++ [m]) -> ~ In lf l).
    { assert (ML : ~ In lf m). { intro I. rewrite forallb_forall in M. specialize (M _ I). discriminate. }
      intros l [<-|I]; [intros []|]. apply in_app_or in I. destruct I as [I|[<-|[]]]; [|exact ML]. apply in_map_iff in I. destruct I as (x & <- & I). intro J. apply in_app_or in J. destruct J as [J|J]; [exact (ML J)|exact (proj1 (L x I) J)]. }
    rewrite split_join by (exact LF || discriminate). rewrite dedent_indented.
    - assert (NE : lines <> []) by (rewrite HD; discriminate). rewrite join_pad by exact NE.
      assert (J1 : exists j, join [lf] lines = c :: j). { rewrite HD. destruct tl as [|x tl]; [exists r; reflexivity|]. rewrite join_lf_cons by discriminate. eexists. reflexivity. }
      assert (J2 : exists j, join [lf] lines = j ++ [d]).
      { rewrite LD. clear. induction i as [|x i [j IH]]; [exists z; reflexivity|]. cbn [app]. rewrite join_lf_cons by (destruct i; discriminate). rewrite IH. exists (x ++ lf :: j). rewrite <- app_assoc. reflexivity. }
      destruct J1 as [j1 J1], J2 as [j2 J2].
      rewrite strip_pad; [|reflexivity|reflexivity|rewrite J1; discriminate|].
      + apply splitlines_join; [exact NE|intros l I; exact (proj1 (L l I))|]. rewrite LD, last_last. destruct z; discriminate.
      + apply strip_trimmed. rewrite J1. split; [exact C|]. rewrite <- J1, J2, last_last. exact DD.
    - exact M.
    - intros l I. exact (proj2 (L l I)).
    - exists c, r. split; [|rewrite HD; left; reflexivity]. destruct (is_margin c) eqn:X; [|reflexivity]. apply margin_space in X. congruence. }
  rewrite E. destruct (fold_sections secs (push [] [] ([] ++ under desc)) N) as [F1 F2]. split; [exact F1|]. split.
  - rewrite F2; [reflexivity|]. intro I. apply in_map_iff in I. destruct I as (s & Q & I). destruct (S s I) as (_ & X & _). contradiction.
  - intros k K. rewrite F2 by (intro I; apply K; right; exact I). apply push_other. intros ->. apply K. left. reflexivity.
Qed.
Print Assumptions C193_documented_partial.
Definition sample_desc : list str := [lit "does this"; []; lit "and that"].
Definition sample_secs : list section := [Section (lit "x") (lit " the x") [lit "   is good"]; Section (lit "y") (lit " the y") []].
Example C193_sample : parse_doc (doc_text (lit "    ") sample_desc sample_secs) =
    [([], join [lf] sample_desc); (lit "x", join [lf] [lit "the x"; lit "   is good"]); (lit "y", lit "the y")] /\   (forall s, In s sample_secs -> ~ In ":"%char (s_key s) /\ s_key s <> [] /\ trimmed (s_key s) /\ forall l, In l (s_more s) -> plain l) /\
  (forall l, In l (sample_desc ++ flat_map sec_lines sample_secs) -> ~ In lf l /\ (blank l = true -> l = [])) /\
  (exists c r tl, sample_desc ++ flat_map sec_lines sample_secs = (c :: r) :: tl /\ is_space c = false) /\
  (exists i z d, sample_desc ++ flat_map sec_lines sample_secs = i ++ [z ++ [d]] /\ is_space d = false).
Proof.
  split; [vm_compute; reflexivity|]. split; [|split; [|split]].
  - intros s [<-|[<-|[]]]; (split; [cbn; intuition discriminate|split; [discriminate|split; [split; reflexivity|]]]); [intros l [<-|[]]; split; reflexivity|intros l []].
  - intros l I. cbn in I. destruct I as [<-|[<-|[<-|[<-|[<-|[<-|[]]]]]]]; (split; [cbn; intuition discriminate|intro B; try reflexivity; discriminate B]).
  - do 3 eexists. split; reflexivity.
  - exists (sample_desc ++ removelast (flat_map sec_lines sample_secs)), (lit ":param y: the "), "y"%char. split; reflexivity.
Qed.
(** a text that begins right after the quotes, as most do, documents no parameter *)
Theorem C193_first_line_refuted : forall c first rest, is_space c = false -> plain (c :: first) -> (forall l, In l ((c :: first) :: rest) -> ~ In lf l) ->
  (forall l, In l rest -> blank l = true \/ exists i r, l = i :: r /\ is_margin i = true) -> forall k, k <> [] -> dict_get k (parse_doc (join [lf] ((c :: first) :: rest))) = None.
Proof.
  intros c first rest C P LF R k K. unfold parse_doc, dedent. rewrite split_join by (exact LF || discriminate).
  assert (MC : is_margin c = false). { destruct (is_margin c) eqn:X; [|reflexivity]. apply margin_space in X. congruence. }
  assert (MG : margin ((c :: first) :: rest) = []).
  { apply margin_spec; [reflexivity|intros l _; right; exists l; reflexivity|]. exists c, first. split; [exact MC|left; reflexivity]. }
  unfold dedent_lines. rewrite MG. cbn [map length skipn]. assert (BC : blank (c :: first) = false) by (unfold blank; cbn; rewrite MC; reflexivity). rewrite BC.
  set (rest' := map (fun l => if blank l then [] else l) rest).
  assert (R' : forall l, In l rest' -> (l = [] \/ exists i r, l = i :: r /\ is_margin i = true) /\ ~ In lf l).
  { intros l I. apply in_map_iff in I. destruct I as (x & <- & I). destruct (blank x) eqn:B; [split; [left; reflexivity|intros []]|]. split; [|apply LF; right; exact I]. destruct (R x I) as [X|X]; [congruence|right; exact X]. }
  assert (PL : forall l, In l (splitlines (strip (join [lf] ((c :: first) :: rest')))) -> plain l).
  { assert (ST : exists q, join [lf] ((c :: first) :: rest') = strip (join [lf] ((c :: first) :: rest')) ++ q).
    { assert (J : exists j, join [lf] ((c :: first) :: rest') = c :: j) by (destruct rest'; [exists first; reflexivity|rewrite join_lf_cons by discriminate; eexists; reflexivity]). destruct J as [j J]. rewrite J. unfold strip. cbn [span]. rewrite C. cbn [snd].
      pose proof (span_split is_space (rev (c :: j))) as SS. destruct (span is_space (rev (c :: j))) as [u v]. destruct (SS u v eq_refl) as (E & _ & _). exists (rev u). cbn [snd]. rewrite <- rev_app_distr, <- E, rev_involutive. reflexivity. }
    destruct ST as [q ST]. set (p := strip (join [lf] ((c :: first) :: rest'))) in *. clearbody p.
    assert (IN : forall l, In l (splitlines p) -> In l (split_on lf p)).
    { intros l I. unfold splitlines in I. destruct p as [|x p]; [destruct I|]. set (sl := split_on lf (x :: p)) in *. clearbody sl. cbv zeta in I. destruct (last sl []); [|exact I]. clear -I. induction sl as [|a sl IH]; [destruct I|]. cbn in I. destruct sl; [destruct I|]. destruct I as [I|I]; [left; exact I|right; exact (IH I)]. }
    intros l I. apply IN in I. destruct (split_prefix lf p q) as (i & w & h & t & A & B & E). rewrite <- ST, split_join in E; [|discriminate|intros x [<-|X]; [apply LF; left; reflexivity|exact (proj2 (R' x X))]].
    assert (PRE : exists l' s, l ++ s = l' /\ In l' ((c :: first) :: rest')).
    { rewrite E. rewrite A in I. apply in_app_or in I. destruct I as [I|[<-|[]]]; [exists l, []; split; [apply app_nil_r|apply in_or_app; left; exact I]|exists (w ++ h), h; split; [reflexivity|apply in_or_app; right; left; reflexivity]]. }
    destruct PRE as (l' & s & Q & I').
    assert (PP : plain l' -> plain l).
    { intros [P1 P2]. split; [destruct (starts_with (lit ":param ") l) eqn:X; [|reflexivity]; rewrite <- P1|destruct (starts_with (lit ":return:") l) eqn:X; [|reflexivity]; rewrite <- P2]; apply starts_with_iff in X; destruct X as [y ->]; rewrite <- Q, <- app_assoc; symmetry; apply starts_with_app. }
    apply PP. destruct I' as [<-|I']; [exact P|]. destruct (R' l' I') as [[->|(ic & ir & -> & IM)] _]; [split; reflexivity|]. unfold is_margin in IM. apply orb_true_iff in IM. destruct IM as [IM|IM]; apply Ascii.eqb_eq in IM; subst ic; split; reflexivity. }
  rewrite <- (app_nil_r (splitlines _)). rewrite doc_plain by exact PL. apply push_other. exact K.
Qed.
Print Assumptions C193_first_line_refuted.
Example C193_first_line_sample : parse_doc (join [lf] [lit "does this"; []; lit "    :param x: the x"; lit "    "]) = [([], join [lf] [lit "does this"; []; lit "    :param x: the x"])].
Proof. vm_compute. reflexivity. Qed.

(** *** C194: arguments of a task *)
(** a word that gives a parameter its value *)
Inductive gives : str -> str -> str -> Prop :=
| gives_plain : forall k v, ~ In "="%char k -> starts_with (lit "--") k = false -> gives (k ++ lit "=" ++ v) k v
| gives_dashes : forall k v, ~ In "="%char k -> gives (lit "--" ++ k ++ lit "=" ++ v) k v
| gives_flag : forall k, ~ In "="%char k -> gives (lit "--" ++ k) k (lit "True").
Lemma split_eq_app : forall k v, ~ In "="%char k -> split_eq (k ++ "="%char :: v) = (k, Some v).
Proof.
  induction k as [|c k IH]; intros v H; [reflexivity|]. cbn. destruct (Ascii.eqb c "=") eqn:E; [apply Ascii.eqb_eq in E; subst; exfalso; apply H; left; reflexivity|]. rewrite IH; [reflexivity|]. intro I. apply H. right. exact I.
Qed.
Lemma split_eq_none : forall k, ~ In "="%char k -> split_eq k = (k, None).
Proof.
  induction k as [|c k IH]; intros H; [reflexivity|]. cbn. destruct (Ascii.eqb c "=") eqn:E; [apply Ascii.eqb_eq in E; subst; exfalso; apply H; left; reflexivity|]. rewrite IH; [reflexivity|]. intro I. apply H. right. exact I.
Qed.
Lemma contains_eq : forall s, contains (lit "=") s = true <-> In "="%char s.
Proof.
  induction s as [|c s IH]; [split; [discriminate|intros []]|]. cbn [contains]. rewrite orb_true_iff, IH. cbn [lit list_ascii_of_string starts_with]. rewrite andb_true_r. split.
  - intros [H|H]; [left; apply Ascii.eqb_eq in H; congruence|right; exact H].
  - intros [<-|H]; [left; apply Ascii.eqb_refl|right; exact H].
Qed.
Lemma parse_named : forall a d w k v rest, gives w k v -> cli_parse a d (w :: rest) = cli_parse a (dict_set k v d) rest.
Proof.
  intros a d w k v rest G. cbn [cli_parse]. destruct G as [k v K S|k v K|k K].
  - assert (S' : starts_with (lit "--") (k ++ lit "=" ++ v) = false).
    { destruct (starts_with (lit "--") (k ++ lit "=" ++ v)) eqn:X; [|reflexivity]. apply starts_with_iff in X. destruct X as [r X]. cbn in X. destruct k as [|x [|y k]]; cbn in X; try discriminate. injection X as -> -> _. cbn in S. discriminate. }
    rewrite S'. change (k ++ lit "=" ++ v) with (k ++ "="%char :: v). rewrite split_eq_app by exact K. reflexivity.
  - rewrite starts_with_app. assert (X : contains (lit "=") (lit "--" ++ k ++ lit "=" ++ v) = true) by (apply contains_eq; apply in_or_app; right; apply in_or_app; right; left; reflexivity). rewrite X.
    change (skipn 2 (lit "--" ++ k ++ lit "=" ++ v)) with (k ++ "="%char :: v). rewrite split_eq_app by exact K. reflexivity.
  - rewrite starts_with_app. assert (X : contains (lit "=") (lit "--" ++ k) = false). { destruct (contains (lit "=") (lit "--" ++ k)) eqn:X; [|reflexivity]. apply contains_eq in X. cbn in X. destruct X as [X|[X|X]]; try discriminate. contradiction. }
    rewrite X. change (skipn 2 (lit "--" ++ k) ++ lit "=True") with (k ++ "="%char :: lit "True"). rewrite split_eq_app by exact K. reflexivity.
Qed.
(** the words without a name come first and are kept in order; each other word gives its parameter its value, the last one counts *)
Theorem C194_parsed_partial : forall words named, (forall w, In w words -> ~ In "="%char w /\ starts_with (lit "--") w = false) ->
  Forall (fun x => gives (fst x) (fst (snd x)) (snd (snd x))) named ->
  cli_parse [] [] (words ++ map fst named) = Ok (words, fold_left (fun d kv => dict_set (fst kv) (snd kv) d) (map snd named) []).
Proof.
  assert (NM : forall named a d, Forall (fun x => gives (fst x) (fst (snd x)) (snd (snd x))) named -> cli_parse a d (map fst named) = Ok (a, fold_left (fun d kv => dict_set (fst kv) (snd kv) d) (map snd named) d)).
  { induction named as [|[w [k v]] named IH]; intros a d F; [reflexivity|]. inversion F as [|x y G F']; subst. cbn [map fst snd fold_left]. rewrite (parse_named a d w k v _ G). apply IH. exact F'. }
  intros words named W F. enough (X : forall a, cli_parse a [] (words ++ map fst named) = Ok (a ++ words, fold_left (fun d kv => dict_set (fst kv) (snd kv) d) (map snd named) [])) by exact (X []).
  induction words as [|w words IH]; intro a.
  - rewrite app_nil_r. cbn [app]. apply NM. exact F.
  - destruct (W w (or_introl eq_refl)) as [E S]. cbn [app cli_parse]. rewrite S, split_eq_none by exact E. rewrite IH by (intros; apply W; right; assumption). rewrite <- app_assoc. reflexivity.
Qed.
(** a word without a name after one with a name is refused *)
Theorem C194_order : forall a k v d w rest, ~ In "="%char w -> starts_with (lit "--") w = false -> cli_parse a ((k, v) :: d) (w :: rest) = Err UnsupportedOperation.
Proof. intros a k v d w rest E S. cbn [cli_parse]. rewrite S, split_eq_none by exact E. reflexivity. Qed.
(** a function that is called has for each parameter the value of its word, the named value or its default *)
Theorem C194_called_partial : forall g args kwargs bound, NoDup (g_args g ++ g_kwonly g) -> length (g_defaults g) <= length (g_args g) -> g_varkw g = false -> length args <= length (g_args g) -> NoDup (map fst kwargs) ->
  invoke g args kwargs = Ok bound -> map fst bound = g_args g ++ g_kwonly g /\
  (forall i p w, nth_error (g_args g) i = Some p -> nth_error args i = Some w -> exists v, convert g p w = Ok v /\ dict_get p bound = Some v) /\
  (forall k w, In (k, w) kwargs -> In k (g_args g ++ g_kwonly g) /\ exists v, convert g k w = Ok v /\ dict_get k bound = Some v) /\
  (forall p d, In (p, d) (params g) -> ~ In p (firstn (length args) (g_args g)) -> ~ In p (map fst kwargs) -> dict_get p bound = d).
Proof.
  assert (CV : forall g l r, convert_all g l = Ok r -> NoDup (map fst l) -> map fst r = map fst l /\ forall n s, In (n, s) l -> exists v, convert g n s = Ok v /\ dict_get n r = Some v).
  { intros g. induction l as [|[n s] l IH]; intros r H N; [injection H as <-; split; [reflexivity|intros n s []]|]. cbn in H. destruct (convert g n s) as [v|] eqn:V; [|discriminate]. cbn in H. destruct (convert_all g l) as [rest|]; [|discriminate]. cbn in H. injection H as <-.
    inversion N as [|x y N1 N2]; subst. destruct (IH rest eq_refl N2) as [A B]. split; [cbn; rewrite A; reflexivity|]. intros m t [E|I].
    - injection E as <- <-. exists v. split; [exact V|]. cbn. rewrite str_eqb_refl. reflexivity.
    - destruct (B m t I) as (u & U1 & U2). exists u. split; [exact U1|]. cbn. destruct (str_eqb m n) eqn:Q; [|exact U2]. apply str_eqb_eq in Q. subst m. exfalso. apply N1. apply in_map_iff. exists (n, t). auto. }
  assert (CF : forall (a : list str) (b : list str), length b <= length a -> map fst (combine a b) = firstn (length b) a).
  { induction a as [|x a IH]; intros [|y b] L; try reflexivity. cbn in *. f_equal. apply IH. lia. }
  assert (AP : forall (d1 d2 : list (str * val)) k, dict_get k (d1 ++ d2) = match dict_get k d1 with Some v => Some v | None => dict_get k d2 end).
  { induction d1 as [|[x v] d1 IH]; intros d2 k; [reflexivity|]. cbn. destruct (str_eqb k x); [reflexivity|apply IH]. }
  intros g args kwargs bound N L VK LA NK H. unfold invoke in H. destruct (convert_all g (combine (g_args g) args)) as [a|] eqn:A; [|discriminate]. cbn [bind] in H. destruct (convert_all g kwargs) as [k|] eqn:K; [|discriminate]. cbn [bind] in H.
  assert (NA : NoDup (map fst (combine (g_args g) args))).
  { rewrite CF by exact LA. assert (X : NoDup (g_args g)). { clear -N. induction (g_args g) as [|x l IH]; [constructor|]. inversion N; subst. constructor; [intro I; apply H1; apply in_or_app; left; exact I|apply IH; assumption]. }
    rewrite <- (firstn_skipn (length args) (g_args g)) in X. clear -X. induction (firstn (length args) (g_args g)) as [|x l IH]; [constructor|]. inversion X; subst. constructor; [intro I; apply H1; apply in_or_app; left; exact I|apply IH; assumption]. }
  destruct (CV g _ a A NA) as [A1 A2]. destruct (CV g _ k K NK) as [K1 K2]. rewrite CF in A1 by exact LA.
  unfold call_with in H. destruct (existsb (fun kv => dict_has (fst kv) a) k) eqn:DUP; [discriminate|]. unfold call in H. rewrite VK, (params_names g L) in H. cbn [orb] in H.
  match type of H with (if ?b then _ else _) = _ => destruct b eqn:KNOWN; [|discriminate] end.
  destruct (bind_sound (params g) (a ++ k) bound H) as [B1 B2]; [rewrite (params_names g L); exact N|]. rewrite (params_names g L) in B1.
  assert (PB : forall p, In p (g_args g ++ g_kwonly g) -> exists d, In (p, d) (params g)). { intros p I. rewrite <- (params_names g L) in I. apply in_map_iff in I. destruct I as ([q d] & <- & I). exists d. exact I. }
  split; [exact B1|]. split; [|split].
  - intros i p w P W. assert (IC : In (p, w) (combine (g_args g) args)). { clear -P W. revert i args P W. induction (g_args g) as [|x l IH]; intros [|i] [|y args] P W; try discriminate; cbn in *; [left; congruence|right; eauto]. }
    destruct (A2 p w IC) as (v & V1 & V2). exists v. split; [exact V1|]. destruct (PB p) as [d D]; [apply in_or_app; left; exact (in_combine_l _ _ _ _ IC)|]. rewrite (B2 p d D), AP, V2. reflexivity.
  - intros n w I. destruct (K2 n w I) as (v & V1 & V2).
    assert (IP : In n (g_args g ++ g_kwonly g)). { rewrite forallb_forall in KNOWN. apply MethodProofs.str_mem_in'. apply (KNOWN (n, v)). apply in_or_app. right. exact (dict_get_in _ _ _ _ V2). }
    split; [exact IP|]. exists v. split; [exact V1|]. destruct (PB n IP) as [d D]. rewrite (B2 n d D), AP.
    assert (NA2 : dict_get n a = None). { destruct (dict_get n a) as [u|] eqn:U; [|reflexivity]. exfalso. assert (X : existsb (fun kv => dict_has (fst kv) a) k = true) by (apply existsb_exists; exists (n, v); split; [exact (dict_get_in _ _ _ _ V2)|unfold dict_has; cbn; rewrite U; reflexivity]). congruence. }
    rewrite NA2, V2. reflexivity.
  - intros p d D NP NQ. rewrite (B2 p d D), AP. rewrite <- A1 in NP. rewrite <- K1 in NQ. rewrite (proj2 (dict_get_none _ p a) NP), (proj2 (dict_get_none _ p k) NQ). reflexivity.
Qed.
Print Assumptions C194_parsed_partial. Print Assumptions C194_order. Print Assumptions C194_called_partial.
Definition two : signature := Sig [lit "a"; lit "b"] [VS (lit "d")] None false [lit "dry_run"] (Some [(lit "dry_run", VB false)]) [(lit "dry_run", HClass CBool)].
Example C194_sample : gives (lit "--dry_run") (lit "dry_run") (lit "True") /\ gives (lit "b=2") (lit "b") (lit "2") /\
  cli_call two [lit "1"; lit "b=2"; lit "--dry_run"] = Ok [(lit "a", VS (lit "1")); (lit "b", VS (lit "2")); (lit "dry_run", VB true)] /\
  cli_call two [lit "b=2"; lit "1"] = Err UnsupportedOperation /\ cli_call two [] = Err TypeError.
Proof.
  split; [apply (gives_flag (lit "dry_run")); cbn; intuition discriminate|]. split; [apply (gives_plain (lit "b") (lit "2")); [cbn; intuition discriminate|reflexivity]|]. repeat split; vm_compute; reflexivity.
Qed.
(** words beyond the parameters are dropped, even if the function takes any number of them *)
Theorem C194_surplus_refuted : forall g args more kwargs, length args = length (g_args g) -> invoke g (args ++ more) kwargs = invoke g args kwargs.
Proof.
  intros g args more kwargs L. unfold invoke. replace (combine (g_args g) (args ++ more)) with (combine (g_args g) args); [reflexivity|]. revert args L. induction (g_args g) as [|x l IH]; intros [|y args] L; try discriminate; [reflexivity|]. cbn. f_equal. apply IH. injection L as L. exact L.
Qed.
(** a name with dashes is not understood, a word with "=" is never a plain value, and "False" is true *)
Theorem C194_words_refuted : cli_call two [lit "1"; lit "--dry-run"] = Err TypeError /\ cli_call two [lit "x=1"] = Err TypeError /\
  cli_call two [lit "1"; lit "--dry_run=False"] = Ok [(lit "a", VS (lit "1")); (lit "b", VS (lit "d")); (lit "dry_run", VB true)].
Proof. repeat split; vm_compute; reflexivity. Qed.
Print Assumptions C194_surplus_refuted. Print Assumptions C194_words_refuted.
