(** Properties of the command line parser. *)
From Coq Require Import String Ascii List Bool NArith Arith Lia.
From Verif Require Import Base ParserModel ProjectModel CliModel CliSpec CliProofs CliArgsProofs CliFillProofs.
Import ListNotations.
Open Scope string_scope.
Open Scope nat_scope.
Open Scope list_scope.
Open Scope bool_scope.

(** a command line like that of pkm *)
Definition text : reader := RType (fun s => Ok (VS s)).
Definition ex_verbose : argdef := Arg [lit "-v"; lit "--verbose"] RFlag (Some (VB false)) None (KOption false None).
Definition ex_force : argdef := Arg [lit "-f"; lit "--force"] RFlag (Some (VB false)) None (KOption false (Some (lit "m"))).
Definition ex_mode : argdef := Arg [lit "-m"; lit "--mode"] (RChoices [lit "copy"; lit "link"]) (Some (VS (lit "copy"))) None (KOption false (Some (lit "m"))).
Definition ex_package : argdef := Arg [lit "package"] text None (Some [Sub [lit "+extras"] text (Some VNone)]) (KPositional (Some 1)).
Definition ex_build : list argdef := [Arg [lit "-o"; lit "--only"] text (Some VNone) None (KOption true None); Arg [lit "dirs"] text (Some (VL [])) None (KPositional None)].
Definition ex_install : list argdef := [ex_force; ex_mode; ex_package].
Definition ex_commands : list (list str * list argdef) :=
  [([], [ex_verbose]); ([lit "install"], ex_install); ([lit "build"], ex_build)].
Definition ex_root : ast := create ex_commands.
Definition ex_args : list str := [lit "-v"; lit "install"; lit "--mode=link"; lit "foo"; lit "+extras"; lit "x"].

(** C58: a command line without empty words, lone dashes and values for flags is understood exactly when every word
    belongs to a use of a declared command, option, field or positional, and then in that way. *)
Theorem C58_understood_partial : forall root args r, simple root -> clean root args ->
  ((exists fuel, parse fuel root args = Some (Ok r)) <-> explains (start root) args r).
Proof.
  intros root args r S C. split.
  - intros (fuel & H). exact (parse_sound root fuel (start root) args r S (within_root root) C H).
  - intro H. destruct (parse_complete root (start root) args r S (within_root root) C H) as (n & X). exists n. apply X. apply Nat.le_refl.
Qed.
Lemma ex_nodes : forall t, within ex_root t -> t = ex_root \/ t = Node (Some ex_install) [] \/ t = Node (Some ex_build) [].
Proof.
  intros t W. induction W as [|t n c W IH I]; [left; reflexivity|]. destruct IH as [->|[->| ->]].
  - destruct I as [X|[X|[]]]; injection X as <- <-; right; [left|right]; reflexivity.
  - destruct I.
  - destruct I.
Qed.
Lemma ex_simple : simple ex_root.
Proof.
  intros t W a I. apply ex_nodes in W. destruct W as [->|[->| ->]]; cbn in I;
    repeat (destruct I as [<-|I]; [cbn; try (intros _; split; reflexivity); try discriminate|]); contradiction.
Qed.
Lemma ex_flags : forall n, flag_option ex_root n -> In n [lit "-h"; lit "--help"; lit "-v"; lit "--verbose"; lit "-f"; lit "--force"].
Proof.
  intros n (o & D & F & I). destruct D as [->|(t & W & J)].
  - cbn in I. destruct I as [<-|[<-|[]]]; cbn; auto.
  - apply ex_nodes in W. destruct W as [->|[->| ->]]; cbn in J; repeat (destruct J as [<-|J]; [try discriminate F; cbn in I; destruct I as [<-|[<-|[]]]; cbn; auto 8|]); contradiction.
Qed.
Lemma ex_flag_fields : forall n, ~ flag_field ex_root n.
Proof.
  intros n (t & a & fs & f & W & J & E & I & F & _). apply ex_nodes in W.
  destruct W as [->|[->| ->]]; cbn in J; repeat (destruct J as [<-|J]; [try discriminate E; injection E as <-; destruct I as [<-|[]]; discriminate F|]); contradiction.
Qed.
Lemma ex_clean : clean ex_root ex_args.
Proof.
  intros w I. assert (NE : w <> []) by (repeat (destruct I as [<-|I]; [discriminate|]); contradiction). split; [exact NE|].
  intros key raw (k & N & <- & D). pose proof (partition_complete k w raw N D) as P. clear N D.
  repeat (destruct I as [<-|I]; [vm_compute in P; injection P as <- <-; split; [vm_compute; intros _; discriminate|]; try (intro X; contradiction X; reflexivity)|]); [|contradiction].
  intros _. split; [|split].
  - intro X. apply ex_flags in X. vm_compute in X. repeat (destruct X as [X|X]; [discriminate|]). exact X.
  - apply ex_flag_fields.
  - intros l c E X. apply ex_flags in X. assert (c = "e"%char). { vm_compute in E. injection E as E. assert (R : rev (l ++ [c]) = rev ["-"%char; "m"%char; "o"%char; "d"%char; "e"%char]) by (f_equal; symmetry; exact E). rewrite rev_app_distr in R. injection R as -> _. reflexivity. }
    subst c. vm_compute in X. repeat (destruct X as [X|X]; [discriminate|]). exact X.
Qed.
Example C58_understood_example : simple ex_root /\ clean ex_root ex_args /\ parse 20 ex_root ex_args = Some (Ok
  [([lit "install"], [(lit "mode", VS (lit "link")); (lit "package", VD [(lit "value", VS (lit "foo")); (lit "extras", VS (lit "x"))]); (lit "help", VB false); (lit "force", VB false)]);
   ([], [(lit "verbose", VB true); (lit "help", VB false)])]).
Proof. split; [exact ex_simple|]. split; [exact ex_clean|]. vm_compute. reflexivity. Qed.

(** C58: parsing ends on all command lines. *)
Theorem C58_ends_partial : forall root args, simple root -> exists n r, forall fuel, n <= fuel -> parse fuel root args = Some r.
Proof.
  intros root args S. exact (parse_ends root S (buffer_size args) (length (positionals root)) (start root) args (within_root root) (Nat.le_refl _) (Nat.le_sub_l _ _)).
Qed.
Example C58_ends_example : simple ex_root /\ parse 20 ex_root [lit "install"; lit "-vx"] = Some (Err IOErr).
Proof. split; [exact ex_simple|]. vm_compute. reflexivity. Qed.

(** C58: the command at a path is the last one defined for it. *)
Theorem C58_commands : forall commands path d,
  def_at (create commands) path = Some d <-> exists a b, commands = a ++ (path, d) :: b /\ forall c, In c b -> fst c <> path.
Proof.
  intros commands path d. split.
  - intro H.
    assert (X : (exists a e b, commands = a ++ (path, e) :: b /\ forall c, In c b -> fst c <> path) \/ forall c, In c commands -> fst c <> path).
    { clear H. induction commands as [|[p e] l IH]; [right; intros c []|]. destruct IH as [(a & e' & b & -> & X)|X].
      - left. exists ((p, e) :: a), e', b. split; [reflexivity|exact X].
      - destruct (list_eq_dec (list_eq_dec ascii_dec) p path) as [->|N].
        + left. exists [], e, l. split; [reflexivity|exact X].
        + right. intros c [<-|I]; [exact N|exact (X c I)]. }
    destruct X as [(a & e & b & E & X)|X].
    + rewrite (proj1 (create_def commands path) a e b E X) in H. injection H as <-. exists a, b. auto.
    + rewrite (proj2 (create_def commands path) X) in H. discriminate.
  - intros (a & b & E & X). exact (proj1 (create_def commands path) a d b E X).
Qed.
Example C58_commands_example : def_at ex_root [lit "install"] = Some ex_install /\ def_at ex_root [lit "foo"] = None.
Proof. split; reflexivity. Qed.

(** C58: every command that is understood has a value for every argument it declares, and no other. *)
Theorem C58_whole : forall fuel root args r path values, parse fuel root args = Some (Ok r) -> In (path, values) r ->
  exists t, node_at root path = Some t /\
    forall f, (exists v, dict_get f values = Some v) <-> exists a, In a (help_flag :: args_of t) /\ a_field a = f.
Proof.
  intros fuel root args r path values H I. pose proof (parse_whole root fuel _ _ _ (start_fine root) H) as F.
  rewrite Forall_forall in F. exact (F _ I).
Qed.
Example C58_whole_example : exists r, parse 20 ex_root ex_args = Some (Ok r) /\ length r = 2.
Proof. eexists. split; vm_compute; reflexivity. Qed.

(** C58: a command can be finished exactly when all that was not given has a default and no two options of a group were
    given; what was given is kept, the rest has its default. *)
Theorem C58_defaults_partial : forall s, NoDup (map a_field (help_flag :: args_of (t_node s))) ->
  (forall i a, nth_error (positionals (t_node s)) i = Some a -> (given a (t_args s) <-> i < t_index s)) ->
  (forall args, finalize s = Ok args -> forall a, In a (help_flag :: args_of (t_node s)) ->
     dict_get (a_field a) args = match dict_get (a_field a) (t_args s) with Some v => Some v | None => a_default a end) /\
  ((exists args, finalize s = Ok args) <->
     (forall a, In a (help_flag :: args_of (t_node s)) -> ~ given a (t_args s) -> a_default a <> None) /\
     NoDup (groups (args_of (t_node s)) (t_args s))).
Proof. exact finalize_defaults. Qed.
Definition ex_state (args : list (str * val)) (i : nat) : state := St (Node (Some ex_install) []) [lit "install"] args i [].
Example C58_defaults_example :
  NoDup (map a_field (help_flag :: ex_install)) /\
  (let s := ex_state [(lit "package", VS (lit "foo")); (lit "force", VB true)] 1 in
   (forall i a, nth_error (positionals (t_node s)) i = Some a -> (given a (t_args s) <-> i < t_index s)) /\ exists args, finalize s = Ok args) /\
  finalize (ex_state [(lit "force", VB true)] 0) = Err IOErr /\
  finalize (ex_state [(lit "package", VS (lit "foo")); (lit "force", VB true); (lit "mode", VS (lit "link"))] 1) = Err IOErr.
Proof.
  split; [|split; [split|split]].
  - assert (E : map a_field (help_flag :: ex_install) = [lit "help"; lit "force"; lit "mode"; lit "package"]) by (vm_compute; reflexivity).
    rewrite E. repeat (apply NoDup_cons; [cbn; intuition discriminate|]). apply NoDup_nil.
  - intros i a G. destruct i as [|i].
    + injection G as <-. split; [intros _; cbn; lia|intros _; vm_compute; discriminate].
    + destruct i; discriminate G.
  - eexists. vm_compute. reflexivity.
  - vm_compute. reflexivity.
  - vm_compute. reflexivity.
Qed.

(** C58 fails: the words behind an empty one are dropped, even an unknown option. *)
Theorem C58_empty_word_refuted : exists root a b r, simple root /\ parse 20 root (a ++ [[]] ++ b) = parse 20 root a /\ parse 20 root a = Some (Ok r) /\
  b = [lit "--unknown"].
Proof.
  exists ex_root, [lit "install"; lit "foo"], [lit "--unknown"]. eexists. split; [exact ex_simple|]. split; [vm_compute; reflexivity|]. split; vm_compute; reflexivity.
Qed.
(** C58 fails: a lone dash is dropped, although the command has a positional that takes it. *)
Theorem C58_dash_refuted : exists root a r, simple root /\ parse 20 root (a ++ [lit "-"]) = parse 20 root a /\ parse 20 root a = Some (Ok r) /\
  def_at root [lit "build"] <> None /\ a = [lit "build"].
Proof.
  exists ex_root, [lit "build"]. eexists. split; [exact ex_simple|]. split; [vm_compute; reflexivity|]. split; [vm_compute; reflexivity|].
  split; [vm_compute; discriminate|reflexivity].
Qed.
(** C58 fails: the value given to a flag, even "false", sets the flag and becomes the next word, here the package. *)
Theorem C58_flag_value_refuted : exists root r, simple root /\ parse 20 root [lit "install"; lit "--force=false"] = Some (Ok r) /\
  exists args, In ([lit "install"], args) r /\ dict_get (lit "force") args = Some (VB true) /\
    dict_get (lit "package") args = Some (VD [(lit "value", VS (lit "false")); (lit "extras", VNone)]).
Proof.
  exists ex_root. eexists. split; [exact ex_simple|]. split; [vm_compute; reflexivity|]. eexists. split; [left; reflexivity|]. split; vm_compute; reflexivity.
Qed.
(** C58 fails: an option with an empty value takes the next word. *)
Theorem C58_empty_value_refuted : exists root r, simple root /\ parse 20 root [lit "build"; lit "--only="; lit "dir"] = Some (Ok r) /\
  exists args, In ([lit "build"], args) r /\ dict_get (lit "only") args = Some (VL [VS (lit "dir")]) /\ dict_get (lit "dirs") args = Some (VL []).
Proof.
  exists ex_root. eexists. split; [exact ex_simple|]. split; [vm_compute; reflexivity|]. eexists. split; [left; reflexivity|]. split; vm_compute; reflexivity.
Qed.
(** C58 fails: of an option that is not repeatable the last value is kept silently. *)
Theorem C58_twice_refuted : exists root r, simple root /\ parse 20 root [lit "install"; lit "--mode=link"; lit "--mode"; lit "copy"; lit "foo"] = Some (Ok r) /\
  exists args, In ([lit "install"], args) r /\ dict_get (lit "mode") args = Some (VS (lit "copy")).
Proof.
  exists ex_root. eexists. split; [exact ex_simple|]. split; [vm_compute; reflexivity|]. eexists. split; [left; reflexivity|]. vm_compute. reflexivity.
Qed.
(** C58 fails: a positional of any number of values takes declared and unknown options as values. *)
Theorem C58_swallowed_refuted : exists root r, simple root /\ clean root [lit "build"; lit "a"; lit "-v"; lit "--unknown"] /\
  parse 20 root [lit "build"; lit "a"; lit "-v"; lit "--unknown"] = Some (Ok r) /\
  exists args, In ([lit "build"], args) r /\ dict_get (lit "dirs") args = Some (VL [VS (lit "a"); VS (lit "-v"); VS (lit "--unknown")]).
Proof.
  exists ex_root. eexists. split; [exact ex_simple|]. split.
  - intros w I. assert (NE : w <> []) by (repeat (destruct I as [<-|I]; [discriminate|]); contradiction). split; [exact NE|].
    intros key raw (k & N & <- & D). pose proof (partition_complete k w raw N D) as P. clear N D.
    repeat (destruct I as [<-|I]; [vm_compute in P; injection P as <- <-; split; [vm_compute; intros _; discriminate|]; try (intro X; contradiction X; reflexivity)|]); contradiction.
  - split; [vm_compute; reflexivity|]. eexists. split; [left; reflexivity|]. vm_compute. reflexivity.
Qed.
