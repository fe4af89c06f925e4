(** Properties of the command of a template: C312. *)
From Coq Require Import String Ascii List Bool NArith Arith Lia.
From Verif Require Import Base BaseFacts ParserModel MarkerModel ProjectModel CliModel ContextModel MethodModel TemplateCmdModel.
Import ListNotations.
Open Scope string_scope.
Open Scope nat_scope.
Open Scope list_scope.
Open Scope bool_scope.

Lemma Ok_same : forall A (a b : A), Ok a = Ok b -> a = b.
Proof. congruence. Qed.
Lemma mem_in : forall x l, str_mem x l = true <-> In x l.
Proof.
  intros x l. unfold str_mem. rewrite existsb_exists. split.
  - intros (y & Hy & E). apply str_eqb_eq in E. subst. exact Hy.
  - intros H. exists x. split; [exact H|apply str_eqb_refl].
Qed.

(** ** C312: a template asks its own questions, and overwrites files only if told to *)
(** one flag is added behind the arguments of the setup; it always has its long name, and the short one exactly if that is free *)
Theorem C312_flag : forall g defs all, definition g = Ok defs -> template_args g = Ok all ->
  exists f, all = defs ++ [f] /\ a_field f = lit "overwrite" /\ In (lit "--overwrite") (a_names f) /\
    (In (lit "-o") (a_names f) <-> forall a, In a defs -> ~ In (lit "-o") (a_names a)).
Proof.
  intros g defs all Hd Ha. unfold template_args in Ha. rewrite Hd in Ha. cbn [bind] in Ha. apply Ok_same in Ha. exists (overwrite_flag defs).
  unfold overwrite_flag. destruct (existsb (fun a => str_mem (lit "-o") (a_names a)) defs) eqn:E; cbn [a_names]; (split; [rewrite <- Ha; unfold overwrite_flag; rewrite E; reflexivity|]).
  - split; [vm_compute; reflexivity|]. split; [left; reflexivity|]. split.
    + intros [X|[]]. discriminate.
    + intros H. apply existsb_exists in E. destruct E as (a & Hin & Hm). apply mem_in in Hm. exfalso. exact (H a Hin Hm).
  - split; [vm_compute; reflexivity|]. split; [right; left; reflexivity|]. split; [|intros _; left; reflexivity].
    intros _ a Hin Hm. assert (X : existsb (fun a => str_mem (lit "-o") (a_names a)) defs = true) by (apply existsb_exists; exists a; split; [exact Hin|apply mem_in; exact Hm]).
    congruence.
Qed.
(** the flag and the setup do not know of each other, if no parameter has the name of the flag *)
Lemma filter_set : forall (p : str -> bool) k (v w : val) args, p k = false ->
  filter (fun kv => p (fst kv)) (dict_set k v args) = filter (fun kv => p (fst kv)) (dict_set k w args).
Proof.
  intros p k v w args Hp. induction args as [|[k2 x] args IH]; cbn [dict_set filter fst]; [rewrite Hp; reflexivity|].
  destruct (str_eqb k k2) eqn:E; cbn [filter fst].
  - apply str_eqb_eq in E. subst k2. rewrite Hp. reflexivity.
  - destruct (p k2); rewrite IH; reflexivity.
Qed.
Theorem C312_apart_partial : forall g defs args v, definition g = Ok defs -> (forall a, In a defs -> a_field a <> lit "overwrite") ->
  forall b o, execute g (dict_set (lit "overwrite") v args) = Ok (b, o) ->
  o = truthy v /\ forall w, execute g (dict_set (lit "overwrite") w args) = Ok (b, truthy w).
Proof.
  intros g defs args v Hd Hno b o H. unfold execute in *. rewrite Hd in *. cbn [bind] in *. rewrite dict_get_set_same in H.
  assert (Hp : str_mem (lit "overwrite") (map a_field defs) = false).
  { destruct (str_mem (lit "overwrite") (map a_field defs)) eqn:E; [|reflexivity]. apply mem_in in E. apply in_map_iff in E. destruct E as (a & Ea & Hin). exfalso. exact (Hno a Hin Ea). }
  destruct (call g _) as [b2|e] eqn:E; [|discriminate]. cbn [bind] in H. apply Ok_same in H. injection H as <- <-. split; [reflexivity|].
  intros w. rewrite dict_get_set_same, (filter_set (fun k => str_mem k (map a_field defs)) _ w v args Hp), E. reflexivity.
Qed.
(** a parameter of the setup that has the name decides about the files: nobody asked for anything, and they are overwritten *)
Theorem C312_parameter_refuted : forall c text,
  run_template 50 (Sig [] [] None false [lit "overwrite"] (Some [(lit "overwrite", VS (c :: text))]) [(lit "overwrite", HClass CStr)]) [] =
    Some (Ok (Ran [(lit "overwrite", VS (c :: text))] true)) /\
  run_template 50 (Sig [lit "overwrite"] [VS (c :: text)] None false [] None [(lit "overwrite", HClass CStr)]) [] =
    Some (Ok (Ran [(lit "overwrite", VS (c :: text))] true)).
Proof. intros. split; vm_compute; reflexivity. Qed.
Example C312_example :
  let plain := Sig [lit "name"] [] None false [] None [(lit "name", HClass CStr)] in
  let output := Sig [lit "name"] [] None false [lit "output"] (Some [(lit "output", VS (lit "html"))]) [] in
  run_template 50 plain [lit "web"] = Some (Ok (Ran [(lit "name", VS (lit "web"))] false)) /\
  run_template 50 plain [lit "web"; lit "-o"] = Some (Ok (Ran [(lit "name", VS (lit "web"))] true)) /\
  run_template 50 output [lit "web"; lit "-o"; lit "pdf"] = Some (Ok (Ran [(lit "name", VS (lit "web")); (lit "output", VS (lit "pdf"))] false)) /\
  run_template 50 output [lit "web"; lit "--overwrite"] = Some (Ok (Ran [(lit "name", VS (lit "web")); (lit "output", VS (lit "html"))] true)) /\
  (exists defs, definition output = Ok defs /\ forall a, In a defs -> a_field a <> lit "overwrite") /\
  run_template 50 plain [lit "web"; lit "--help"] = Some (Ok HelpShown).
Proof.
  cbn zeta. repeat (split; [vm_compute; reflexivity|]). split; [|vm_compute; reflexivity]. eexists. split; [vm_compute; reflexivity|].
  intros a [<-|[<-|[]]]; vm_compute; discriminate.
Qed.
