(** C43: printing and parsing dependencies. *)
From Coq Require Import String Ascii List Bool NArith Arith Lia.
From Verif Require Import Base BaseFacts ParserModel VersionModel VersionSpec SpecifierModel SpecifierSpec SpecParse SpecParseSpec NamesModel MarkerModel DependencyModel DependencyProofs.
Import ListNotations.
Open Scope string_scope.
Open Scope nat_scope.
Open Scope list_scope.
Open Scope bool_scope.

(** whatever text a dependency was read from: printed and read again it is the same. Missing: specifiers that are not a single
    version, its exclusion or a range (see the refutations) *)
Theorem C43_parsed_partial : forall u t d, parse_dependency u t = Ok d -> printable (d_spec d) -> parse_dependency u (dep_str d) = Ok d.
Proof. exact parsed_again. Qed.
Print Assumptions C43_parsed_partial.
(** a dependency made by other means: the same name, specifier and extras, and a marker that evaluates alike *)
Theorem C43_constructed_partial : forall u d,
  (exists c t, d_name d = c :: t /\ ident_start c = true /\ forallb ident_char t = true) -> normalize_name (d_name d) = Ok (d_name d) ->
  (forall l, d_extras d = Some l -> Forall ident l) -> printable (d_spec d) ->
  (forall m, d_marker d = Some m -> exists t r, read_marker t = Ok (m, r)) ->
  exists d', parse_dependency u (dep_str d) = Ok d' /\ d_name d' = d_name d /\ d_spec d' = d_spec d /\
    match d_extras d' with Some l => l | None => [] end = match d_extras d with Some l => l | None => [] end /\
    forall env extras, is_applicable_for u d' env extras = is_applicable_for u d env extras.
Proof.
  intros u d I N X P M. destruct (print_parse_equiv u d I N X P M) as (d' & E & En & Es & Ee & Em). exists d'.
  repeat split; try assumption. intros env extras. unfold is_applicable_for, evaluate_on.
  destruct (d_marker d') as [m'|], (d_marker d) as [m|]; try discriminate Em; [|reflexivity]. injection Em as ->. reflexivity.
Qed.
Print Assumptions C43_constructed_partial.
(** a parsed name is a normalised identifier and the extras are identifiers *)
Theorem C43_shape : forall u t d, parse_dependency u t = Ok d ->
  normalize_name (d_name d) = Ok (d_name d) /\ ident (d_name d) /\ (forall l, d_extras d = Some l -> l <> [] /\ Forall ident l).
Proof. intros u t d H. destruct (parsed_shape u t d H) as (I & N & X & _). auto. Qed.
Print Assumptions C43_shape.

(** the marker of an url dependency is lost *)
Theorem C43_url_marker_refuted : exists u t d d', parse_dependency u t = Ok d /\ parse_dependency u (dep_str d) = Ok d' /\
  d_marker d <> None /\ d_marker d' = None /\ d_spec d' <> d_spec d.
Proof.
  exists (fun s => s), (lit "a @ http://x.y/z ; os_name == 'nt'").
  eexists _, _. split; [vm_compute; reflexivity|]. split; [vm_compute; reflexivity|]. split; [discriminate|]. split; [reflexivity|]. discriminate.
Qed.
Print Assumptions C43_url_marker_refuted.
(** a union of ranges prints with a semicolon, which begins a marker *)
Theorem C43_union_refuted : exists u t d, parse_dependency u t = Ok d /\ parse_dependency u (dep_str d) = Err ValueError.
Proof. exists (fun s => s), (lit "a !=1.*"). eexists. split; [vm_compute; reflexivity|]. vm_compute. reflexivity. Qed.
Print Assumptions C43_union_refuted.
(** a valid name may begin with a digit, a dependency on it is not read *)
Theorem C43_digit_name_refuted : exists u d, normalize_name (d_name d) = Ok (d_name d) /\ d_spec d = AllowAll /\
  parse_dependency u (dep_str d) = Err ValueError.
Proof. exists (fun s => s), (Dep (lit "3to2") AllowAll None None). split; [reflexivity|]. split; reflexivity. Qed.
Print Assumptions C43_digit_name_refuted.
(** text behind the specifier is ignored: an upper case pre-release, which the versions themselves accept, is another version *)
Theorem C43_case_refuted : exists u t d, parse_dependency u t = Ok d /\ t = lit "a ==1.0RC1" /\
  d_spec d = Match (VStd (SV [1%N; 0%N] None None None None None)) true.
Proof. exists (fun s => s), (lit "a ==1.0RC1"). eexists. split; [vm_compute; reflexivity|]. split; reflexivity. Qed.
Print Assumptions C43_case_refuted.

(** a text with all parts *)
Example C43_sample : exists d, parse_dependency (fun s => s) (lit "My_pkg--x [b, a] >=1.0, <3.0 ; os_name == 'nt' or extra == 'b'") = Ok d /\
  dep_str d = lit "My_pkg-x[b,a] >=1.0, <3.0;os_name == 'nt' or extra == 'b'" /\
  parse_dependency (fun s => s) (dep_str d) = Ok d /\ printable (d_spec d) /\ d_marker d <> None /\
  is_applicable_for (fun s => s) d [(lit "os_name", lit "posix")] [lit "b"] = Ok true /\
  is_applicable_for (fun s => s) d [(lit "os_name", lit "posix")] [] = Ok false.
Proof.
  eexists. split; [vm_compute; reflexivity|]. split; [vm_compute; reflexivity|]. split; [vm_compute; reflexivity|]. split.
  - cbn [d_spec]. split; [|split; [|split]].
    + split; [left; discriminate|]. repeat (split; [intros; discriminate|]). 
      assert (P : forall x, plain (SV [x; 0%N] None None None None None)) by (intros x; split; [discriminate|split; [reflexivity|cbn; discriminate]]).
      split; [intros m E; injection E as <-; apply P|]. split; [intros m E; injection E as <-; apply P|].
      intros m n E1 E2. injection E1 as <-. injection E2 as <-. reflexivity.
    + intros m E. injection E as <-. split; [discriminate|intros; discriminate].
    + intros m E. injection E as <-. split; [discriminate|intros; discriminate].
    + intros m n E1 E2 _ _ p x y R1 R2. injection E1 as <-. injection E2 as <-. cbn [release epoch] in *.
      destruct p as [|p1 [|p2 p]]; cbn in *; try discriminate; [|destruct p; discriminate]. injection R1 as <- <-. discriminate R2.
  - split; [discriminate|]. split; vm_compute; reflexivity.
Qed.
