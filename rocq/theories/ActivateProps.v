(** C49: activations. *)
From Coq Require Import String Ascii List Bool NArith Arith.
From Verif Require Import Base BaseFacts ActivateModel ActivateProofs.
Import ListNotations.
Open Scope string_scope.
Open Scope nat_scope.
Open Scope list_scope.
Open Scope bool_scope.

(** environment activation: for every body, also a failing one, that does not itself delete a variable that was unset before *)
Theorem C49_environment_partial : forall scripts home (b : body) (e e2 : env) x, NoDup (map fst e) ->
  b (dict_set VENV home (dict_set PATH (extended scripts (dict_get PATH e)) e)) = (e2, x) ->
  NoDup (map fst e2) -> (dict_get PATH e = None -> dict_get PATH e2 <> None) -> (dict_get VENV e = None -> dict_get VENV e2 <> None) ->
  exists e', activate scripts home b e = (e', x) /\ NoDup (map fst e') /\ dict_get PATH e' = dict_get PATH e /\ dict_get VENV e' = dict_get VENV e /\
  forall k, k <> PATH -> k <> VENV -> dict_get k e' = dict_get k e2.
Proof. exact activate_spec. Qed.
Print Assumptions C49_environment_partial.
(** zoo activation: the same, unless PATH was set to the empty string *)
Theorem C49_zoo_partial : forall bin (b : body) (e e2 : env) x, NoDup (map fst e) -> dict_get PATH e <> Some [] ->
  b (dict_set PATH (extended bin (dict_get PATH e)) e) = (e2, x) ->
  NoDup (map fst e2) -> (dict_get PATH e = None -> dict_get PATH e2 <> None) ->
  exists e', activate_zoo bin b e = (e', x) /\ NoDup (map fst e') /\ dict_get PATH e' = dict_get PATH e /\ forall k, k <> PATH -> dict_get k e' = dict_get k e2.
Proof. exact zoo_spec. Qed.
Print Assumptions C49_zoo_partial.
(** all nestings, failing anywhere *)
Theorem C49_nested_partial : forall p (e : env), discreet p -> named p -> NoDup (map fst e) -> (no_zoo p \/ dict_get PATH e <> Some []) ->
  dict_get PATH (fst (exec p e)) = dict_get PATH e /\ dict_get VENV (fst (exec p e)) = dict_get VENV e.
Proof. intros p e D M N Z. exact (proj2 (exec_keeps p D M e N Z)). Qed.
Print Assumptions C49_nested_partial.
Definition nested : prog := InZoo "/zoo/bin" (Seq (InEnv "/a/bin" "/a" (Other (dict_set (lit "X") (lit "1")))) (InEnv "/b/bin" "/b" (Seq (InZoo "/z" (Fail IOErr)) (Other (fun e => e))))).
Example C49_sample : discreet nested /\ named nested /\ exec nested [(PATH, lit "/usr/bin")] = ([(PATH, lit "/usr/bin"); (lit "X", lit "1")], Some IOErr).
Proof.
  split; [|split; [cbn; repeat split; discriminate|vm_compute; reflexivity]]. cbn. split; [|split; [exact Logic.I|]].
  - intros e N. split; [apply set_nodup; exact N|]. split; apply dict_get_set_other; discriminate.
  - intros e N. auto.
Qed.
(** an empty PATH is deleted by a zoo *)
Theorem C49_empty_path_refuted : exists (bin : str) (e : env), NoDup (map fst e) /\ dict_get PATH e = Some [] /\ dict_get PATH (fst (activate_zoo bin (fun e => (e, None)) e)) = None.
Proof. exists (lit "/bin"), [(PATH, [])]. split; [constructor; [intros []|constructor]|]. split; vm_compute; reflexivity. Qed.
Print Assumptions C49_empty_path_refuted.
(** a body that deletes a PATH that was not set before: KeyError, and VIRTUAL_ENV keeps the value of the activation *)
Theorem C49_deleted_path_refuted : exists scripts home b e e', NoDup (map fst e) /\ (forall e, dict_get VENV (fst (b e)) = dict_get VENV e) /\
  activate scripts home b e = (e', Some KeyError) /\ dict_get VENV e' <> dict_get VENV e.
Proof.
  exists (lit "/s"), (lit "/h"), (fun e => (dict_del PATH e, None)), [], [(VENV, lit "/h")]. split; [constructor|]. split; [intro e; cbn; apply dict_get_del_other; discriminate|]. split; [vm_compute; reflexivity|discriminate].
Qed.
Print Assumptions C49_deleted_path_refuted.
