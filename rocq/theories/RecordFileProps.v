(** C121: RECORD is read as it was written.  C122: RECORD of other tools can be written again.  C123: records name files.
    C124: files of lines "key: value".  C125: new environments are isolated. *)
From Coq Require Import String Ascii List Bool NArith Arith Lia.
From Verif Require Import Base BaseFacts ParserModel PthModel PthProofs ArtifactModel RecordFileModel RecordFileProofs.
Import ListNotations.
Open Scope string_scope.
Open Scope nat_scope.
Open Scope list_scope.
Open Scope bool_scope.

Definition tab_free (s : str) : Prop := forall c, In c s -> is_space c = false /\ c <> "="%char.
(** ** C121 *)
(** any table of texts survives csv *)
Theorem C121_csv : forall rows, csv_read (concat (map csv_row rows)) = Ok rows.
Proof. exact csv_rows_read. Qed.
(** records with any file names, also with commas, quotes and ends of lines *)
Theorem C121_records : forall l,
  (forall r, In r l -> exists f t v n, r = Rec (Some f) (Some (Sig t v)) (Some n) /\ tab_free t /\ tab_free v) ->
  exists text, save_records l = (Ok tt, text) /\ load_records text = Ok l.
Proof.
  intros l H. assert (W : forall s, tab_free s -> lstrip_ws s = s /\ rstrip_ws s = s /\ ~ In "="%char s).
  { intros s F. assert (L : forall s, tab_free s -> lstrip_ws s = s) by (intros [|c r] X; [reflexivity|]; cbn [lstrip_ws]; destruct (X c (or_introl eq_refl)) as [-> _]; reflexivity). split; [apply L, F|]. split.
    - unfold rstrip_ws. rewrite L; [apply rev_involutive|]. intros c I. apply F. apply in_rev. exact I.
    - intro I. destruct (F _ I). congruence. }
  exists (snd (save_records l)). split.
  - rewrite save_ok; [reflexivity|]. intros r R. destruct (H r R) as (f & t & v & n & -> & _). repeat split; discriminate.
  - apply load_saved. intros r R. destruct (H r R) as (f & t & v & n & -> & T & V). split; [repeat split; discriminate|]. cbn. intros s E. injection E as <-. destruct (W t T) as (A & B & C). destruct (W v V) as (A' & B' & C'). repeat split; assumption.
Qed.
Example C121_sample : exists text, save_records [Rec (Some (lit "a, ""b"".py")) (Some (Sig "sha256" "x_-")) (Some 12%N); Rec (Some (lit "c.py")) (Some (Sig "md5" "")) (Some 0%N)] = (Ok tt, text) /\
  text = lit """a, """"b"""".py"",sha256=x_-,12" ++ [cr; lf] ++ lit "c.py,md5=,0" ++ [cr; lf] /\ exists l, load_records text = Ok l /\ length l = 2.
Proof. eexists. split; [vm_compute; reflexivity|]. split; [vm_compute; reflexivity|]. eexists. split; vm_compute; reflexivity. Qed.

(** ** C122 *)
(** saving works exactly if every record has a file, a hash and a length; otherwise the file loses the first incomplete record and
    all that follow *)
Theorem C122_saved_iff : forall l, fst (save_records l) = Ok tt <-> forall r, In r l -> complete r.
Proof.
  intro l. split.
  - induction l as [|r l IH]; intros H x X; [destruct X|]. cbn [save_records] in H. destruct (record_row r) as [fields|] eqn:R; [|discriminate]. destruct (save_records l) as [y text]. cbn [fst] in *. destruct X as [<-|X]; [|apply IH; assumption].
    unfold record_row in R. destruct (rec_file r) eqn:A, (rec_hash r) eqn:B, (rec_length r) eqn:C; try discriminate. unfold complete. rewrite A, B, C. repeat split; discriminate.
  - intro H. rewrite save_ok by exact H. reflexivity.
Qed.
Theorem C122_loses : forall a r b, (forall x, In x a -> complete x) -> ~ complete r -> save_records (a ++ r :: b) = (Err KeyError, snd (save_records a)).
Proof. intros a r b H N. rewrite save_missing by assumption. rewrite save_ok by exact H. reflexivity. Qed.
(** REFUTED: every RECORD that follows the standard has a line for itself without hash and length; such a file can be read but
    saving it again fails and leaves a RECORD without these lines *)
Theorem C122_again_refuted : exists text l, load_records text = Ok l /\ text = lit "x/__init__.py,sha256=abc,3" ++ [lf] ++ lit "x-1.0.dist-info/RECORD,," ++ [lf] ++ lit "x/y.py,sha256=abd,4" ++ [lf] /\
  save_records l = (Err KeyError, lit "x/__init__.py,sha256=abc,3" ++ [cr; lf]).
Proof. do 2 eexists. split; [|split; [reflexivity|]]; [vm_compute; reflexivity|]. vm_compute. reflexivity. Qed.

(** ** C123 *)
(** the records are the rows, in this order, and there are at most three columns; a record names no file exactly if its row is
    empty *)
Theorem C123_rows : forall text rows l, csv_read text = Ok rows -> load_records text = Ok l ->
  map rec_file l = map (fun row => hd_error row) rows /\ Forall (fun row => length row <= 3) rows.
Proof.
  intros text rows l R H. unfold load_records in H. rewrite R in H. cbn [bind] in H. clear R. revert l H. induction rows as [|row rows IH]; intros l H; [injection H as <-; split; [reflexivity|constructor]|].
  cbn [map_res] in H. destruct (row_dict row) as [d|] eqn:D; [|discriminate]. cbn [bind] in H. destruct (map_res row_dict rows) as [ds|]; [|discriminate]. cbn [bind map_res] in *. destruct (parse_record d) as [r|] eqn:P; [|discriminate]. cbn [bind] in H. destruct (map_res parse_record ds) as [rs|]; [|discriminate]. injection H as <-.
  destruct (IH rs eq_refl) as [A B]. cbn [map]. rewrite A. assert (F : rec_file r = fst (fst d)).
  { destruct d as [[f h] n]. unfold parse_record in P. destruct (match h with None | Some [] => Ok None | Some t => do s <- parse_signature t; Ok (Some s) end) as [x|]; [|discriminate]. cbn [bind] in P. destruct (match n with None | Some [] => Ok None | Some t => if all_digits t then Ok (Some (read_N t)) else Err ValueError end) as [y|]; [|discriminate]. injection P as <-. reflexivity. }
  rewrite F. destruct row as [|c1 [|c2 [|c3 [|c4 row]]]]; try discriminate; injection D as <-; (split; [reflexivity|constructor; [cbn; lia|exact B]]).
Qed.
(** REFUTED: an empty line is a record that names nothing *)
Theorem C123_empty_line_refuted : exists text l, text = lit "x.py,sha256=abc,3" ++ [lf; lf] /\ load_records text = Ok l /\ map rec_file l = [Some (lit "x.py"); None].
Proof. do 2 eexists. split; [reflexivity|]. split; vm_compute; reflexivity. Qed.
(** the errors: a fourth column, a hash with padding, a length that is no number *)
Example C123_errors : load_records "x.py,sha256=abc,3,4" = Err IndexError /\ load_records "x.py,sha256=abc=,3" = Err ValueError /\ load_records "x.py,sha256=abc,3b" = Err ValueError.
Proof. repeat split; vm_compute; reflexivity. Qed.

(** ** C124 *)
Theorem C124_lines_partial : forall data, NoDup (map fst data) -> Forall (fun e => plain_text (fst e) /\ plain_text (snd e)) data -> read_lines (write_lines data) = Ok data.
Proof.
  intros data N H. rewrite lines_round by exact H. f_equal. unfold dict_of. assert (G : forall d acc, NoDup (map fst (acc ++ d)) -> fold_left (fun (a : list (str * str)) (e : str * str) => dict_set (fst e) (snd e) a) d acc = acc ++ d).
  { induction d as [|[k v] d IH]; intros acc M; [rewrite app_nil_r; reflexivity|]. cbn [fold_left fst snd]. assert (K : ~ In k (map fst acc)).
    { rewrite map_app in M. cbn [map fst] in M. intro I. apply NoDup_remove_2 in M. apply M. apply in_or_app. left. exact I. }
    replace (dict_set k v acc) with (acc ++ [(k, v)]).
    - rewrite IH; [rewrite <- app_assoc; reflexivity|]. rewrite <- app_assoc. exact M.
    - clear - K. induction acc as [|[k2 v2] acc IH]; [reflexivity|]. cbn [app dict_set]. cbn [map fst In] in K. destruct (str_eqb k k2) eqn:E; [apply str_eqb_eq in E; exfalso; apply K; left; congruence|]. f_equal. apply IH. intro I. apply K. right. exact I. }
  apply (G data []). exact N.
Qed.
Example C124_sample : read_lines (write_lines [(lit "Wheel-Version", lit "1.0"); (lit "Generator", lit "pkm (0.1 beta)"); (lit "Root-Is-Purelib", lit "true")]) = Ok [(lit "Wheel-Version", lit "1.0"); (lit "Generator", lit "pkm (0.1 beta)"); (lit "Root-Is-Purelib", lit "true")].
Proof. vm_compute. reflexivity. Qed.
(** REFUTED: a value with a colon makes the file unreadable; of several values of one key only the last is kept *)
Theorem C124_colon_refuted : read_lines (write_lines [(lit "home", lit "C:\Python39")]) = Err ValueError /\ read_lines (write_lines [(lit "Generator", lit "tool: 1")]) = Err ValueError /\
  read_lines (lit "Tag: py2-none-any" ++ [lf] ++ lit "Tag: py3-none-any") = Ok [(lit "Tag", lit "py3-none-any")].
Proof. repeat split; vm_compute; reflexivity. Qed.
Theorem C124_fails_iff : forall l, (exists e, read_line l = Ok e) <-> length (split_on ":" l) = 2.
Proof.
  intro l. unfold read_line, split_colon. destruct (split_on ":" l) as [|a [|b [|c r]]] eqn:S; cbn [trim_parts length].
  - split; [intros (e & H); discriminate|discriminate].
  - split; [intros (e & H); discriminate|discriminate].
  - split; [reflexivity|intros _; eexists; reflexivity].
  - split; [|discriminate]. intros (e & H). destruct r; discriminate.
Qed.

(** ** C125 *)
(** REFUTED: the file that is to say that an environment does not use the packages of the system is in a form that Python does not
    read, so that every environment sees them *)
Theorem C125_isolated_refuted : forall home version, ~ In "="%char home -> ~ In "="%char version -> python_settings (pyvenv_cfg home version) = [] /\ sees_system_packages (pyvenv_cfg home version) = true.
Proof.
  intros home version H V. assert (E : python_settings (pyvenv_cfg home version) = []).
  { apply no_settings. unfold pyvenv_cfg, write_lines. cbn [map join fst snd]. rewrite !in_app_iff. cbn. intuition discriminate. }
  split; [exact E|]. unfold sees_system_packages. rewrite E. reflexivity.
Qed.
(** what the reader of Python would need *)
Example C125_sample : sees_system_packages (lit "home = /usr/bin" ++ [lf] ++ lit "include-system-site-packages = false" ++ [lf]) = false /\
  pyvenv_cfg "/usr/bin" "3.10.4" = lit "home: /usr/bin" ++ [lf] ++ lit "version: 3.10.4" ++ [lf] ++ lit "include-system-site-packages: false".
Proof. split; vm_compute; reflexivity. Qed.

Print Assumptions C121_csv.
Print Assumptions C121_records.
Print Assumptions C122_saved_iff.
Print Assumptions C122_loses.
Print Assumptions C122_again_refuted.
Print Assumptions C123_rows.
Print Assumptions C123_empty_line_refuted.
Print Assumptions C124_lines_partial.
Print Assumptions C124_colon_refuted.
Print Assumptions C124_fails_iff.
Print Assumptions C125_isolated_refuted.
