(** C126: METADATA is read as it was written.  C127: descriptions.  C128: values of several lines.  C129: authors and
    maintainers.  C130: uploads say what they are. *)
From Coq Require Import String Ascii List Bool NArith Arith Lia.
From Verif Require Import Base BaseFacts ParserModel ParserFacts CollectionProofs MetadataModel MetadataProofs.
Import ListNotations.
Open Scope string_scope.
Open Scope nat_scope.
Open Scope list_scope.
Open Scope bool_scope.

(** metadata that can be written: names of headers, each once; texts, or lists of texts for the fields that occur several times *)
Definition proper (data : list (str * mval)) : Prop :=
  NoDup (map fst data) /\ (forall k v, In (k, v) data -> k <> lit "Description" -> header_name k /\ kept k v) /\ (forall v, In (lit "Description", v) data -> exists s, v = MStr s).
(** a value that stays on its line *)
Definition unbroken (fold : str -> str -> str) (k s : str) : Prop := fold k s = s /\ ~ In lf s /\ match s with c :: _ => is_blank c = false | [] => True end.
Definition as_written (data : list (str * mval)) : list (str * option mval) := map (fun e => (fst e, Some (snd e))) data.
Lemma unbroken_line : forall fold k s, unbroken fold k s -> one_line s /\ folded (fold k s).
Proof.
  intros fold k s (F & N & B). assert (L : one_line s) by (unfold one_line; destruct (existsb (Ascii.eqb lf) s) eqn:E; [apply existsb_exists in E as (x & X & Y); apply Ascii.eqb_eq in Y; subst x; contradiction|reflexivity]).
  split; [exact L|]. rewrite F. exists s, []. split; [reflexivity|]. split; [intros l [<-|[]]; exact N|]. split; [|constructor]. destruct s as [|c s]; [reflexivity|]. unfold skip_blanks. cbn [span]. rewrite B. reflexivity.
Qed.
Lemma written : forall fold data, proper data -> (forall k v s, In (k, v) data -> k <> lit "Description" -> In s (values v) -> unbroken fold k s) ->
  exists text, write_metadata fold (as_written data) = Ok text /\ read_metadata text = without_description data.
Proof.
  intros fold data (N & K & D) U. unfold write_metadata, as_written. rewrite headers_ok.
  - cbn [bind]. eexists. split; [reflexivity|]. unfold read_metadata. rewrite message_parsed.
    + replace (map (fun h : str * str => (fst h, fold (fst h) (snd h))) (flat_map (fun e => map (fun s => (fst e, s)) (values (snd e))) (without_description data))) with (flat_map (fun e : str * mval => map (fun s => (fst e, s)) (values (snd e))) (without_description data)).
      * apply (add_entries (without_description data) []); cbn [app].
        -- clear - N. unfold without_description. induction data as [|e data IH]; [constructor|]. cbn [map] in N. inversion N as [|? ? A B]; subst. cbn [filter]. destruct (negb (str_eqb (fst e) "Description")); [|apply IH, B]. cbn [map]. constructor; [|apply IH, B].
           intro I. apply A. apply in_map_iff in I as (x & X & Y). apply filter_In in Y as [Y _]. apply in_map_iff. eauto.
        -- intros k v I. apply filter_In in I as [I E]. apply (K k v I). intros ->. discriminate.
      * rewrite <- (map_id (flat_map _ _)) at 1. apply map_ext_in. intros [k s] I. apply in_flat_map in I as ([k' v] & I & J). apply filter_In in I as [I E]. apply in_map_iff in J as (s' & J & S). injection J as <- <-. cbn [fst snd] in *.
        destruct (U k' v s' I) as (F & _); [intros ->; discriminate|exact S|]. rewrite F. reflexivity.
    + intros k s I. apply in_flat_map in I as ([k' v] & I & J). apply filter_In in I as [I E]. apply in_map_iff in J as (s' & J & S). injection J as <- <-. cbn [fst snd] in *. assert (X : k' <> lit "Description") by (intros ->; discriminate).
      split; [apply (K k' v I X)|]. apply unbroken_line. exact (U k' v s' I X S).
  - intros k v I. split.
    + intro M. destruct (list_eq_dec ascii_dec k (lit "Description")) as [->|X]; [discriminate|]. destruct (K k v I X) as [_ Y]. destruct v as [s|l]; [unfold kept in Y; rewrite M in Y; discriminate|eauto].
    + intros X s S. destruct (unbroken_line fold k s (U k v s I X S)) as [Y _]. exact Y.
Qed.
(** ** C126 *)
(** everything but the description is read back, if the values fit on their lines *)
Theorem C126_read_partial : forall fold data, proper data -> ~ In (lit "Description") (map fst data) -> (forall k v s, In (k, v) data -> In s (values v) -> unbroken fold k s) ->
  exists text, write_metadata fold (as_written data) = Ok text /\ read_metadata text = data.
Proof.
  intros fold data P D U. destruct (written fold data P) as (text & W & R); [intros k v s I _ S; exact (U k v s I S)|]. exists text. split; [exact W|]. rewrite R. unfold without_description. apply filter_true_in. intros [k v] I. cbn [fst]. destruct (str_eqb k "Description") eqn:E; [|reflexivity]. apply str_eqb_eq in E. subst k. exfalso. apply D. apply in_map_iff. exists (lit "Description", v). auto.
Qed.
Example C126_sample : let data := [(lit "Name", MStr "x"); (lit "Requires-Dist", MList [lit "a >= 1"; lit "b ; extra == 'c'"]); (lit "Author", MStr ""); (lit "Keywords", MList [lit "u"; lit "v"])] in
  proper data /\ exists text, write_metadata (fun _ v => v) (as_written data) = Ok text /\ read_metadata text = data.
Proof.
  split.
  - split; [|split].
    + repeat constructor; cbn; intuition discriminate.
    + intros k v I _. cbn [In] in I. repeat destruct I as [I|I]; try contradiction; injection I as <- <-; (split; [split; [discriminate|reflexivity]|]); cbn [kept]; change (is_multi (lit "Requires-Dist")) with true; change (is_multi (lit "Keywords")) with false; try reflexivity; try discriminate. split; [cbn; lia|discriminate].
    + intros v I. cbn [In] in I. repeat destruct I as [I|I]; try contradiction; discriminate.
  - eexists. split; vm_compute; reflexivity.
Qed.
(** a field without a value is left out *)
Theorem C126_missing : forall fold a k b, k <> lit "Description" -> write_metadata fold (a ++ (k, None) :: b) = write_metadata fold (a ++ b).
Proof.
  intros fold a k b N. assert (H : headers_of (a ++ (k, None) :: b) = headers_of (a ++ b)) by (induction a as [|[x [v|]] a IH]; [reflexivity| |exact IH]; cbn [app headers_of]; rewrite IH; reflexivity).
  assert (D : dict_get (lit "Description") (a ++ (k, None) :: b) = dict_get (lit "Description") (a ++ b)).
  { clear H. induction a as [|[x v] a IH]; [cbn [app dict_get]; destruct (str_eqb (lit "Description") k) eqn:E; [apply str_eqb_eq in E; congruence|reflexivity]|]. cbn [app dict_get]. destruct (str_eqb (lit "Description") x); [reflexivity|exact IH]. }
  unfold write_metadata. rewrite H, D. reflexivity.
Qed.
Example C126_missing_sample : write_metadata (fun _ v => v) [(lit "Name", Some (MStr "x")); (lit "Summary", None); (lit "Version", Some (MStr "1"))] = Ok (lit "Name: x" ++ [lf] ++ lit "Version: 1" ++ [lf; lf]).
Proof. vm_compute. reflexivity. Qed.
(** a value that was broken into lines is read back with the line breaks *)
Theorem C126_folded : forall fold k s, header_name k -> k <> lit "Description" -> is_multi k = false -> one_line s -> folded (fold k s) ->
  exists text, write_metadata fold [(k, Some (MStr s))] = Ok text /\ read_metadata text = [(k, MStr (fold k s))].
Proof.
  intros fold k s K D M L F. pose proof (headers_ok [(k, MStr s)]) as H. cbn [map fst snd] in H. unfold write_metadata. rewrite H.
  - cbn [bind]. eexists. split; [reflexivity|]. unfold without_description. cbn [filter fst]. replace (str_eqb k "Description") with false by (symmetry; destruct (str_eqb k "Description") eqn:E; [apply str_eqb_eq in E; congruence|reflexivity]). cbn [negb flat_map values fst snd map]. rewrite app_nil_r.
    unfold read_metadata. rewrite message_parsed; [|intros k' v [E|[]]; injection E as <- <-; split; assumption]. cbn [map fst snd fold_left]. unfold add_header. rewrite M. reflexivity.
  - intros k' v [E|[]]. injection E as <- <-. split; [congruence|]. intros _ s' [<-|[]]. exact L.
Qed.
(** REFUTED: a list with one entry becomes a text, an empty list disappears, and an empty first entry is lost *)
Theorem C126_shapes_refuted : forall fold, fold (lit "Keywords") (lit "k") = lit "k" -> fold (lit "Keywords") [] = [] ->
  (exists text, write_metadata fold [(lit "Keywords", Some (MList [lit "k"]))] = Ok text /\ read_metadata text = [(lit "Keywords", MStr "k")]) /\
  (exists text, write_metadata fold [(lit "Keywords", Some (MList []))] = Ok text /\ read_metadata text = []) /\
  (exists text, write_metadata fold [(lit "Keywords", Some (MList [[]; lit "k"]))] = Ok text /\ read_metadata text = [(lit "Keywords", MStr "k")]).
Proof.
  intros fold F E. split; [|split]; eexists; (split; [vm_compute; reflexivity|]).
  - change (fold [_; _; _; _; _; _; _; _] [_]) with (fold (lit "Keywords") (lit "k")). rewrite F. vm_compute. reflexivity.
  - vm_compute. reflexivity.
  - change (fold [_; _; _; _; _; _; _; _] [_]) with (fold (lit "Keywords") (lit "k")). change (fold [_; _; _; _; _; _; _; _] []) with (fold (lit "Keywords") []). rewrite F, E. vm_compute. reflexivity.
Qed.

(** ** C127 *)
(** REFUTED: whatever the description is, it is not there after reading *)
Theorem C127_description_refuted : forall fold data s, proper ((lit "Description", MStr s) :: data) -> (forall k v s, In (k, v) data -> In s (values v) -> unbroken fold k s) ->
  exists text, write_metadata fold (as_written ((lit "Description", MStr s) :: data)) = Ok text /\ read_metadata text = data /\ dict_get (lit "Description") (read_metadata text) = None.
Proof.
  intros fold data s P U. destruct (written fold _ P) as (text & W & R).
  - intros k v s' [E|I] X S; [apply (f_equal fst) in E; cbn [fst] in E; exfalso; apply X; symmetry; exact E|exact (U k v s' I S)].
  - exists text. split; [exact W|]. destruct P as (N & _ & _). cbn [map fst] in N. inversion N as [|? ? A B]; subst. assert (E : read_metadata text = data).
    { rewrite R. unfold without_description. cbn [filter fst]. change (str_eqb "Description" "Description") with true. cbn [negb]. apply filter_true_in. intros [k v] I. cbn [fst]. destruct (str_eqb k "Description") eqn:Q; [|reflexivity]. apply str_eqb_eq in Q. subst k. exfalso. apply A. apply in_map_iff. exists (lit "Description", v). auto. }
    split; [exact E|]. rewrite E. apply get_new. exact A.
Qed.
Example C127_sample : exists text, write_metadata (fun _ v => v) (as_written [(lit "Description", MStr "A long text."); (lit "Name", MStr "x")]) = Ok text /\ text = lit "Name: x" ++ [lf; lf] ++ lit "A long text." /\ read_metadata text = [(lit "Name", MStr "x")].
Proof. eexists. split; [vm_compute; reflexivity|]. split; vm_compute; reflexivity. Qed.

(** ** C128 *)
(** REFUTED: a text of several lines, such as a license, is left out without an error; in a list it is an error *)
Theorem C128_lines_refuted : forall k s, In lf s -> is_multi k = false ->
  (forall a b, headers_of (a ++ (k, Some (MStr s)) :: b) = headers_of (a ++ b)) /\ (k <> lit "Description" -> forall l r, headers_of ((k, Some (MList (l ++ s :: r))) :: []) = Err ValueError).
Proof.
  intros k s I M. assert (E : forall k, store k s = Err ValueError) by (intro k'; unfold store; replace (existsb (Ascii.eqb lf) s) with true; [reflexivity|]; symmetry; apply existsb_exists; exists lf; split; [exact I|apply Ascii.eqb_refl]). split.
  - intros a b. induction a as [|[k' [v|]] a IH]; cbn [app headers_of]; [|rewrite IH; reflexivity|exact IH]. rewrite M. cbn [andb]. destruct (str_eqb k "Description"); [reflexivity|]. rewrite E. cbn [bind app]. destruct (headers_of b); reflexivity.
  - intros D l r. cbn [headers_of]. rewrite M. cbn [andb]. destruct (str_eqb k "Description") eqn:Q; [apply str_eqb_eq in Q; congruence|]. replace (store_all k (l ++ s :: r)) with (@Err (list (str * str)) ValueError); [reflexivity|]. symmetry.
    induction l as [|x l IH]; cbn [app store_all]; [rewrite E; reflexivity|]. unfold store at 1. destruct (existsb (Ascii.eqb lf) x); [reflexivity|]. cbn [bind]. rewrite IH. reflexivity.
Qed.
Example C128_sample : exists text, write_metadata (fun _ v => v) [(lit "Name", Some (MStr "x")); (lit "License", Some (MStr (lit "MIT" ++ [lf] ++ lit "Permission is granted")))] = Ok text /\ read_metadata text = [(lit "Name", MStr "x")].
Proof. eexists. split; vm_compute; reflexivity. Qed.

(** ** C129 *)
(** REFUTED: the maintainers are not used: the fields for them hold the authors *)
Theorem C129_maintainers_refuted : (forall authors m1 m2, people_fields authors m1 = people_fields authors m2) /\
  people_fields None (Some [Contact (Some (lit "M")) (Some (lit "m@x"))]) = [(lit "Author", []); (lit "Author-email", []); (lit "Maintainer", []); (lit "Maintainer-email", [])].
Proof. split; reflexivity. Qed.
(** REFUTED: who has which address cannot be told from the metadata *)
Theorem C129_address_refuted : exists a b, a <> b /\ people_fields (Some a) None = people_fields (Some b) None.
Proof. exists [Contact (Some (lit "A")) (Some (lit "m@x")); Contact (Some (lit "B")) None], [Contact (Some (lit "A")) None; Contact (Some (lit "B")) (Some (lit "m@x"))]. split; [discriminate|reflexivity]. Qed.
(** what holds: the names and the addresses of the authors are there *)
Theorem C129_authors_partial : forall authors maintainers, exists names emails, dict_get (lit "Author") (people_fields (Some authors) maintainers) = Some (join ", " names) /\ dict_get (lit "Author-email") (people_fields (Some authors) maintainers) = Some (join ", " emails) /\
  (forall n, n <> [] -> (In n names <-> exists a, In a authors /\ c_name a = Some n)) /\ (forall e, e <> [] -> (In e emails <-> exists a, In a authors /\ c_email a = Some e)).
Proof.
  intros authors maintainers. exists (truthy_texts (map c_name authors)), (truthy_texts (map c_email authors)). split; [reflexivity|]. split; [reflexivity|].
  assert (G : forall (f : contact -> option str) n, n <> [] -> (In n (truthy_texts (map f authors)) <-> exists a, In a authors /\ f a = Some n)).
  { intros f n N. unfold truthy_texts. rewrite in_flat_map. split.
    - intros (o & O & I). apply in_map_iff in O as (a & A & O). exists a. split; [exact O|]. destruct o as [[|c s]|]; [destruct I| |destruct I]. destruct I as [<-|[]]. exact A.
    - intros (a & A & E). exists (Some n). split; [apply in_map_iff; eauto|]. destruct n; [congruence|left; reflexivity]. }
  split; intros n N; apply G; exact N.
Qed.

(** ** C130 *)
(** the python version of a wheel without a build number, and other files are source distributions *)
Theorem C130_upload_partial : forall name version python rest, ~ In "-"%char name -> ~ In "-"%char version -> ~ In "-"%char python ->
  upload_type (name ++ lit "-" ++ version ++ lit "-" ++ python ++ lit "-" ++ rest ++ lit ".whl") = (lit "bdist_wheel", Ok python).
Proof.
  intros name version python rest A B C. unfold upload_type. set (file := name ++ lit "-" ++ version ++ lit "-" ++ python ++ lit "-" ++ rest ++ lit ".whl"). assert (W : is_wheel file = true).
  { unfold is_wheel. apply andb_true_iff. split.
    - apply starts_with_iff. exists (rev (name ++ lit "-" ++ version ++ lit "-" ++ python ++ lit "-" ++ rest)). rewrite <- rev_app_distr. unfold file. rewrite <- !app_assoc. reflexivity.
    - apply Nat.ltb_lt. unfold file. rewrite !app_length. cbn. lia. }
  rewrite W. replace (split_on "-" file) with (name :: version :: python :: split_on "-" (rest ++ lit ".whl")); [reflexivity|]. unfold file. cbn [lit app list_ascii_of_string]. rewrite !split_on_app by assumption. reflexivity.
Qed.
(** any other file is uploaded as a source distribution *)
Theorem C130_source : forall name, (forall s, name <> s ++ lit ".whl") -> upload_type name = (lit "sdist", Ok (lit "source")).
Proof.
  intros name N. unfold upload_type. destruct (is_wheel name) eqn:W; [|reflexivity]. exfalso. unfold is_wheel in W. apply andb_true_iff in W. destruct W as [W _]. apply starts_with_iff in W. destruct W as [r E]. apply (N (rev r)). rewrite <- (rev_involutive name), E, rev_app_distr, rev_involutive. reflexivity.
Qed.
(** how the name of a field is spelled in the form *)
Definition spelled (k k' : str) : Prop := Forall2 (fun c c' => (c = "-"%char /\ c' = "_"%char) \/ (c <> "-"%char /\ [c'] = lower [c])) k k'.
Lemma upload_spelled : forall k, spelled k (upload_key k).
Proof.
  induction k as [|c k IH]; [constructor|]. unfold upload_key. cbn [map lower]. constructor; [|exact IH]. destruct (Ascii.eqb c "-") eqn:E; [left; apply Ascii.eqb_eq in E; subst c; split; reflexivity|]. right. split; [|reflexivity]. intros ->. discriminate E.
Qed.
Lemma fresh_dict : forall V (l : list (str * V)) d, NoDup (map fst (d ++ l)) -> fold_left (fun d e => dict_set (fst e) (snd e) d) l d = d ++ l.
Proof.
  intros V. induction l as [|[k v] l IH]; intros d N; [rewrite app_nil_r; reflexivity|]. cbn [fold_left fst snd].
  assert (S : dict_set k v d = d ++ [(k, v)]).
  { rewrite map_app in N. apply NoDup_remove_2 in N. assert (M : ~ In k (map fst d)) by (intro I; apply N, in_or_app; left; exact I). clear - M. induction d as [|[x y] d IH]; [reflexivity|]. cbn [dict_set]. destruct (str_eqb k x) eqn:E; [apply str_eqb_eq in E; subst x; exfalso; apply M; left; reflexivity|]. cbn [app]. f_equal. apply IH. intro I. apply M. right. exact I. }
  rewrite S, IH; [rewrite <- app_assoc; reflexivity|]. rewrite <- app_assoc. exact N.
Qed.
(** every value of every field is sent, under its name in the form *)
Theorem C130_fields : forall data, NoDup (map (fun e => upload_key (fst e)) data) ->
  exists names, Forall2 (fun e k => spelled (fst e) k) data names /\
    upload_fields data = flat_map (fun e => map (fun s => (fst e, s)) (match snd e with MStr s => [s] | MList l => l end)) (combine names (map snd data)).
Proof.
  intros data N. exists (map (fun e => upload_key (fst e)) data). split.
  - clear N. induction data as [|e data IH]; [constructor|]. cbn [map]. constructor; [apply upload_spelled|exact IH].
  - unfold upload_fields. assert (E : forall d, fold_left (fun d e => dict_set (upload_key (fst e)) (snd e) d) data d = fold_left (fun d e => dict_set (fst e) (snd e) d) (map (fun e => (upload_key (fst e), snd e)) data) d).
    { clear N. induction data as [|e data IH]; intro d; [reflexivity|]. cbn [fold_left map fst snd]. apply IH. }
    rewrite E, fresh_dict; [|cbn [app]; rewrite map_map; exact N]. cbn [app].
    assert (C : combine (map (fun e => upload_key (fst e)) data) (map snd data) = map (fun e => (upload_key (fst e), snd e)) data) by (clear; induction data as [|e data IH]; [reflexivity|]; cbn [map combine]; f_equal; exact IH).
    rewrite C. clear. induction data as [|[k [s|l]] data IH]; [reflexivity| |]; cbn [map flat_map fst snd]; rewrite IH; reflexivity.
Qed.
Example C130_fields_sample : NoDup (map (fun e : str * mval => upload_key (fst e)) [(lit "Requires-Dist", MList [lit "a"; lit "b"]); (lit "Name", MStr "x")]).
Proof. constructor; [|constructor; [intros []|constructor]]. intros [E|[]]. vm_compute in E. discriminate E. Qed.
(** REFUTED: with a build number the version is wrong; a file that only has the suffix fails *)
Theorem C130_build_refuted : upload_type "x-1.0-1-py3-none-any.whl" = (lit "bdist_wheel", Ok (lit "1")) /\ upload_type "x.whl" = (lit "bdist_wheel", Err IndexError).
Proof. split; vm_compute; reflexivity. Qed.
Example C130_sample : upload_type "x-1.0-py3-none-any.whl" = (lit "bdist_wheel", Ok (lit "py3")) /\ upload_type "x-1.0.tar.gz" = (lit "sdist", Ok (lit "source")) /\ upload_fields [(lit "Requires-Dist", MList [lit "a"; lit "b"]); (lit "Name", MStr "x")] = [(lit "requires_dist", lit "a"); (lit "requires_dist", lit "b"); (lit "name", lit "x")].
Proof. repeat split; vm_compute; reflexivity. Qed.

Print Assumptions C126_read_partial.
Print Assumptions C126_folded.
Print Assumptions C126_shapes_refuted.
Print Assumptions C127_description_refuted.
Print Assumptions C128_lines_refuted.
Print Assumptions C129_maintainers_refuted.
Print Assumptions C129_address_refuted.
Print Assumptions C129_authors_partial.
Print Assumptions C130_upload_partial.
Print Assumptions C130_build_refuted.
Print Assumptions C126_missing.
Print Assumptions C130_source.
Print Assumptions C130_fields.
