(** Properties of publishing and of the hash of environments: C284, C285, C286, C287. *)
From Coq Require Import String Ascii List Bool NArith Arith Lia Permutation.
From Verif Require Import Base BaseFacts RepoModel PlanProofs PublishModel PublishProofs.
From Verif Require PlanModel.
Import PlanModel(dict_update).
Import ListNotations.
Open Scope string_scope.
Open Scope nat_scope.
Open Scope list_scope.
Open Scope bool_scope.

(** ** C284: what is sent *)
Definition reserved : list str :=
  [lit "filetype"; lit "pyversion"; lit "md5_digest"; lit "sha256_digest"; lit "blake2_256_digest"; lit ":action"; lit "protocol_version"; lit "content"].

(** each entry of the metadata is sent, one field for each value, in their order *)
Theorem C284_metadata_partial : forall h m name content fs k v,
  upload h m name content = Ok fs -> NoDup (map (fun e => upload_key (fst e)) m) -> In (k, v) m -> ~ In (upload_key k) reserved ->
  sent fs (upload_key k) = values v.
Proof.
  intros h m name content fs k v H N I R. destruct (upload_ok _ _ _ _ _ H) as (pv & _ & _ & ->). rewrite sent_app.
  rewrite sent_fields by (apply dict_update_nodup; apply base_nodup).
  rewrite dict_update_get by (rewrite special_keys; intro X; apply R; unfold reserved; cbn [In] in *; tauto).
  assert (B : dict_get (upload_key k) (base_data m) = Some v).
  { unfold base_data. apply dict_update_has; [rewrite map_map; exact N|]. apply in_map_iff. exists (k, v). split; [reflexivity|exact I]. }
  rewrite B. unfold sent. cbn [filter f_name]. destruct (str_eqb (lit "content") (upload_key k)) eqn:E.
  - apply str_eqb_eq in E. exfalso. apply R. rewrite <- E. unfold reserved. cbn [In]. repeat ((left; reflexivity) || right).
  - cbn [map]. apply app_nil_r.
Qed.

(** nothing else is sent *)
Theorem C284_nothing_else_partial : forall h m name content fs f, upload h m name content = Ok fs -> In f fs ->
  In (f_name f) reserved \/ exists k v, In (k, v) m /\ f_name f = upload_key k /\ In (f_payload f) (values v) /\ f_file f = None.
Proof.
  intros h m name content fs f H I. destruct (upload_ok _ _ _ _ _ H) as (pv & _ & _ & ->). apply in_app_iff in I. destruct I as [I|[<-|[]]].
  - apply in_flat_map in I. destruct I as ([k v] & I & J). apply in_map_iff in J. destruct J as (s & <- & J). cbn [fst snd f_name f_payload f_file] in *.
    apply dict_update_in in I; [|apply special_nodup|apply base_nodup]. destruct I as [I|[I _]].
    + left. assert (K : In k (map fst (special h name content pv))) by (apply in_map_iff; exists (k, v); split; [reflexivity|exact I]).
      rewrite special_keys in K. unfold reserved; cbn [In] in *; tauto.
    + right. apply nodup_get in I; [|apply base_nodup]. assert (X := dict_of_get_in _ _ _ _ I). apply in_map_iff in X. destruct X as ([k0 v0] & E & X).
      cbn [fst snd] in E. injection E as E1 E2. subst k v. exists k0, v0. repeat split; [exact X|exact J].
  - left. unfold reserved. cbn [f_name In]. repeat ((left; reflexivity) || right).
Qed.

(** the file comes last and under its name, with the digests of exactly what is sent *)
Theorem C284_file_partial : forall h m name content fs, upload h m name content = Ok fs ->
  sent fs (lit "md5_digest") = [md5 h content] /\ sent fs (lit "sha256_digest") = [sha256 h content] /\ sent fs (lit "blake2_256_digest") = [blake2 h content]
  /\ sent fs (lit ":action") = [lit "file_upload"] /\ sent fs (lit "protocol_version") = [lit "1"]
  /\ last fs (Field [] [] None) = Field (lit "content") content (Some name)
  /\ (forall f, In f fs -> f_file f <> None -> f = Field (lit "content") content (Some name)).
Proof.
  intros h m name content fs H. destruct (upload_ok _ _ _ _ _ H) as (pv & _ & _ & ->).
  assert (G : forall k v, In (k, One v) (special h name content pv) -> sent (fields_of (dict_update (base_data m) (special h name content pv)) ++ [Field (lit "content") content (Some name)]) k = [v]).
  { intros k v I. rewrite sent_app, sent_fields by (apply dict_update_nodup; apply base_nodup).
    rewrite (dict_update_has _ _ _ k (One v) (special_nodup _ _ _ _) I). cbn [values]. unfold sent. cbn [filter f_name].
    destruct (str_eqb (lit "content") k) eqn:E; [|reflexivity]. apply str_eqb_eq in E. subst k. exfalso. cbn [special In] in I.
    repeat (destruct I as [I|I]; [apply (f_equal fst) in I; discriminate I|]). destruct I. }
  repeat split; try (apply G; cbn [special In]; repeat ((left; reflexivity) || right)).
  - apply last_last.
  - intros f I F. apply in_app_iff in I. destruct I as [I|[I|[]]]; [|symmetry; exact I]. exfalso. apply F. apply in_flat_map in I. destruct I as (e & _ & J).
    apply in_map_iff in J. destruct J as (s & <- & _). reflexivity.
Qed.

(** the tag of a wheel without a build number *)
Theorem C284_tag_partial : forall h m dist version py abi plat content fs,
  ~ In "-"%char dist -> ~ In "-"%char version -> ~ In "-"%char py ->
  let name := dist ++ lit "-" ++ version ++ lit "-" ++ py ++ lit "-" ++ abi ++ lit "-" ++ plat ++ lit ".whl" in
  upload h m name content = Ok fs -> sent fs (lit "pyversion") = [py] /\ sent fs (lit "filetype") = [lit "bdist_wheel"].
Proof.
  intros h m dist version py abi plat content fs A B C name H. destruct (upload_ok _ _ _ _ _ H) as (pv & P & _ & ->).
  assert (W : is_wheel_name name = true).
  { unfold name, is_wheel_name. apply andb_true_intro. split.
    - apply Nat.ltb_lt. rewrite !app_length. cbn [length lit list_ascii_of_string]. lia.
    - apply str_eqb_eq. set (pre := dist ++ lit "-" ++ version ++ lit "-" ++ py ++ lit "-" ++ abi ++ lit "-" ++ plat).
      replace (dist ++ lit "-" ++ version ++ lit "-" ++ py ++ lit "-" ++ abi ++ lit "-" ++ plat ++ lit ".whl") with (pre ++ lit ".whl") by (unfold pre; rewrite <- !app_assoc; reflexivity).
      rewrite app_length. change (length (lit ".whl")) with 4. rewrite Nat.add_sub. rewrite skipn_app, skipn_all, Nat.sub_diag. reflexivity. }
  unfold py_version in P. rewrite W in P.
  assert (E : split_on "-" name = dist :: version :: py :: split_on "-" (abi ++ lit "-" ++ plat ++ lit ".whl")).
  { unfold name. change (lit "-") with ["-"%char] at 1 2 3. cbn [app]. rewrite split_on_app by exact A. f_equal. rewrite split_on_app by exact B. f_equal. rewrite split_on_app by exact C. reflexivity. }
  rewrite E in P. cbn [nth_error] in P. apply Ok_inj in P. subst pv.
  assert (G : forall k v, In (k, One v) (special h name content py) -> k <> lit "content" -> sent (fields_of (dict_update (base_data m) (special h name content py)) ++ [Field (lit "content") content (Some name)]) k = [v]).
  { intros k v I NC. rewrite sent_app, sent_fields by (apply dict_update_nodup; apply base_nodup).
    rewrite (dict_update_has _ _ _ k (One v) (special_nodup _ _ _ _) I). cbn [values]. unfold sent. cbn [filter f_name].
    destruct (str_eqb (lit "content") k) eqn:E'; [|reflexivity]. apply str_eqb_eq in E'. congruence. }
  split.
  - apply G; [right; left; reflexivity|discriminate].
  - apply G; [left; unfold file_type; rewrite W; reflexivity|discriminate].
Qed.

Definition toy_digests : digests := Digests (fun s => lit "m" ++ s) (fun s => lit "s" ++ s) (fun s => lit "b" ++ s).
Definition toy_meta : list (str * mval) :=
  [(lit "Metadata-Version", One (lit "2.1")); (lit "Name", One (lit "demo")); (lit "Version", One (lit "1.0")); (lit "Classifier", Many [lit "A"; lit "B"]); (lit "Requires-Dist", Many [lit "x"; lit "y>1"])].

(** the tag that is told for a wheel with a build number is the build number *)
Theorem C284_build_refuted : exists fs,
  upload toy_digests toy_meta (lit "demo-1.0-7-py3-none-any.whl") (lit "PK") = Ok fs /\ sent fs (lit "pyversion") = [lit "7"].
Proof. eexists. split; [vm_compute; reflexivity|reflexivity]. Qed.

(** the entries that the index knows by their plural names, https://docs.pypi.org/api/upload, are sent under the names of the metadata *)
Theorem C284_plural_refuted : exists fs,
  upload toy_digests toy_meta (lit "demo-1.0-py3-none-any.whl") (lit "PK") = Ok fs
  /\ In (lit "Classifier", Many [lit "A"; lit "B"]) toy_meta /\ sent fs (lit "classifiers") = [] /\ sent fs (lit "classifier") = [lit "A"; lit "B"].
Proof. eexists. split; [vm_compute; reflexivity|]. split; [cbn [toy_meta In]; tauto|]. split; reflexivity. Qed.

(** whatever else lies among the distributions is sent as a source distribution *)
Theorem C284_any_file_refuted : exists fs, upload toy_digests toy_meta (lit "notes.txt") (lit "hi") = Ok fs
  /\ sent fs (lit "filetype") = [lit "sdist"] /\ sent fs (lit "pyversion") = [lit "source"] /\ sent fs (lit "content") = [lit "hi"].
Proof. eexists. split; [vm_compute; reflexivity|]. repeat split; reflexivity. Qed.

(** the names of the fields: small letters, and lines for dashes *)
Theorem C284_field_names : forall k, (forall c, In c (upload_key k) -> c <> "-"%char /\ is_upper c = false) /\
  (forall a b, k = a ++ lit "-" ++ b -> upload_key k = upload_key a ++ lit "_" ++ upload_key b) /\ length (upload_key k) = length k.
Proof.
  intros k. split; [|split].
  - intros c H. unfold upload_key, lower in H. rewrite map_map in H. apply in_map_iff in H. destruct H as (x & <- & _).
    destruct x as [[] [] [] [] [] [] [] []]; (split; [discriminate|reflexivity]).
  - intros a b ->. unfold upload_key, lower. rewrite !map_app. reflexivity.
  - unfold upload_key, lower. rewrite !map_length. reflexivity.
Qed.
Example C284_example : exists fs,
  upload toy_digests toy_meta (lit "demo-1.0-py3-none-any.whl") (lit "PK") = Ok fs
  /\ NoDup (map (fun e => upload_key (fst e)) toy_meta)
  /\ sent fs (lit "requires_dist") = [lit "x"; lit "y>1"] /\ sent fs (lit "metadata_version") = [lit "2.1"] /\ sent fs (lit "pyversion") = [lit "py3"] /\ length fs = 15
  /\ upload toy_digests toy_meta (lit "demo-1.0.whl") (lit "PK") = Err IndexError /\ upload toy_digests [(lit "Summary", Unsendable)] (lit "demo-1.0.tar.gz") [] = Err ValueError.
Proof. eexists. split; [vm_compute; reflexivity|]. split; [apply nodup_str; reflexivity|]. repeat split; reflexivity. Qed.

(** ** C285: the credentials *)
(** a server that reads the header finds the user and the password that were given, if the name of the user has no colon *)
Theorem C285_credentials_partial : forall user password, ~ In ":"%char user -> exists value,
  auth_header [(lit "username", user); (lit "password", password)] = Ok (lit "Authorization", lit "Basic " ++ value)
  /\ auth_header [(lit "password", password); (lit "username", user)] = Ok (lit "Authorization", lit "Basic " ++ value)
  /\ exists text, b64decode value = Some text /\ cut_colon text = Some (user, password).
Proof.
  intros u p N. exists (b64encode (u ++ lit ":" ++ p)). split; [reflexivity|]. split; [reflexivity|]. exists (u ++ lit ":" ++ p). split; [apply b64_round|apply cut_colon_app; exact N].
Qed.

(** different credentials give different headers, then *)
Theorem C285_distinct_partial : forall u p u' p', ~ In ":"%char u -> ~ In ":"%char u' -> basic_header u p = basic_header u' p' -> u = u' /\ p = p'.
Proof.
  intros u p u' p' N N' H. unfold basic_header in H. apply (f_equal snd) in H. cbn [snd] in H. apply app_inv_head in H.
  assert (X : b64decode (b64encode (u ++ lit ":" ++ p)) = b64decode (b64encode (u' ++ lit ":" ++ p'))) by (rewrite H; reflexivity).
  rewrite !b64_round in X. injection X as X. assert (Y : cut_colon (u ++ lit ":" ++ p) = cut_colon (u' ++ lit ":" ++ p')) by (cbn [app lit list_ascii_of_string]; rewrite X; reflexivity).
  rewrite !cut_colon_app in Y by assumption. injection Y as Y1 Y2. split; assumption.
Qed.

(** the header is one line of letters that a header may have *)
Theorem C285_one_line : forall user password c, In c (snd (basic_header user password)) -> c = " "%char \/ c = "="%char \/ unletter c <> None.
Proof.
  intros u p c I. unfold basic_header in I. cbn [snd] in I. apply in_app_iff in I. destruct I as [I|I].
  - cbv in I. destruct I as [<-|[<-|[<-|[<-|[<-|[<-|[]]]]]]]; try (right; right; discriminate). left. reflexivity.
  - right. revert I. generalize (u ++ lit ":" ++ p). intro l. remember (length l) as n eqn:L. assert (L' : length l <= n) by lia. clear L. revert l L'.
    induction n as [|n IH]; intros l L I.
    + destruct l; [destruct I|cbn [length] in L; lia].
    + destruct l as [|[a0 a1 a2 a3 a4 a5 a6 a7] [|[b0 b1 b2 b3 b4 b5 b6 b7] [|[c0 c1 c2 c3 c4 c5 c6 c7] r]]]; cbn [b64encode In] in I;
        repeat (destruct I as [I|I]; [first [left; symmetry; exact I|right; rewrite <- I, unletter_letter; discriminate]|]); try (destruct I; fail).
      apply (IH r); [cbn [length] in L; lia|exact I].
Qed.

Theorem C285_colon_refuted : exists u p u' p', (u, p) <> (u', p') /\ basic_header u p = basic_header u' p'
  /\ exists text, b64decode (b64encode (u ++ lit ":" ++ p)) = Some text /\ cut_colon text <> Some (u, p).
Proof.
  exists (lit "corp:ann"), (lit "s3cret"), (lit "corp"), (lit "ann:s3cret"). split; [intro H; apply (f_equal fst) in H; discriminate H|]. split; [reflexivity|].
  exists (lit "corp:ann:s3cret"). split; [apply b64_round|intro H; discriminate H].
Qed.

(** exactly a user and a password make a header *)
Theorem C285_arguments : forall args header, auth_header args = Ok header ->
  length args = 2 /\ exists u p, In (lit "username", u) args /\ In (lit "password", p) args /\ header = basic_header u p.
Proof.
  intros args header H. unfold auth_header in H. destruct (dict_get (lit "username") args) as [u|] eqn:Eu; [|discriminate].
  destruct (dict_get (lit "password") args) as [p|] eqn:Ep; [|discriminate]. destruct (Nat.eqb_spec (length args) 2) as [L|L]; [|discriminate].
  split; [exact L|]. exists u, p. split; [apply dict_get_in; exact Eu|]. split; [apply dict_get_in; exact Ep|]. congruence.
Qed.


(** RFC 7617, section 2 *)
Example C285_example : basic_header (lit "Aladdin") (lit "open sesame") = (lit "Authorization", lit "Basic QWxhZGRpbjpvcGVuIHNlc2FtZQ==") /\ ~ In ":"%char (lit "Aladdin")
  /\ auth_header [(lit "username", lit "a")] = Err TypeError /\ auth_header [(lit "username", lit "a"); (lit "password", lit "b"); (lit "token", lit "c")] = Err TypeError.
Proof. split; [reflexivity|]. split; [intro H; cbv in H; repeat (destruct H as [H|H]; [discriminate H|]); exact H|]. split; reflexivity. Qed.

(** ** C286: the publisher of a name *)
(** the nearest repository of the name is asked, and only what is defined is found *)
Theorem C286_nearest_partial : forall P (pub : repo -> option P) bs before repos after name i rest built r c,
  (forall l e, In l before -> In e l -> fst e <> name) -> (forall e, In e repos -> fst e <> name) ->
  build bs name (i_type i) (i_args i) built = (Ok r, c) ->
  let e := publisher_for P pub bs (before ++ (repos ++ (name, i) :: rest) :: after) name (Memory P [] built) in
  fst e = Ok (pub r)
  /\ (forall chain, publisher_for P pub bs chain name (snd e) = (Ok (pub r), snd e)).
Proof.
  intros P pub bs before repos after name i rest built r c B R Q.
  assert (F : find_repo (before ++ (repos ++ (name, i) :: rest) :: after) name = Some i).
  { unfold find_repo. rewrite concat_app. cbn [concat]. rewrite <- !app_assoc. cbn [app].
    assert (G : forall l t, (forall e, In e l -> fst e <> name) -> find (fun e : str * instance => str_eqb (fst e) name) (l ++ t) = find (fun e => str_eqb (fst e) name) t).
    { induction l as [|x l IH]; intros t N; [reflexivity|]. cbn [app find]. assert (X : str_eqb (fst x) name = false) by (apply str_eqb_neq; apply N; left; reflexivity). rewrite X. apply IH. intros e I. apply N. right. exact I. }
    rewrite G by (intros e I; apply in_concat in I; destruct I as (l & L & I); apply (B l); assumption). rewrite G by exact R. cbn [find fst]. rewrite str_eqb_refl. reflexivity. }
  cbv zeta. unfold publisher_for at 1 3 4. cbn [e_known dict_get e_built]. rewrite F, Q. cbn [fst snd]. split; [reflexivity|]. intro chain. unfold publisher_for. cbn [e_known]. rewrite dict_get_set_same. reflexivity.
Qed.

Theorem C286_missing : forall P (pub : repo -> option P) bs chain name e,
  dict_get name (e_known P e) = None -> (forall l x, In l chain -> In x l -> fst x <> name) -> publisher_for P pub bs chain name e = (Err NoSuchElement, e).
Proof.
  intros P pub bs chain name e G N. unfold publisher_for. rewrite G. assert (F : find_repo chain name = None).
  { unfold find_repo. destruct (find (fun x : str * instance => str_eqb (fst x) name) (concat chain)) as [x|] eqn:E; [|reflexivity]. exfalso. apply List.find_some in E. destruct E as [I E].
    apply in_concat in I. destruct I as (l & L & I). apply (N l x L I). apply str_eqb_eq. exact E. }
  rewrite F. reflexivity.
Qed.

Definition toy_repo (name : str) (args : list (str * str)) : res repo := Ok (Repo name true (map snd args) (fun _ => Ok [])).
Definition toy_builders : builders := [(lit "pypi", toy_repo)].
(** a publisher: the name of its repository and where it sends to *)
Definition toy_publisher (r : repo) : option (str * list str) := Some (r_name r, r_protocols r).
Definition at_url (u : str) : instance := Instance (lit "pypi") false [(lit "url", u)].

(** a parent that moves the repository, or drops it, is not noticed: uploads go to the old place *)
Theorem C286_moved_refuted : exists before after e,
  snd (publisher_for _ toy_publisher toy_builders [[]; before] (lit "main") (Memory _ [] [])) = e
  /\ fst (publisher_for _ toy_publisher toy_builders [[]; after] (lit "main") (Memory _ [] [])) = Ok (Some (lit "main", [lit "https://new"]))
  /\ fst (publisher_for _ toy_publisher toy_builders [[]; after] (lit "main") e) = Ok (Some (lit "main", [lit "https://old"]))
  /\ fst (publisher_for _ toy_publisher toy_builders [[]; []] (lit "main") e) = Ok (Some (lit "main", [lit "https://old"])).
Proof. exists [(lit "main", at_url (lit "https://old"))], [(lit "main", at_url (lit "https://new"))]. eexists. split; [reflexivity|]. repeat split; reflexivity. Qed.

(** two names for the same place have a publisher of one name, the one that was asked for first *)
Theorem C286_name_refuted : exists repos e,
  repos = [(lit "main", at_url (lit "https://one")); (lit "mirror", at_url (lit "https://one"))]
  /\ publisher_for _ toy_publisher toy_builders [repos] (lit "main") (Memory _ [] []) = (Ok (Some (lit "main", [lit "https://one"])), e)
  /\ fst (publisher_for _ toy_publisher toy_builders [repos] (lit "mirror") e) = Ok (Some (lit "main", [lit "https://one"])).
Proof. eexists. eexists. split; [reflexivity|]. split; reflexivity. Qed.

Example C286_example :
  fst (publisher_for _ toy_publisher toy_builders [[(lit "own", at_url (lit "https://a"))]; [(lit "main", at_url (lit "https://b"))]; [(lit "main", at_url (lit "https://c"))]] (lit "main") (Memory _ [] []))
    = Ok (Some (lit "main", [lit "https://b"]))
  /\ fst (publisher_for _ toy_publisher toy_builders [[(lit "own", at_url (lit "https://a"))]] (lit "main") (Memory _ [] [])) = Err NoSuchElement
  /\ (exists r c, build toy_builders (lit "main") (lit "pypi") [(lit "url", lit "https://b")] [] = (Ok r, c)).
Proof. split; [reflexivity|]. split; [reflexivity|]. eexists. eexists. reflexivity. Qed.

(** ** C287: the hash of an environment *)
(** the order in which the markers were found does not matter *)
Theorem C287_order : forall m m', NoDup (map fst m) -> Permutation m m' -> marker_text m = marker_text m'.
Proof. intros m m' N P. unfold marker_text. rewrite (sort_order m m' N P). reflexivity. Qed.

(** environments whose markers differ are told apart, as long as no marker has a ";" *)
Theorem C287_apart_partial : forall m m',
  NoDup (map fst m) -> NoDup (map fst m') ->
  (forall k v, In (k, v) m \/ In (k, v) m' -> ~ In "="%char k /\ ~ In ";"%char k /\ ~ In ";"%char v) ->
  marker_text m = marker_text m' -> forall k, dict_get k m = dict_get k m'.
Proof.
  intros m m' N N' A H k. assert (S : sort_markers m = sort_markers m').
  { apply join_pieces_inj; [| |exact H]; apply Forall_forall; intros [k0 v0] I; unfold plain_marker; cbn [fst snd]; apply A.
    - left. eapply Permutation_in; [apply sort_perm|exact I].
    - right. eapply Permutation_in; [apply sort_perm|exact I]. }
  assert (P : Permutation m m') by (rewrite <- (sort_perm m), S; apply sort_perm).
  destruct (dict_get k m) as [v|] eqn:G.
  - symmetry. apply nodup_get; [exact N'|]. eapply Permutation_in; [exact P|]. apply dict_get_in. exact G.
  - symmetry. destruct (dict_get k m') as [v|] eqn:G'; [|reflexivity]. exfalso. apply dict_get_in in G'. apply dict_get_none in G. apply G. apply in_map_iff. exists (k, v). split; [reflexivity|].
    eapply Permutation_in; [symmetry; exact P|exact G'].
Qed.

Theorem C287_semicolon_refuted : exists m m' k, NoDup (map fst m) /\ map fst m = map fst m' /\ marker_text m = marker_text m' /\ dict_get k m <> dict_get k m'.
Proof.
  exists [(lit "platform_release", lit "5;platform_version=6"); (lit "platform_version", lit "7")], [(lit "platform_release", lit "5"); (lit "platform_version", lit "6;platform_version=7")], (lit "platform_version").
  split; [apply nodup_str; reflexivity|]. split; [reflexivity|]. split; [reflexivity|]. intro H. apply (f_equal (fun x => match x with Some l => length l | None => 0 end)) in H. discriminate H.
Qed.

Example C287_example :
  marker_text [(lit "python_version", lit "3.10"); (lit "os_name", lit "posix")] = lit "os_name=posix;python_version=3.10"
  /\ marker_text [(lit "os_name", lit "posix"); (lit "python_version", lit "3.10")] = lit "os_name=posix;python_version=3.10"
  /\ marker_text [(lit "os_name", lit "posix"); (lit "python_version", lit "3.9")] <> lit "os_name=posix;python_version=3.10".
Proof. split; [reflexivity|]. split; [reflexivity|]. intro H. apply (f_equal (@length _)) in H. discriminate H. Qed.
