(** C112: the versions of an index.  C113: metadata of versions.  C114: unreadable files.  C115: versions in file names.
    C116: links of index pages.  C117: verified downloads.  C118: repeating a download.  C119: places of downloads.
    C120: the files of a version. *)
From Coq Require Import String Ascii List Bool NArith Arith Lia Permutation.
From Verif Require Import Base BaseFacts NamesModel NamesProofs VersionModel VersionSpec VersionParse VersionProofs VersionProps SpecifierModel SpecParse CollectionModel CollectionProofs CollectionProps ConfigModel ConfigProofs ConfigProps
  UrlModel HttpProofs IndexModel IndexProofs.
Import ListNotations.
Open Scope string_scope.
Open Scope nat_scope.
Open Scope list_scope.
Open Scope bool_scope.

Definition plain_file (name : string) (python : option string) : file :=
  File false (Some (lit "sdist")) (Some (lit name)) (option_map lit python) (Some (lit "https://files/" ++ lit name)) (Some [(lit "sha256", lit "aa")]).
Definition from_one : spec := Range (Some (SV [1%N] None None None None None)) None true false.
(** ** C112 *)
(** the packages that are returned are the versions of the index that are allowed and have a file to install, each with all of
    these files, highest version first *)
Theorem C112_match : forall as_uri s releases info l, pypi_do_match as_uri s releases info = Ok l ->
  Permutation (map (fun p => (p_version p, map a_info (p_artifacts p))) l) (offered s releases) /\
  (Forall (fun e => orderly (fst e)) (offered s releases) -> ForallOrdPairs (fun p q => version_ltb (p_version p) (p_version q) = false) l).
Proof.
  intros as_uri s releases info l H. unfold pypi_do_match in H. destruct (pypi_packages as_uri s releases info) as [[x i]|] eqn:E; [|discriminate]. injection H as <-. apply packages_offered in E. cbn [fst]. split.
  - rewrite <- E. apply Permutation_map, sort_perm.
  - intro O. rewrite <- E in O. apply sort_sorted. rewrite Forall_forall in *. intros p P. apply (O (p_version p, map a_info (p_artifacts p))). apply in_map_iff. exists p. auto.
Qed.
(** in words: what is offered *)
Theorem C112_offered : forall s releases v files, In (v, files) (offered s releases) <->
  exists text all, In (text, all) releases /\ parse_version text = Ok v /\ allows s v = true /\ files = filter usable all /\ files <> [].
Proof.
  intros s releases v files. unfold offered. rewrite in_flat_map. split.
  - intros ([text all] & I & H). cbn [fst snd] in H. exists text, all. destruct (parse_version text) as [w|]; [|destruct H]. destruct (filter usable all) as [|f r] eqn:F; [destruct H|]. destruct (allows s w) eqn:A; [|destruct H]. destruct H as [H|[]]. injection H as <- <-.
    split; [exact I|]. split; [reflexivity|]. split; [exact A|]. split; [reflexivity|discriminate].
  - intros (text & all & I & V & A & -> & N). exists (text, all). split; [exact I|]. cbn [fst snd]. rewrite V. destruct (filter usable all) as [|f r]; [congruence|]. rewrite A. left. reflexivity.
Qed.
(** every file keeps its name and its python requirement *)
Theorem C112_artifacts : forall as_uri s releases info l p a, pypi_do_match as_uri s releases info = Ok l -> In p l -> In a (p_artifacts p) ->
  f_filename (a_info a) = Some (a_name a) /\ a_name a <> [] /\
  ((a_python a = None /\ (f_python (a_info a) = None \/ f_python (a_info a) = Some [])) \/
   (exists text r, f_python (a_info a) = Some text /\ text <> [] /\ parse_specifier as_uri text = Ok r /\ a_python a = Some r)).
Proof.
  intros as_uri s releases info l p a H P A. unfold pypi_do_match in H. destruct (pypi_packages as_uri s releases info) as [[x i]|] eqn:E; [|discriminate]. injection H as <-. cbn [fst] in P. apply (Permutation_in _ (sort_perm p_version x)) in P.
  assert (G : forall files arts, relevant_artifacts as_uri files = Ok arts -> In a arts -> exists f, create_artifact as_uri f = Ok (Some a)).
  { induction files as [|f r IH]; intros arts R I; cbn [relevant_artifacts] in R; [injection R as <-; destruct I|]. destruct (relevant f); [|exact (IH arts R I)]. destruct (create_artifact as_uri f) as [[b|]|] eqn:C; [| |discriminate]; cbn [bind] in R; (destruct (relevant_artifacts as_uri r) as [rest|] eqn:Q; [|discriminate]); cbn [bind] in R; injection R as <-.
    - destruct I as [<-|I]; [exists f; exact C|exact (IH rest eq_refl I)].
    - exact (IH rest eq_refl I). }
  assert (K : forall rel inf x i, pypi_packages as_uri s rel inf = Ok (x, i) -> In p x -> exists f, create_artifact as_uri f = Ok (Some a)).
  { clear E P. induction rel as [|[text files] rel IH]; intros inf y j R I; cbn [pypi_packages] in R; [injection R as <- <-; destruct I|]. destruct (relevant_artifacts as_uri files) as [arts|] eqn:Q; [|discriminate]. cbn [bind] in R. destruct arts as [|a0 arts]; [exact (IH inf y j R I)|]. destruct (parse_version text) as [v|]; [|discriminate]. cbn [bind] in R.
    destruct (allows s v); [|exact (IH inf y j R I)]. destruct (parse_fields (metadata_schema as_uri) inf) as [m|]; [|discriminate]. cbn [bind] in R. destruct (pypi_packages as_uri s rel (snd m)) as [[z k]|] eqn:Z; [|discriminate]. cbn [bind fst snd] in R. injection R as <- <-. destruct I as [<-|I]; [exact (G files _ Q A)|exact (IH _ z k Z I)]. }
  destruct (K releases info x i E P) as [f C]. unfold create_artifact in C. destruct (nonempty (f_filename f)) as [name|] eqn:N; [|discriminate]. assert (F : f_filename f = Some name /\ name <> []) by (unfold nonempty in N; destruct (f_filename f) as [[|c t]|]; try discriminate; injection N as <-; split; [reflexivity|discriminate]). destruct F as [F1 F2].
  destruct (nonempty (f_python f)) as [text|] eqn:T.
  - destruct (parse_specifier as_uri text) as [r|] eqn:R; [|discriminate]. injection C as <-. cbn [a_info a_name a_python]. split; [exact F1|]. split; [exact F2|]. right. exists text, r. unfold nonempty in T. destruct (f_python f) as [[|c t]|]; try discriminate. injection T as <-. repeat split; [discriminate|exact R].
  - injection C as <-. cbn [a_info a_name a_python]. split; [exact F1|]. split; [exact F2|]. left. split; [reflexivity|]. unfold nonempty in T. destruct (f_python f) as [[|c t]|]; [right; reflexivity|discriminate|left; reflexivity].
Qed.
Example C112_artifacts_sample : exists l p a r, pypi_do_match (fun x => x) from_one [(lit "1.0", [plain_file "x-1.0.tar.gz" (Some ">=3.6")])] [(lit "Name", VStr "x")] = Ok l /\ l = [p] /\ p_artifacts p = [a] /\ a_python a = Some r /\ allows r (VStd (SV [3; 5]%N None None None None None)) = false.
Proof. eexists. eexists. eexists. eexists. split; [vm_compute; reflexivity|]. split; [reflexivity|]. split; [reflexivity|]. split; [reflexivity|]. vm_compute. reflexivity. Qed.
Example C112_sample : exists l, pypi_do_match (fun x => x) from_one
    [(lit "0.9", [plain_file "x-0.9.tar.gz" None]); (lit "1.0", [plain_file "x-1.0.tar.gz" (Some ">=3.6")]); (lit "1.10", [plain_file "x-1.10.tar.gz" None; File true (Some (lit "sdist")) (Some (lit "y")) None None None]);
     (lit "1.9", [File false (Some (lit "bdist_egg")) (Some (lit "x-1.9.egg")) None None None; plain_file "x-1.9.zip" None]); (lit "2.0", [File true (Some (lit "sdist")) (Some (lit "x-2.0.zip")) None None None])]
    [(lit "Name", VStr "x")] = Ok l /\
  map (fun p => (version_str (p_version p), map a_name (p_artifacts p))) l = [(lit "1.10", [lit "x-1.10.tar.gz"]); (lit "1.9", [lit "x-1.9.zip"]); (lit "1.0", [lit "x-1.0.tar.gz"])].
Proof. eexists. split; vm_compute; reflexivity. Qed.

(** ** C113 *)
(** all versions but one come without metadata: name, summary, dependencies and so on have their defaults *)
Theorem C113_only_one : forall as_uri s releases info l, pypi_do_match as_uri s releases info = Ok l ->
  l = [] \/ exists l1 p l2, l = l1 ++ p :: l2 /\ Forall (fun q => p_meta q = no_metadata as_uri) (l1 ++ l2).
Proof.
  intros as_uri s releases info l H. unfold pypi_do_match in H. destruct (pypi_packages as_uri s releases info) as [[x i]|] eqn:E; [|discriminate]. injection H as <-. apply packages_first in E. cbn [fst] in *. destruct x as [|p x]; [left; reflexivity|right]. cbn [tl] in E.
  assert (P := sort_perm p_version (p :: x)). destruct (in_split p (sorted_by_version p_version (p :: x))) as (l1 & l2 & S).
  { eapply Permutation_in; [apply Permutation_sym, P|left; reflexivity]. }
  exists l1, p, l2. split; [exact S|]. rewrite S in P. apply Permutation_sym, Permutation_cons_app_inv in P. eapply Permutation_Forall; [exact P|exact E].
Qed.
Theorem C113_metadata_refuted : exists l p q, pypi_do_match (fun x => x) from_one
    [(lit "1.0", [plain_file "x-1.0.tar.gz" None]); (lit "1.1", [plain_file "x-1.1.tar.gz" None])] [(lit "Name", VStr "x"); (lit "Version", VStr "1.1"); (lit "Requires-Dist", VList [VStr "y"])] = Ok l /\ In p l /\ In q l /\
  version_str (p_version p) = lit "1.0" /\ dict_get (lit "package_version") (p_meta p) = Some (Value (Some (VStr "1.1"))) /\ dict_get (lit "dependencies") (p_meta p) = Some (Value (Some (VList [VStr "y"]))) /\
  version_str (p_version q) = lit "1.1" /\ dict_get (lit "package_version") (p_meta q) = Some (Value None) /\ dict_get (lit "package_name") (p_meta q) = Some (Value None) /\ dict_get (lit "dependencies") (p_meta q) = Some (Value (Some (VList []))).
Proof.
  do 3 eexists. split; [vm_compute; reflexivity|]. split; [right; left; reflexivity|]. split; [left; reflexivity|]. repeat (split; [vm_compute; reflexivity|]). vm_compute. reflexivity.
Qed.

(** ** C114 *)
(** the answer fails exactly if some file that could be installed, of any version, has a python requirement that cannot be read,
    or if there is something to return and the description of the project cannot be read *)
Theorem C114_fails_iff : forall as_uri s releases info, (exists l, pypi_do_match as_uri s releases info = Ok l) <->
  (forall text files f, In (text, files) releases -> In f files -> usable f = true -> readable_python as_uri f) /\
  (offered s releases <> [] -> exists m, parse_fields (metadata_schema as_uri) info = Ok m).
Proof.
  intros as_uri s releases info. rewrite <- packages_ok_iff. unfold pypi_do_match. split.
  - intros (l & H). destruct (pypi_packages as_uri s releases info) as [x|]; [eexists; reflexivity|discriminate].
  - intros (x & ->). eexists. reflexivity.
Qed.
(** REFUTED: so one old file, of a version that nobody asks for, makes the project unavailable *)
Theorem C114_other_versions_refuted : allows from_one (VStd (SV [0; 1]%N None None None None None)) = false /\ pypi_do_match (fun x => x) from_one
  [(lit "0.1", [plain_file "x-0.1.tar.gz" (Some "~=3")]); (lit "1.0", [plain_file "x-1.0.tar.gz" None])] [(lit "Name", VStr "x")] = Err ValueError.
Proof. split; vm_compute; reflexivity. Qed.

(** ** C115 *)
Lemma find_ext_wheel : forall s, endswith_any (s ++ lit ".whl") extensions = Some (lit ".whl").
Proof. intro s. unfold endswith_any, extensions. cbn [find]. replace (ends_with (lit ".whl") (s ++ lit ".whl")) with true; [reflexivity|]. symmetry. apply ends_with_iff. exists s. reflexivity. Qed.
Lemma last_char : forall a b (x y : ascii), a ++ [x] = b ++ [y] -> x = y.
Proof. intros a b x y H. apply app_inj_tail in H. apply H. Qed.
Lemma not_ends : forall a e x y, (exists e', e = e' ++ [y]) -> x <> y -> ends_with e (a ++ [x]) = false.
Proof.
  intros a e x y (e' & ->) N. destruct (ends_with (e' ++ [y]) (a ++ [x])) eqn:E; [|reflexivity]. apply ends_with_iff in E. destruct E as (r & E). rewrite app_assoc in E. apply last_char in E. congruence.
Qed.
Lemma find_ext_targz : forall s, endswith_any (s ++ lit ".tar.gz") extensions = Some (lit ".tar.gz").
Proof.
  intro s. unfold endswith_any, extensions. cbn [find]. replace (s ++ lit ".tar.gz") with ((s ++ lit ".tar.g") ++ ["z"%char]) at 1 by (rewrite <- app_assoc; reflexivity).
  rewrite (not_ends _ (lit ".whl") "z" "l"); [|exists (lit ".wh"); reflexivity|discriminate]. replace (ends_with (lit ".tar.gz") (s ++ lit ".tar.gz")) with true; [reflexivity|]. symmetry. apply ends_with_iff. exists s. reflexivity.
Qed.
Lemma find_ext_zip : forall s, endswith_any (s ++ lit ".zip") extensions = Some (lit ".zip").
Proof.
  intro s. unfold endswith_any, extensions. cbn [find]. assert (Z : s ++ lit ".zip" = (s ++ lit ".zi") ++ ["p"%char]) by (rewrite <- app_assoc; reflexivity).
  assert (W : ends_with (lit ".whl") (s ++ lit ".zip") = false) by (rewrite Z; apply (not_ends _ (lit ".whl") "p" "l"); [exists (lit ".wh"); reflexivity|discriminate]).
  assert (G : ends_with (lit ".tar.gz") (s ++ lit ".zip") = false) by (rewrite Z; apply (not_ends _ (lit ".tar.gz") "p" "z"); [exists (lit ".tar.g"); reflexivity|discriminate]).
  rewrite W, G. replace (ends_with (lit ".zip") (s ++ lit ".zip")) with true; [reflexivity|]. symmetry. apply ends_with_iff. exists s. reflexivity.
Qed.
Lemma two_parts : forall c s v, exists a b r, split_on c (s ++ c :: v) = a :: b :: r.
Proof.
  intros c s v. induction s as [|x s (a & b & r & IH)].
  - change ([] ++ c :: v) with (@nil ascii ++ c :: v). rewrite split_on_app by intros []. destruct (split_on c v) eqn:S; [exfalso; exact (split_on_nonempty _ _ S)|eauto].
  - cbn [app split_on]. rewrite IH. destruct (Ascii.eqb x c); eauto.
Qed.
Lemma last_part : forall c s v, ~ In c v -> last (split_on c (s ++ c :: v)) [] = v.
Proof.
  intros c s v N. induction s as [|x s IH].
  - rewrite split_on_app by intros []. rewrite split_on_single by exact N. reflexivity.
  - cbn [app split_on]. destruct (two_parts c s v) as (a & b & r & S). rewrite S in *. destruct (Ascii.eqb x c); exact IH.
Qed.
(** wheels *)
Theorem C115_wheel : forall name v tags, ~ In "-"%char name -> ~ In "-"%char v -> extract_version (name ++ lit "-" ++ v ++ lit "-" ++ tags ++ lit ".whl") = Ok v.
Proof.
  intros name v tags N V. unfold extract_version. replace (name ++ lit "-" ++ v ++ lit "-" ++ tags ++ lit ".whl") with ((name ++ "-"%char :: v ++ "-"%char :: tags) ++ lit ".whl").
  - rewrite find_ext_wheel. rewrite without_suffix_app by discriminate. rewrite split_on_app by exact N. rewrite split_on_app by exact V. reflexivity.
  - rewrite <- !app_assoc. cbn. rewrite <- !app_assoc. reflexivity.
Qed.
(** source distributions, if there is no dash in the version *)
Theorem C115_sdist_partial : forall name v ext, In ext [lit ".tar.gz"; lit ".zip"] -> ~ In "-"%char v -> extract_version (name ++ lit "-" ++ v ++ ext) = Ok v.
Proof.
  intros name v ext E V. unfold extract_version. replace (name ++ lit "-" ++ v ++ ext) with ((name ++ "-"%char :: v) ++ ext) by (rewrite <- app_assoc; reflexivity). destruct E as [<-|[<-|[]]].
  - rewrite find_ext_targz, without_suffix_app by discriminate. cbn [str_eqb]. change (str_eqb (lit ".tar.gz") ".whl") with false. cbn match. rewrite last_part by exact V. reflexivity.
  - rewrite find_ext_zip, without_suffix_app by discriminate. change (str_eqb (lit ".zip") ".whl") with false. cbn match. rewrite last_part by exact V. reflexivity.
Qed.
(** REFUTED: a post release in the form that PEP 440 allows, and a name that makes the whole page fail *)
Theorem C115_dash_refuted : extract_version "x-1.0-1.tar.gz" = Ok (lit "1") /\ extract_version "x.whl" = Err IndexError.
Proof. split; vm_compute; reflexivity. Qed.
Example C115_sample : extract_version "my_lib-1.0.post1-py3-none-any.whl" = Ok (lit "1.0.post1") /\ extract_version "my-lib-1.0rc1.tar.gz" = Ok (lit "1.0rc1").
Proof. split; vm_compute; reflexivity. Qed.

(** ** C116 *)
(** what a link means, RFC 3986 section 5.2, for a page [connection ++ directory ++ name]; links with dot segments are left out *)
Inductive means (scheme connection directory : str) : str -> str -> Prop :=
| m_absolute : forall s r, s <> [] -> forallb is_scheme_char s = true -> means scheme connection directory (s ++ lit "://" ++ r) (s ++ lit "://" ++ r)
| m_authority : forall r, means scheme connection directory (lit "//" ++ r) (scheme ++ lit "://" ++ r)
| m_rooted : forall r, starts_with "/" r = false -> means scheme connection directory (lit "/" ++ r) (connection ++ lit "/" ++ r)
| m_relative : forall r, r <> [] -> starts_with "/" r = false -> ~ In ":"%char r -> starts_with "." r = false -> means scheme connection directory r (connection ++ directory ++ r).
(** correct for links with an http or https scheme and for links that start at the root of the server *)
Theorem C116_links_partial : forall connection href,
  (starts_with "http://" href = true \/ starts_with "https://" href = true -> link_url connection href = href) /\
  (forall r, href = lit "/" ++ r -> starts_with "/" r = false -> link_url connection href = connection ++ lit "/" ++ r).
Proof.
  intros connection href. split.
  - intro H. unfold link_url. replace (starts_with "http" href) with true; [reflexivity|]. symmetry. destruct H as [H|H]; apply starts_with_iff in H; destruct H as (r & ->); reflexivity.
  - intros r -> N. unfold link_url. change (starts_with "http" (lit "/" ++ r)) with false. cbn match. replace (lstrip "/" (lit "/" ++ r)) with r; [reflexivity|].
    cbn [lit app list_ascii_of_string lstrip]. change (Ascii.eqb "/" "/") with true. cbn match. destruct r as [|c r]; [reflexivity|]. cbn [starts_with lit list_ascii_of_string] in N. destruct (Ascii.eqb "/" c) eqn:E; [destruct r; discriminate|].
    symmetry. apply lstrip_id. rewrite Ascii.eqb_sym. exact E.
Qed.
(** REFUTED: a file next to the page, a file on another server, and a file next to the page whose name starts with http *)
Theorem C116_links_refuted :
  (exists url, means "https" "https://host" "/simple/x/" "x-1.0.tar.gz" url /\ link_url "https://host" "x-1.0.tar.gz" = lit "https://host/x-1.0.tar.gz" /\ url = lit "https://host/simple/x/x-1.0.tar.gz") /\
  (exists url, means "https" "https://host" "/simple/x/" "//files/x-1.0.tar.gz" url /\ link_url "https://host" "//files/x-1.0.tar.gz" = lit "https://host/files/x-1.0.tar.gz" /\ url = lit "https://files/x-1.0.tar.gz") /\
  (exists url, means "https" "https://host" "/simple/httpx/" "httpx-0.1.tar.gz" url /\ link_url "https://host" "httpx-0.1.tar.gz" = lit "httpx-0.1.tar.gz" /\ url = lit "https://host/simple/httpx/httpx-0.1.tar.gz") /\
  link_url "https://host" "../../packages/x-1.0.tar.gz" = lit "https://host/../../packages/x-1.0.tar.gz".
Proof.
  assert (R : forall c d (r : string), ~ In ":"%char (lit r) -> lit r <> [] -> starts_with "/" r = false -> starts_with "." r = false -> means "https" c d r (c ++ d ++ lit r)) by (intros; constructor; assumption).
  split; [|split; [|split]].
  - eexists. split; [apply R; [cbn; intuition discriminate|discriminate|reflexivity|reflexivity]|]. split; vm_compute; reflexivity.
  - eexists. split; [exact (m_authority _ _ _ (lit "files/x-1.0.tar.gz"))|]. split; vm_compute; reflexivity.
  - eexists. split; [apply R; [cbn; intuition discriminate|discriminate|reflexivity|reflexivity]|]. split; vm_compute; reflexivity.
  - vm_compute. reflexivity.
Qed.

(** ** C117 *)
(** what the answer of a request has to satisfy *)
Definition verified (digest : str -> option (str -> str)) (q : request) (data : str) : Prop :=
  match q with
  | FromPypi f _ => forall digests, f_digests f = Some digests ->
      (forall hex, dict_get (lit "sha256") digests = Some hex -> exists h, digest (lit "sha256") = Some h /\ h data = hex) /\
      (forall fn hex rest, dict_get (lit "sha256") digests = None -> digests = (fn, hex) :: rest -> exists h, digest fn = Some h /\ h data = hex)
  | FromSimple url _ => forall u fn hex, url_parse url = Ok u -> u_fragment u = fn ++ lit "=" ++ hex -> ~ In "="%char fn -> fn <> [] -> hex <> [] -> exists h, digest fn = Some h /\ h data = hex
  end.
Lemma nth_all : forall digest qs c n data, sound digest c -> nth_error (fst (retrieve_all digest c qs)) n = Some (Ok data) -> exists q, nth_error qs n = Some q /\ verified digest q data.
Proof.
  intros digest qs. induction qs as [|q qs IH]; intros c n data S H; [destruct n; discriminate|]. cbn [retrieve_all] in H. destruct (retrieve digest c q) as [x c'] eqn:E. destruct (retrieve_all digest c' qs) as [xs c2] eqn:F. cbn [fst] in H.
  destruct n as [|n]; cbn [nth_error] in H.
  - injection H as ->. exists q. split; [reflexivity|]. unfold verified. destruct q as [f served|url served]; cbn [retrieve] in E.
    + intros digests D. pose proof (pypi_verified _ _ _ _ _ _ S E) as V. rewrite D in V. unfold chosen_digest in V. split.
      * intros hex X. rewrite X in V. exact V.
      * intros fn hex rest X ->. rewrite X in V. exact V.
    + intros u fn hex U P N F1 F2. exact (simple_verified _ _ _ _ _ _ S E u fn hex U P N F1 F2).
  - assert (S' : sound digest c') by (pose proof (retrieve_sound digest c q S) as K; rewrite E in K; exact K). specialize (IH c' n data S'). rewrite F in IH. exact (IH H).
Qed.
(** in any history of downloads that starts with an empty cache, what is handed out has the hash that the index published *)
Theorem C117_verified : forall digest qs n data, nth_error (fst (retrieve_all digest [] qs)) n = Some (Ok data) -> exists q, nth_error qs n = Some q /\ verified digest q data.
Proof. intros digest qs n data. apply nth_all. intros url r H. discriminate. Qed.
Definition length_hash (fn : str) : option (str -> str) := if str_eqb fn "sha256" then Some (fun d => lit "s" ++ show_N (N.of_nat (length d))) else if str_eqb fn "md5" then Some (fun d => lit "m" ++ d) else None.
Definition hashed_file (url : string) (digests : list (str * str)) : file := File false (Some (lit "sdist")) (Some (lit "x-1.tar.gz")) None (Some (lit url)) (Some digests).
Example C117_sample : fst (retrieve_all length_hash [] [FromPypi (hashed_file "https://h/x" [(lit "md5", lit "mabc"); (lit "sha256", lit "s3")]) (Some (lit "abc")); FromPypi (hashed_file "https://h/x" [(lit "md5", lit "mabd")]) None;
    FromSimple "https://h/y#sha256=s3" (Some (lit "abcd")); FromSimple "https://h/z#sha256=s4" (Some (lit "abcd"))])
  = [Ok (lit "abc"); Err OtherErr; Err OtherErr; Ok (lit "abcd")].
Proof. vm_compute. reflexivity. Qed.

(** ** C118 *)
(** whatever is downloaded in between, a download that once failed the verification fails for ever: what is in the cache is never
    dropped *)
Theorem C118_stuck : forall digest c url fn hex r f qs served, sound digest c -> dict_get url c = Some r -> f_url f = Some url -> url <> [] -> f_digests f = Some [(fn, hex)] ->
  (forall h, digest fn = Some h -> h (r_data r) <> hex) -> exists e, fst (retrieve digest (snd (retrieve_all digest c qs)) (FromPypi f served)) = Err e.
Proof.
  intros digest c url fn hex r f qs served S G U N D B. destruct (kept_all digest qs c url r S G) as (r' & G' & E & S'). destruct (retrieve digest (snd (retrieve_all digest c qs)) (FromPypi f served)) as [x c'] eqn:R. cbn [fst]. destruct x as [data|e]; [|eauto]. exfalso.
  cbn [retrieve] in R. pose proof (pypi_verified _ _ _ _ _ _ S' R) as V. rewrite D in V.
  assert (W : data = r_data r'). { unfold retrieve_pypi in R. rewrite U in R. destruct url as [|u0 url]; [congruence|]. cbn [nonempty is_empty] in R. unfold fetch in R. rewrite G' in R. rewrite D in R. destruct (chosen_digest [(fn, hex)]) as [[fn1 hex1]|]; [|congruence]. eapply check_data; exact R. }
  assert (V' : exists h, digest fn = Some h /\ h data = hex). { unfold chosen_digest in V. cbn [dict_get hd_error] in V. destruct (str_eqb (lit "sha256") fn) eqn:Q; [apply str_eqb_eq in Q; subst fn|]; exact V. }
  destruct V' as (h & H1 & H2). apply (B h H1). congruence.
Qed.
(** REFUTED: after a broken download the next attempt fails as well, although the server now sends the right file *)
Theorem C118_retry_refuted : exists f good bad, (exists x, fst (retrieve length_hash [] (FromPypi f (Some good))) = Ok x) /\
  fst (retrieve_all length_hash [] [FromPypi f (Some bad); FromPypi f (Some good)]) = [Err OtherErr; Err OtherErr].
Proof. exists (hashed_file "https://h/x" [(lit "sha256", lit "s3")]), (lit "abc"), (lit "ab"). split; [eexists|]; vm_compute; reflexivity. Qed.

(** ** C119 *)
(** the place that a path denotes: dot-dot goes up *)
Definition place (p : list str) : list str := rev (fold_left (fun acc x => if str_eqb x ".." then tl acc else x :: acc) p []).
Theorem C119_inside : forall md5 workspace u, ~ In (lit "..") (workspace ++ split_on "/" (u_host u) ++ split_on "/" (u_path u)) -> (forall x, md5 x <> lit "..") ->
  exists r, r <> [] /\ place (data_file md5 workspace u) = workspace ++ r.
Proof.
  intros md5 workspace u N M. set (r := path_segments (u_host u) ++ removelast (path_segments (lstrip "/" (u_path u))) ++ [md5 (show_url u)] ++ match rev (path_segments (lstrip "/" (u_path u))) with [] => [] | name :: _ => [name] end).
  exists r. split.
  - unfold r. intro E. apply app_eq_nil in E as [_ E]. apply app_eq_nil in E as [_ E]. discriminate.
  - change (data_file md5 workspace u) with (workspace ++ r). apply place_plain. intro I. apply in_app_or in I as [I|I]; [apply N, in_or_app; left; exact I|].
    assert (P : forall x s, In x (path_segments s) -> In x (split_on "/" s)) by (intros x s X; apply filter_In in X; apply X).
    assert (L : forall x, In x (path_segments (lstrip "/" (u_path u))) -> In x (split_on "/" (u_path u))) by (intros x X; apply lstrip_segments, P, X).
    unfold r in I. apply in_app_or in I as [I|I]; [apply N, in_or_app; right; apply in_or_app; left; apply P, I|]. apply in_app_or in I as [I|I]; [apply N, in_or_app; right; apply in_or_app; right; apply L; eapply removelast_in; exact I|].
    cbn [app] in I. destruct I as [I|I]; [exact (M _ I)|]. destruct (rev (path_segments (lstrip "/" (u_path u)))) as [|name q] eqn:R; [destruct I|]. destruct I as [I|[]]. apply N, in_or_app. right. apply in_or_app. right. apply L. apply in_rev. rewrite R. left. exact I.
Qed.
(** different urls are kept in different places, unless their hashes are the same *)
Theorem C119_apart : forall md5 workspace u1 u2, path_segments (lstrip "/" (u_path u1)) <> [] -> path_segments (lstrip "/" (u_path u2)) <> [] -> wf_url u1 -> wf_url u2 ->
  (md5 (show_url u1) = md5 (show_url u2) -> show_url u1 = show_url u2) -> data_file md5 workspace u1 = data_file md5 workspace u2 -> u1 = u2.
Proof.
  intros md5 workspace u1 u2 N1 N2 W1 W2 C E.
  assert (K : forall u, path_segments (lstrip "/" (u_path u)) <> [] -> exists a name, data_file md5 workspace u = (a ++ [md5 (show_url u)]) ++ [name]).
  { intros u N. unfold data_file. set (segs := path_segments (lstrip "/" (u_path u))) in *. destruct (rev segs) as [|name q] eqn:R; [apply (f_equal (@rev str)) in R; rewrite rev_involutive in R; contradiction|].
    exists (workspace ++ path_segments (u_host u) ++ removelast segs), name. rewrite <- !app_assoc. reflexivity. }
  destruct (K u1 N1) as (a1 & n1 & K1). destruct (K u2 N2) as (a2 & n2 & K2). rewrite K1, K2 in E. apply app_inj_tail in E as [E _]. apply app_inj_tail in E as [_ E]. apply C in E.
  pose proof (url_round u1 W1) as R1. pose proof (url_round u2 W2) as R2. congruence.
Qed.
Example C119_sample : exists u, url_parse "https://h:8080/a/b/x-1.0.whl" = Ok u /\ data_file (fun _ => lit "0f") [lit "home"; lit "cache"] u = [lit "home"; lit "cache"; lit "h"; lit "a"; lit "b"; lit "0f"; lit "x-1.0.whl"].
Proof. eexists. split; vm_compute; reflexivity. Qed.
(** REFUTED: the path of a link can leave the directory of the cache *)
Theorem C119_outside_refuted : exists u, url_parse "https://h/../../.ssh/../x/y" = Ok u /\ place (data_file (fun _ => lit "0f") [lit "home"; lit "cache"] u) = [lit "home"; lit "x"; lit "0f"; lit "y"].
Proof. eexists. split; vm_compute; reflexivity. Qed.

(** ** C120 *)
(** an element of a page with its text, and the link it stands for: only anchors with a target and the name of a distribution do *)
Record element := Element { e_tag : str; e_attrs : list (str * str); e_text : str }.
Definition events_of (e : element) : list event := [EStart (e_tag e) (e_attrs e); EData (e_text e); EEnd].
Definition distribution_name (t : str) : Prop := exists s, t = s ++ lit ".whl" \/ t = s ++ lit ".tar.gz" \/ t = s ++ lit ".zip".
Inductive stands (as_uri : str -> str) (base : str) (e : element) : option link -> Prop :=
| st_link : forall href, e_tag e = lit "a" -> dict_get (lit "href") (e_attrs e) = Some href -> distribution_name (e_text e) ->
    (dict_get (lit "data-requires-python") (e_attrs e) = None \/ dict_get (lit "data-requires-python") (e_attrs e) = Some []) -> stands as_uri base e (Some (Link (e_text e) None (link_url base href)))
| st_python : forall href t r, e_tag e = lit "a" -> dict_get (lit "href") (e_attrs e) = Some href -> distribution_name (e_text e) ->
    dict_get (lit "data-requires-python") (e_attrs e) = Some t -> t <> [] -> parse_specifier as_uri t = Ok r -> stands as_uri base e (Some (Link (e_text e) (Some r) (link_url base href)))
| st_none : (e_tag e <> lit "a" \/ dict_get (lit "href") (e_attrs e) = None \/ ~ distribution_name (e_text e)) -> stands as_uri base e None.
Lemma distribution_iff : forall t, (exists x, endswith_any t extensions = Some x) <-> distribution_name t.
Proof.
  assert (EW : forall e t, ends_with e t = true <-> exists s, t = s ++ e).
  { intros e t. unfold ends_with. rewrite starts_with_iff. split; intros [r E].
    - exists (rev r). rewrite <- (rev_involutive t), E, rev_app_distr, rev_involutive. reflexivity.
    - exists (rev r). rewrite E, rev_app_distr. reflexivity. }
  intro t. unfold endswith_any. split.
  - intros [x F]. apply find_some in F. destruct F as [I F]. apply EW in F. destruct F as [s ->]. exists s. unfold extensions in I. cbn [In] in I. destruct I as [<-|[<-|[<-|[]]]]; auto.
  - intros [s H]. destruct (find (fun sf => ends_with sf t) extensions) as [x|] eqn:F; [exists x; reflexivity|]. exfalso. destruct H as [H|[H|H]].
    + pose proof (find_none _ _ F (lit ".whl") ltac:(unfold extensions; cbn [In]; auto)) as X. cbv beta in X. rewrite (proj2 (EW (lit ".whl") t) (ex_intro _ s H)) in X. discriminate X.
    + pose proof (find_none _ _ F (lit ".tar.gz") ltac:(unfold extensions; cbn [In]; auto)) as X. cbv beta in X. rewrite (proj2 (EW (lit ".tar.gz") t) (ex_intro _ s H)) in X. discriminate X.
    + pose proof (find_none _ _ F (lit ".zip") ltac:(unfold extensions; cbn [In]; auto)) as X. cbv beta in X. rewrite (proj2 (EW (lit ".zip") t) (ex_intro _ s H)) in X. discriminate X.
Qed.
(** the links of a page are those of its elements, in their order *)
Theorem C120_page : forall as_uri base els links, page_links as_uri base None (flat_map events_of els) = Ok links ->
  exists os, Forall2 (stands as_uri base) els os /\ links = flat_map (fun o => match o with Some k => [k] | None => [] end) os.
Proof.
  intros as_uri base. induction els as [|e els IH]; intros links H; [injection H as <-; exists []; split; [constructor|reflexivity]|].
  cbn [flat_map events_of app page_links] in H. destruct (handle_element as_uri base (e_tag e) (e_attrs e) (e_text e)) as [l|] eqn:E; [|discriminate]. cbn [bind] in H. destruct (page_links as_uri base None (flat_map events_of els)) as [rest|] eqn:R; [|discriminate]. cbn [bind] in H. injection H as <-. destruct (IH rest eq_refl) as (os & F & ->).
  assert (X : exists o, stands as_uri base e o /\ l = match o with Some k => [k] | None => [] end).
  { unfold handle_element in E. destruct (dict_get (lit "href") (e_attrs e)) as [href|] eqn:Hr; [|injection E as <-; exists None; split; [apply st_none; auto|reflexivity]].
    destruct (str_eqb (e_tag e) "a") eqn:Ta; [|injection E as <-; exists None; split; [apply st_none; left; intro X; rewrite X in Ta; discriminate Ta|reflexivity]]. apply str_eqb_eq in Ta.
    destruct (nonempty (dict_get (lit "data-requires-python") (e_attrs e))) as [t|] eqn:N.
    - destruct (parse_specifier as_uri t) as [r|] eqn:P; [|discriminate]. cbn [bind] in E. destruct (endswith_any (e_text e) extensions) eqn:D; injection E as <-.
      + exists (Some (Link (e_text e) (Some r) (link_url base href))). split; [|reflexivity]. unfold nonempty in N. destruct (dict_get (lit "data-requires-python") (e_attrs e)) as [[|c u]|] eqn:Q; try discriminate. injection N as <-. apply (st_python as_uri base e href (c :: u) r); auto; [apply distribution_iff; eauto|discriminate].
      + exists None. split; [|reflexivity]. apply st_none. right. right. intro X. apply distribution_iff in X. destruct X as [x X]. congruence.
    - cbn [bind] in E. destruct (endswith_any (e_text e) extensions) eqn:D; injection E as <-.
      + exists (Some (Link (e_text e) None (link_url base href))). split; [|reflexivity]. apply st_link; auto; [apply distribution_iff; eauto|]. unfold nonempty in N. destruct (dict_get (lit "data-requires-python") (e_attrs e)) as [[|c u]|]; [auto|discriminate|auto].
      + exists None. split; [|reflexivity]. apply st_none. right. right. intro X. apply distribution_iff in X. destruct X as [x X]. congruence. }
  destruct X as (o & So & ->). exists (o :: os). split; [constructor; assumption|reflexivity].
Qed.
Example C120_page_sample : exists k, page_links (fun x => x) "https://h" None (flat_map events_of [Element "h1" [] "Links"; Element "a" [(lit "href", lit "/p/w"); (lit "data-requires-python", lit ">=3.6")] "x-1.1-py3-none-any.whl"; Element "link" [(lit "href", lit "/s")] "x-1.tar.gz"; Element "a" [(lit "href", lit "/up.zip")] "up"]) = Ok [k] /\ l_url k = lit "https://h/p/w".
Proof. eexists. split; vm_compute; reflexivity. Qed.
(** the packages are the versions that occur in file names, each with all its files, each once *)
Theorem C120_files : forall as_uri base s events links l, page_links as_uri base None events = Ok links -> simple_do_match as_uri base s events = Ok l ->
  (forall p, In p l <-> exists k text, In k links /\ extract_version (l_name k) = Ok text /\ parse_version text = Ok (q_version p) /\ allows s (q_version p) = true /\ q_links p = filter (has_version text) links) /\ NoDup l.
Proof.
  intros as_uri base s events links l L H. unfold simple_do_match in H. rewrite L in H. cbn [bind] in H. destruct (link_versions links) as [named|] eqn:V; [|discriminate]. cbn [bind] in H. destruct (simple_packages (groupby str_eqb named fst)) as [ps|] eqn:P; [|discriminate]. injection H as <-.
  apply link_versions_spec in V. apply simple_packages_spec in P. assert (Q := sort_perm q_version (filter (fun p => allows s (q_version p)) ps)). split.
  - intro p. rewrite (Permutation_in' (eq_refl p) Q), filter_In. split.
    + intros [I A]. destruct (Forall2_in_right _ _ _ _ _ P p I) as ([text g] & G & E1 & E2). cbn [fst snd] in *. apply (groupby_in str_eqb str_eqb_iff fst) in G as [-> X]. apply in_map_iff in X as ([t k] & X & Y). cbn in X. subst t.
      exists k, text. destruct (proj1 (named_in links named V text k) Y) as [Y1 Y2]. split; [exact Y1|]. split; [exact Y2|]. split; [exact E1|]. split; [exact A|]. rewrite E2. apply having_links, V.
    + intros (k & text & I & X & E1 & A & E2). split; [|exact A]. assert (G : In (text, having str_eqb fst text named) (groupby str_eqb named fst)).
      { apply (groupby_in str_eqb str_eqb_iff fst). split; [reflexivity|]. apply in_map_iff. exists (text, k). split; [reflexivity|]. apply (named_in links named V). auto. }
      destruct (Forall2_in_left _ _ _ _ _ P _ G) as (p' & I' & F1 & F2). cbn [fst snd] in *. replace p with p'; [exact I'|]. rewrite (having_links links named V) in F2. destruct p, p'. cbn in *. congruence.
  - apply (Permutation_NoDup (Permutation_sym Q)). apply NoDup_filter. eapply packages_nodup; [exact P|apply (groupby_nodup str_eqb str_eqb_iff)|].
    intros text g G. apply (groupby_in str_eqb str_eqb_iff fst) in G as [-> X]. split.
    + apply in_map_iff in X as (x & <- & X). intro N. assert (Y : In x (having str_eqb fst (fst x) named)) by (apply filter_In; split; [exact X|apply str_eqb_refl]). rewrite N in Y. destruct Y.
    + intros x X'. apply filter_In in X' as [X1 X2]. apply str_eqb_eq in X2. subst text. destruct x as [t k]. cbn [fst snd]. apply (named_in links named V). exact X1.
Qed.
Definition anchor (name href : string) : list event := [EStart (lit "a") [(lit "href", lit href)]; EData (lit name); EEnd].
Example C120_sample : exists l, simple_do_match (fun x => x) "https://h" from_one (anchor "x-1.0.tar.gz" "/p/x-1.0.tar.gz" ++ anchor "x-1.1-py3-none-any.whl" "/p/w" ++ anchor "x-1.0-py3-none-any.whl" "/p/v" ++ anchor "x-0.1.zip" "/p/z") = Ok l /\
  map (fun p => (version_str (q_version p), map l_url (q_links p))) l = [(lit "1.1", [lit "https://h/p/w"]); (lit "1.0", [lit "https://h/p/x-1.0.tar.gz"; lit "https://h/p/v"])].
Proof. eexists. split; vm_compute; reflexivity. Qed.
(** REFUTED: spellings of one version become separate packages, so one version has its files in two places *)
Theorem C120_spelling_refuted : exists l p q, simple_do_match (fun x => x) "https://h" from_one (anchor "x-1.0.tar.gz" "/p/x-1.0.tar.gz" ++ anchor "x-1.0.0-py3-none-any.whl" "/p/w") = Ok l /\ l = [p; q] /\ version_eqb (q_version p) (q_version q) = true /\
  map l_name (q_links p) = [lit "x-1.0.tar.gz"] /\ map l_name (q_links q) = [lit "x-1.0.0-py3-none-any.whl"].
Proof. do 3 eexists. split; [vm_compute; reflexivity|]. split; [reflexivity|]. repeat split; vm_compute; reflexivity. Qed.

Print Assumptions C112_match.
Print Assumptions C112_offered.
Print Assumptions C113_only_one.
Print Assumptions C113_metadata_refuted.
Print Assumptions C114_fails_iff.
Print Assumptions C114_other_versions_refuted.
Print Assumptions C115_wheel.
Print Assumptions C115_sdist_partial.
Print Assumptions C115_dash_refuted.
Print Assumptions C116_links_partial.
Print Assumptions C116_links_refuted.
Print Assumptions C117_verified.
Print Assumptions C118_stuck.
Print Assumptions C118_retry_refuted.
Print Assumptions C119_inside.
Print Assumptions C119_apart.
Print Assumptions C119_outside_refuted.
Print Assumptions C120_files.
Print Assumptions C120_spelling_refuted.
Print Assumptions C112_artifacts.
Print Assumptions C120_page.
