(** Model of the indexes that packages are fetched from: pkm/src/pkm/repositories/pypi_repository.py (46-77, 95-113, 129-138),
    pkm/src/pkm/repositories/simple_repository.py (31-64, 67-99, 113-124), and the files that downloads are kept in,
    pkm/src/pkm/utils/http/http_client.py (194-236, 300-313).

    Simplifications: the answer of the index is given as a value (json.load and HTMLParser are trusted); requests that fail are
    left out. *)
From Coq Require Import String Ascii List Bool NArith Arith.
From Verif Require Import Base NamesModel VersionModel VersionParse SpecifierModel SpecParse DependencyModel CollectionModel ConfigModel UrlModel.
Import ListNotations.
Open Scope string_scope.
Open Scope nat_scope.
Open Scope list_scope.
Open Scope bool_scope.

(** repository.py:92-94: [list.sort] with [reverse=True] is stable.  For versions that are not comparable with each other
    Python's sort may order them in another way. *)
Section Sort.
  Context {A : Type} (version_of : A -> version).
  Fixpoint insert_desc (x : A) (l : list A) : list A :=
    match l with
    | [] => [x]
    | y :: r => if version_ltb (version_of y) (version_of x) then x :: y :: r else y :: insert_desc x r
    end.
  Definition sorted_by_version (l : list A) : list A := fold_left (fun acc x => insert_desc x acc) l [].
End Sort.

(** ** PyPI *)
(** the description of a file, as far as it is read; [None]: no such key (or null); [f_digests]: [Some []] is an empty
    dictionary or null *)
Record file := File { f_yanked : bool; f_type : option str; f_filename : option str; f_python : option str;
                      f_url : option str; f_digests : option (list (str * str)) }.
Record artifact := Artifact { a_name : str; a_python : option spec; a_info : file }.
Definition is_empty (s : str) : bool := match s with [] => true | _ => false end.
Definition nonempty (o : option str) : option str := match o with Some (c :: s) => Some (c :: s) | _ => None end.
Section Pypi.
  Variable as_uri : str -> str.
  (** pypi_repository.py:129-138 *)
  Definition create_artifact (f : file) : res (option artifact) :=
    match nonempty (f_filename f) with
    | None => Ok None
    | Some name =>
        match nonempty (f_python f) with
        | None => Ok (Some (Artifact name None f))
        | Some text => do s <- parse_specifier as_uri text; Ok (Some (Artifact name (Some s) f))
        end
    end.
  (** 64: the files that count *)
  Definition relevant (f : file) : bool :=
    negb (f_yanked f) && match f_type f with Some t => str_eqb t "sdist" || str_eqb t "bdist_wheel" | None => false end.
  (** 62-66 *)
  Fixpoint relevant_artifacts (l : list file) : res (list artifact) :=
    match l with
    | [] => Ok []
    | f :: r =>
        if relevant f then
          do a <- create_artifact f;
          do rest <- relevant_artifacts r;
          Ok (match a with Some a => a :: rest | None => rest end)
        else relevant_artifacts r
    end.

  (** package_metadata.py:86-93.  Simplification: the values are kept as they were read; reading one fails when its text
      cannot be read. *)
  Definition text_field (name key : str) (readable : str -> bool) (default : option val) : field val :=
    {| f_name := name; f_key := Some key; f_required := false; f_leftover := false; f_default := default;
       f_parse := fun v => match v with VStr s => if readable s then Ok v else Err ValueError | _ => Err TypeError end;
       f_unparse := fun v => Ok v |}.
  Definition list_field (name key : str) (readable : str -> bool) : field val :=
    {| f_name := name; f_key := Some key; f_required := false; f_leftover := false; f_default := Some (VList []);
       f_parse := fun v => match v with
                           | VList l => if forallb (fun x => match x with VStr s => readable s | _ => false end) l then Ok v else Err ValueError
                           | _ => Err TypeError end;
       f_unparse := fun v => Ok v |}.
  Definition readable_version (s : str) : bool := is_ok (parse_version s).
  Definition metadata_schema : list (field val) :=
    [text_field "metadata_version" "Metadata-Version" readable_version None;
     raw_field "package_name" (Some (lit "Name")) None;
     text_field "package_version" "Version" readable_version None;
     raw_field "summary" (Some (lit "Summary")) None;
     raw_field "description" (Some (lit "Description")) None;
     list_field "dependencies" "Requires-Dist" (fun s => is_ok (parse_dependency as_uri s));
     text_field "required_python_spec" "Requires-Python" (fun s => is_ok (parse_specifier as_uri s)) (Some (VStr []));
     leftover_field "leftovers"].

  (** [p_meta]: the fields of the metadata; its [leftovers] is the dictionary that all packages of one answer share *)
  Record pypi_package := PypiPackage { p_version : version; p_artifacts : list artifact; p_meta : list (str * slot val) }.
  (** 57-75: the packages in the order of the releases, and what is left of the shared dictionary *)
  Fixpoint pypi_packages (s : spec) (releases : list (str * list file)) (info : table) : res (list pypi_package * table) :=
    match releases with
    | [] => Ok ([], info)
    | (text, files) :: r =>
        do artifacts <- relevant_artifacts files;
        match artifacts with
        | [] => pypi_packages s r info
        | _ :: _ =>
            do v <- parse_version text;
            if allows s v then
              do m <- parse_fields metadata_schema info;
              do x <- pypi_packages s r (snd m);
              Ok (PypiPackage v artifacts (fst m) :: fst x, snd x)
            else pypi_packages s r info
        end
    end.
  (** 46-77 *)
  Definition pypi_do_match (s : spec) (releases : list (str * list file)) (info : table) : res (list pypi_package) :=
    do x <- pypi_packages s releases info; Ok (sorted_by_version p_version (fst x)).
End Pypi.

(** ** PEP 503 pages *)
Definition extensions : list str := [lit ".whl"; lit ".tar.gz"; lit ".zip"].
(** simple_repository.py:59-64; [without_suffix] of no suffix is [s.endswith(None)] *)
Definition extract_version (filename : str) : res str :=
  match endswith_any filename extensions with
  | None => Err TypeError
  | Some suffix =>
      let parts := split_on "-" (without_suffix filename suffix) in
      if str_eqb suffix ".whl" then match parts with _ :: v :: _ => Ok v | _ => Err IndexError end
      else Ok (last parts [])
  end.
(** what HTMLParser reports *)
Inductive event := EStart (tag : str) (attrs : list (str * str)) | EData (text : str) | EEnd.
Record link := Link { l_name : str; l_python : option spec; l_url : str }.
Section Simple.
  Variable as_uri : str -> str.
  (** 93-95 *)
  Definition link_url (base href : str) : str := if starts_with "http" href then href else base ++ lit "/" ++ lstrip "/" href.
  (** 87-99 *)
  Definition handle_element (base tag : str) (attrs : list (str * str)) (text : str) : res (list link) :=
    match dict_get (lit "href") attrs with
    | Some href =>
        if str_eqb tag "a" then
          do python <- match nonempty (dict_get (lit "data-requires-python") attrs) with
                       | Some t => do s <- parse_specifier as_uri t; Ok (Some s)
                       | None => Ok None
                       end;
          Ok (match endswith_any text extensions with Some _ => [Link text python (link_url base href)] | None => [] end)
        else Ok []
    | None => Ok []
    end.
  (** 75-85: [waiting]: the element whose text is expected *)
  Fixpoint page_links (base : str) (waiting : option (str * list (str * str))) (events : list event) : res (list link) :=
    match events with
    | [] => Ok []
    | EStart tag attrs :: r => page_links base (Some (tag, attrs)) r
    | EData text :: r =>
        match waiting with
        | Some (tag, attrs) => do l <- handle_element base tag attrs text; do rest <- page_links base None r; Ok (l ++ rest)
        | None => page_links base None r
        end
    | EEnd :: r =>
        match waiting with
        | Some (tag, attrs) => do l <- handle_element base tag attrs []; do rest <- page_links base None r; Ok (l ++ rest)
        | None => page_links base None r
        end
    end.
  Record simple_package := SimplePackage { q_version : version; q_links : list link }.
  Fixpoint link_versions (l : list link) : res (list (str * link)) :=
    match l with [] => Ok [] | x :: r => do v <- extract_version (l_name x); do rest <- link_versions r; Ok ((v, x) :: rest) end.
  Fixpoint simple_packages (groups : list (str * list (str * link))) : res (list simple_package) :=
    match groups with
    | [] => Ok []
    | (text, l) :: r => do v <- parse_version text; do rest <- simple_packages r; Ok (SimplePackage v (map snd l) :: rest)
    end.
  (** 31-53, for a page that was not read before *)
  Definition simple_do_match (base : str) (s : spec) (events : list event) : res (list simple_package) :=
    do links <- page_links base None events;
    do named <- link_versions links;
    do packages <- simple_packages (groupby str_eqb named fst);
    Ok (sorted_by_version q_version (filter (fun p => allows s (q_version p)) packages)).
End Simple.

(** ** Downloads that are verified *)
(** a file in the cache and the hashes that were computed of it, http_client.py:186-191 *)
Record resource := Resource { r_data : str; r_hashes : list (str * str) }.
(** by url: see C119 *)
Definition cache := list (str * resource).
Section Verified.
  (** [hashlib.new(name)] and [hexdigest()]; [None]: no such function *)
  Variable digest : str -> option (str -> str).
  (** http_client.py:218-236: the answer and the resource with the hash that was computed *)
  Definition is_hash_valid (fn hex : str) (r : resource) : res bool * resource :=
    match nonempty (dict_get fn (r_hashes r)) with
    | Some h => (Ok (str_eqb h hex), r)
    | None =>
        match digest fn with
        | None => (Err ValueError, r)
        | Some f => let h := f (r_data r) in (Ok (str_eqb h hex), Resource (r_data r) (dict_set fn h (r_hashes r)))
        end
    end.
  (** http_client.py:383-460 with [CacheDirective.allways()]; [served]: what the server would send, [None] for an error *)
  Definition fetch (c : cache) (url : str) (served : option str) : res resource * cache :=
    match dict_get url c with
    | Some r => (Ok r, c)
    | None => match served with
              | Some data => let r := Resource data [] in (Ok r, dict_set url r c)
              | None => (Err IOErr, c)
              end
    end.
  (** verify and hand out, or raise *)
  Definition check (c : cache) (url fn hex : str) (r : resource) : res str * cache :=
    match is_hash_valid fn hex r with
    | (Err e, r) => (Err e, dict_set url r c)
    | (Ok true, r) => (Ok (r_data r), dict_set url r c)
    | (Ok false, r) => (Err OtherErr, dict_set url r c)
    end.
  (** pypi_repository.py:104-109: the hash that is checked *)
  Definition chosen_digest (digests : list (str * str)) : option (str * str) :=
    match dict_get (lit "sha256") digests with Some h => Some (lit "sha256", h) | None => hd_error digests end.
  (** 95-113 *)
  Definition retrieve_pypi (c : cache) (f : file) (served : option str) : res str * cache :=
    match nonempty (f_url f) with
    | None => (Err KeyError, c)
    | Some url =>
        match fetch c url served with
        | (Err e, c) => (Err e, c)
        | (Ok r, c) =>
            match f_digests f with
            | None => (Err KeyError, c)
            | Some digests => match chosen_digest digests with Some (fn, hex) => check c url fn hex r | None => (Ok (r_data r), c) end
            end
        end
    end.
  (** [fragment.partition("=")] *)
  Definition partition_eq (s : str) : str * str := match split_once "=" s with (a, Some b) => (a, b) | (a, None) => (a, []) end.
  (** simple_repository.py:113-124 *)
  Definition retrieve_simple (c : cache) (url : str) (served : option str) : res str * cache :=
    match fetch c url served with
    | (Err e, c) => (Err e, c)
    | (Ok r, c) =>
        match url_parse url with
        | Err e => (Err e, c)
        | Ok u =>
            let (fn, hex) := partition_eq (u_fragment u) in
            if is_empty fn || is_empty hex then (Ok (r_data r), c) else check c url fn hex r
        end
    end.
  Inductive request := FromPypi (f : file) (served : option str) | FromSimple (url : str) (served : option str).
  Definition retrieve (c : cache) (q : request) : res str * cache :=
    match q with FromPypi f served => retrieve_pypi c f served | FromSimple url served => retrieve_simple c url served end.
  Fixpoint retrieve_all (c : cache) (qs : list request) : list (res str) * cache :=
    match qs with
    | [] => ([], c)
    | q :: r => let (x, c) := retrieve c q in let (xs, c) := retrieve_all c r in (x :: xs, c)
    end.
End Verified.

(** ** Where downloads are kept *)
(** the segments of a relative [Path], outermost first *)
Definition path_segments (s : str) : list str := filter (fun x => negb (is_empty x || str_eqb x ".")) (split_on "/" s).
(** http_client.py:300-313 [_resource_files_of]: the data file; [md5]: [hexdigest] *)
Definition data_file (md5 : str -> str) (workspace : list str) (u : url) : list str :=
  let segments := path_segments (lstrip "/" (u_path u)) in
  workspace ++ path_segments (u_host u) ++ removelast segments ++ [md5 (show_url u)]
  ++ match rev segments with [] => [] | name :: _ => [name] end.
