(** Model of repositories/download-torch-pkm-repo/src/download_torch_pkm_repo/cuda_compatibility.py and torch_repository.py: which
    builds of a package are offered to this machine, and which one first.

    Simplifications: the page of nvidia is the list of its events (HtmlModel); the file of the known versions is the list of its
    entries, each with its three texts; a package is its version. *)
From Coq Require Import List Bool NArith Ascii String Arith Lia.
From Verif Require Import Base VersionModel VersionParse SpecifierModel SpecParse HtmlModel.
Import ListNotations.
Open Scope string_scope. Open Scope nat_scope. Open Scope list_scope. Open Scope bool_scope.

(** cuda_compatibility.py:19-23 [_CudaVersionSpec] *)
Record cuda_spec := Cuda { k_version : version; k_linux : spec; k_windows : spec }.
(** an entry of the file, 27-29 *)
Record entry := Entry { n_version : str; n_linux : str; n_windows : str }.

Section Torch.
  Variable as_uri : str -> str.

  (** cuda_compatibility.py:25-30 [to_config] *)
  Definition to_config (c : cuda_spec) : entry := Entry (version_str (k_version c)) (spec_str (k_linux c)) (spec_str (k_windows c)).
  (** cuda_compatibility.py:32-38 [from_config]; [StandardVersion.parse] is [Version.parse] *)
  Definition from_config (e : entry) : res cuda_spec :=
    do v <- parse_version (n_version e); do l <- parse_specifier as_uri (n_linux e); do w <- parse_specifier as_uri (n_windows e); Ok (Cuda v l w).
  Fixpoint from_configs (l : list entry) : res (list cuda_spec) :=
    match l with [] => Ok [] | e :: r => do c <- from_config e; do cs <- from_configs r; Ok (c :: cs) end.

  (** cuda_compatibility.py:87-91 *)
  Definition table_id : str := lit "cuda-major-component-versions__table-cuda-toolkit-driver-versions".
  Definition is_table (e : elem) : bool := match dict_get (lit "id") (e_attrs e) with Some v => str_eqb v table_id | None => false end.
  Definition has_tag (t : str) (e : elem) : bool := str_eqb (e_tag e) t.
  (** cuda_compatibility.py:94 *)
  Fixpoint columns (l : list elem) : res (list str) :=
    match l with
    | [] => Ok []
    | x :: r => if has_tag (lit "td") x then do d <- data x; do ds <- columns r; Ok (d :: ds) else columns r
    end.
  Definition get {A} (l : list A) (n : nat) : res A := match nth_error l n with Some x => Ok x | None => Err IndexError end.
  (** cuda_compatibility.py:93-99 *)
  Definition row_spec (row : elem) : res cuda_spec :=
    do cs <- columns (e_children row);
    do c0 <- get cs 0; do name <- get (split_on " "%char c0) 1; do v <- parse_version name;
    do c1 <- get cs 1; do l <- parse_specifier as_uri c1;
    do c2 <- get cs 2; do w <- parse_specifier as_uri c2;
    Ok (Cuda v l w).
  Fixpoint row_specs (rows : list elem) : res (list cuda_spec) :=
    match rows with [] => Ok [] | x :: r => do c <- row_spec x; do cs <- row_specs r; Ok (c :: cs) end.
  (** cuda_compatibility.py:82-99 *)
  Definition page_specs (page : res (list event)) : res (list cuda_spec) :=
    do evs <- page; do dom <- parse evs; do rows <- select [is_table; has_tag (lit "tbody"); has_tag (lit "tr")] dom; row_specs rows.

  (** cuda_compatibility.py:78-108 [load] with a file: the table, and what the file is afterwards.  [writable]: whether 102 succeeds;
      [config_backup] already has the new entries then (101) *)
  Definition load_file (page : res (list event)) (file : list entry) (writable : bool) : res (list cuda_spec) * list entry :=
    match page_specs page with
    | Ok specs =>
        let new := map to_config specs in
        if writable then (Ok specs, new) else (from_configs new, file)
    | Err _ => (from_configs file, file)
    end.
  (** cuda_compatibility.py:74-76 [load] without one: the package whose resource is used (resources.py:13-16) is imported *)
  Definition load (modules : list str) (page : res (list event)) (file : list entry) (writable : bool) : res (list cuda_spec) * list entry :=
    if str_mem (lit "pkm_torch_repository.resources") modules then load_file page file writable else (Err OtherErr, file).

  (** cuda_compatibility.py:56-69 [compatible_cuda_versions]; [smi]: the version of the driver that nvidia-smi tells (46-54), which
      fails when there is none *)
  Definition compatible_cuda_versions (smi : res version) (driver : option version) (is_windows : bool) (table : list cuda_spec) : res (list version) :=
    do d <- match driver with Some d => Ok d | None => smi end;
    Ok (map k_version (filter (fun s => (is_windows && allows (k_windows s) d) || (negb is_windows && allows (k_linux s) d)) table)).

  (** torch_repository.py:21-24: the label of a version of cuda *)
  Definition cuda_label (v : version) : res str :=
    match v with
    | VStd s => Ok (lit "cu" ++ flat_map show_N (release s))
    | _ => Err AttributeError
    end.
  Fixpoint cuda_labels (l : list version) : res (list str) :=
    match l with [] => Ok [] | v :: r => do x <- cuda_label v; do xs <- cuda_labels r; Ok (x :: xs) end.

  (** torch_repository.py:34: no label, or the empty one *)
  Definition is_cpu (s : sv) : bool := match local_label s with None => true | Some l => str_eqb l (lit "cpu") || str_eqb l [] end.
  (** torch_repository.py:32-39 *)
  Fixpoint kept (allow_cpu : bool) (labels : list str) (l : list version) : res (list sv) :=
    match l with
    | [] => Ok []
    | VStd s :: r =>
        do rest <- kept allow_cpu labels r;
        if is_cpu s then Ok (if allow_cpu then s :: rest else rest)
        else match local_label s with
             | Some lb => Ok (if starts_with (lit "cu") lb then (if str_mem lb labels then s :: rest else rest) else rest)
             | None => Ok rest
             end
    | _ :: _ => Err AttributeError
    end.
  (** torch_repository.py:45-52 [key].  [int] of 50 is of digits for the labels that are kept *)
  Definition arch (s : sv) : nat := if is_cpu s then 0 else 1.
  Definition cuda_number (s : sv) : N :=
    match local_label s with Some lb => if starts_with (lit "cu") lb then read_N (skipn 2 lb) else 0%N | None => 0%N end.
  (** the comparison of two keys: of the first items that are not equal *)
  Definition key_ltb (a b : sv) : bool :=
    if arch a =? arch b
    then if sv_eqb a b then (cuda_number a <? cuda_number b)%N else sv_ltb a b
    else arch a <? arch b.
  (** torch_repository.py:54: [reverse=True] keeps the order of equal ones *)
  Fixpoint insert_desc (x : sv) (l : list sv) : list sv :=
    match l with
    | [] => [x]
    | y :: r => if key_ltb y x then x :: y :: r else y :: insert_desc x r
    end.
  Definition sort_by_priority (l : list sv) : list sv := fold_left (fun acc x => insert_desc x acc) l [].
  (** torch_repository.py:28-41 [_do_match]; [packages]: what the index matches *)
  Definition do_match (allow_cpu : bool) (labels : list str) (packages : list version) : res (list sv) :=
    do l <- kept allow_cpu labels packages; Ok (sort_by_priority l).

  (** torch_repository.py:67-68 [build]: the labels of the repository *)
  Definition build (modules : list str) (page : res (list event)) (file : list entry) (writable : bool) (smi : res version) (is_windows : bool) : res (list str) :=
    do table <- fst (load modules page file writable); do vs <- compatible_cuda_versions smi None is_windows table; cuda_labels vs.
End Torch.
