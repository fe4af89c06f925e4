(** Choice of artifacts and verification of wheels:
    pkm/src/pkm/api/packages/standard_package.py and pkm/src/pkm/api/distributions/wheel_distribution.py. *)
From Coq Require Import String Ascii List Bool NArith Arith.
From Verif Require Import Base.
Import ListNotations.
Open Scope string_scope.
Open Scope nat_scope.
Open Scope list_scope.
Open Scope bool_scope.

(** ** [AbstractPackage.best_artifact_for] *)
(** what [requires_python.allows_version(env_interpreter)] gives; [NoReq]: there is no requirement *)
Inductive requires := NoReq | Allows | Forbids | BadSpec.
(** standard_package.py:21-29 *)
Record artifact := Art { a_file : str; a_requires : requires }.
Definition ends_with (suffix s : str) : bool := starts_with (rev suffix) (rev s).
Definition is_binary (a : artifact) : bool := ends_with ".whl" (a_file a).
(** pathlib's [stem]: the name without its last suffix (a dot in front or at the end starts no suffix) *)
Definition stem (name : str) : str :=
  let fix last_dot (s : str) (i : nat) (found : option nat) : option nat :=
      match s with [] => found | c :: r => last_dot r (S i) (if Ascii.eqb c "." then Some i else found) end in
  match last_dot name 0 None with
  | Some (S i) => if S (S i) =? length name then name else firstn (S i) name
  | _ => name
  end.
(** wheel_distribution.py:64-71 [extract_compatibility_tags_of] *)
Definition tags_of (file_name : str) : str :=
  let parts := split_on "-" (stem file_name) in
  join "-" (skipn (length parts - 3) parts).
(** state of the loop: source_dist, best_binary_dist with its score *)
Record choice := Choice { c_source : option artifact; c_binary : option (artifact * N) }.
(** standard_package.py:62-85, one artifact; [score]: [env.compatibility_tag_score], an arbitrary function to a total
    order, represented by the natural numbers *)
Definition consider (score : str -> option N) (c : choice) (a : artifact) : choice :=
  match a_requires a with
  | Forbids | BadSpec => c
  | NoReq | Allows =>
      if is_binary a then
        match score (tags_of (a_file a)) with
        | Some s => match c_binary c with
                    | None => Choice (c_source c) (Some (a, s))
                    | Some (_, best) => if (best <? s)%N then Choice (c_source c) (Some (a, s)) else c
                    end
        | None => c
        end
      else Choice (Some a) (c_binary c)
  end.
(** standard_package.py:49-88 *)
Definition best_artifact_for (score : str -> option N) (artifacts : list artifact) : option artifact :=
  let c := fold_left (consider score) artifacts (Choice None None) in
  match c_binary c with Some (a, _) => Some a | None => c_source c end.
(** standard_package.py:90-91 *)
Definition is_compatible_with (score : str -> option N) (artifacts : list artifact) : bool := is_some (best_artifact_for score artifacts).

(** ** Wheels *)
(** utils/hashes.py:119-: type and encoded value *)
Record signature := Sig { s_type : str; s_value : str }.
(** the algorithms of hashlib: [None] is a type that [hashlib] does not have *)
Definition hashlib := str -> option (str -> str).
(** hashes.py:127-134 [validate_against] *)
Definition validate_against (h : hashlib) (s : signature) (content : str) : res bool :=
  match h (s_type s) with
  | None => Err KeyError
  | Some f => Ok (str_eqb (f content) (s_value s))
  end.
(** an extracted wheel: its files with their paths relative to the wheel (names joined by '/'), the name of its
    dist-info directory, and RECORD when there is one: pairs of path and optional signature *)
Record wheel := Wheel { w_files : list (str * str); w_dist_info : str; w_records : option (list (str * option signature)) }.
(** [{r.file: r for r in records}]: the last one of a path counts *)
Definition dict_of {V} (l : list (str * V)) : list (str * V) := fold_left (fun d e => dict_set (fst e) (snd e) d) l [].
(** wheel_distribution.py:212: some directory above the file is named like a dist-info directory.
    Simplification: the temporary directory the wheel was extracted to is not. *)
Definition in_dist_info (path : str) : bool := existsb (ends_with ".dist-info") (removelast (split_on "/" path)).
Definition record_path (w : wheel) : str := w_dist_info w ++ lit "/RECORD".
(** wheel_distribution.py:198-220 [_verify_records], the body of the loop *)
Definition verify_file (h : hashlib) (w : wheel) (records : list (str * option signature)) (file : str * str) : res unit :=
  match dict_get (fst file) records with
  | Some (Some s) =>
      do ok <- validate_against h s (snd file);
      if ok then Ok tt
      else if in_dist_info (fst file) then Ok tt (* a warning *)
      else Err IOErr
  | _ => if str_eqb (fst file) (record_path w) then Ok tt else Err IOErr
  end.
Fixpoint verify_files (h : hashlib) (w : wheel) (records : list (str * option signature)) (files : list (str * str)) : res unit :=
  match files with
  | [] => Ok tt
  | f :: r => do _ <- verify_file h w records f; verify_files h w records r
  end.
Definition verify_records (h : hashlib) (w : wheel) : res unit :=
  match w_records w with
  | None => Err IOErr
  | Some rs => verify_files h w (dict_of rs) (w_files w)
  end.
(** the site after an installation: its files, and the entries of the new RECORD *)
Record site := Site { st_files : list (str * str); st_record : list (str * option signature) }.
(** distinfo.py:276-307 [sign_files]: precomputed hashes win; [sha256] computes the others *)
Definition sign_file (h : hashlib) (precomputed : list (str * signature)) (file : str * str) : str * option signature :=
  (fst file, Some (match dict_get (fst file) precomputed with
                   | Some s => s
                   | None => Sig "sha256" (match h (lit "sha256") with Some f => f (snd file) | None => [] end)
                   end)).
(** wheel_distribution.py:137-139 *)
Definition precomputed_hashes (rs : list (str * option signature)) : list (str * signature) :=
  dict_of (flat_map (fun r => match snd r with Some s => [(fst r, s)] | None => [] end) rs).
(** wheel_distribution.py:86-152 [install_extracted_wheel], into a site whose files are [old].
    Simplifications: no data directory, no entry points, no compiled files; the copy transaction is the subject of
    CopyTxModel.v and every copy succeeds. [extra]: the files written behind the record, INSTALLER and so on (146-152). *)
Definition install_wheel (h : hashlib) (w : wheel) (extra : list (str * str)) (old : site) : res site :=
  do _ <- verify_records h w;
  let rs := opt_or (w_records w) [] in
  let copied := filter (fun f => negb (str_eqb (fst f) (record_path w))) (w_files w) in
  let entries := map (sign_file h (precomputed_hashes rs)) copied in
  let files := fold_left (fun d f => dict_set (fst f) (snd f) d) (copied ++ extra) (st_files old) in
  Ok (Site files entries).
