(** What is sent when a distribution is published, and to whom: [PyPiPublisher] of pkm/src/pkm/repositories/pypi_repository.py,
    pkm/src/pkm/utils/http/auth.py, the publishers of pkm/src/pkm/api/repositories/repository_management.py, and the hash by which
    environments are told apart, pkm/src/pkm/api/environments/environment.py 163-170.

    Simplifications: a text is the sequence of its bytes; the digests are given; the answer of the server is left out. *)
From Coq Require Import String Ascii List Bool NArith Arith.
From Verif Require Import Base RepoModel.
From Verif Require PlanModel.
Import ListNotations.
Import PlanModel(dict_update).
Open Scope string_scope.
Open Scope nat_scope.
Open Scope list_scope.
Open Scope bool_scope.

(** ** pypi_repository.py 151-186: the fields *)
(** the values of metadata: a text, several, or something else that is not sent *)
Inductive mval := One (s : str) | Many (l : list str) | Unsendable.
Definition dash_to_line (c : ascii) : ascii := if Ascii.eqb c "-" then "_"%char else c.
(** 154 *)
Definition upload_key (k : str) : str := lower (map dash_to_line k).
(** pathlib [suffix == '.whl'] *)
Definition is_wheel_name (name : str) : bool := (4 <? length name) && str_eqb (skipn (length name - 4) name) (lit ".whl").
(** 155-156 *)
Definition file_type (name : str) : str := if is_wheel_name name then lit "bdist_wheel" else lit "sdist".
Definition py_version (name : str) : res str :=
  if is_wheel_name name then match nth_error (split_on "-" name) 2 with Some t => Ok t | None => Err IndexError end else Ok (lit "source").
Record digests := Digests { md5 : str -> str; sha256 : str -> str; blake2 : str -> str }.
(** 165-173 *)
Definition special (h : digests) (name content pyversion : str) : list (str * mval) :=
  [(lit "filetype", One (file_type name)); (lit "pyversion", One pyversion); (lit "md5_digest", One (md5 h content)); (lit "sha256_digest", One (sha256 h content));
   (lit "blake2_256_digest", One (blake2 h content)); (lit ":action", One (lit "file_upload")); (lit "protocol_version", One (lit "1"))].
Record field := Field { f_name : str; f_payload : str; f_file : option str }.
Definition values (v : mval) : list str := match v with One s => [s] | Many l => l | Unsendable => [] end.
Definition sendable (v : mval) : bool := match v with Unsendable => false | _ => true end.
(** 154-185; mfd_payload.py 62-63 refuses other values *)
Definition upload (h : digests) (meta : list (str * mval)) (name content : str) : res (list field) :=
  let data := dict_update [] (map (fun e => (upload_key (fst e), snd e)) meta) in
  do pyversion <- py_version name;
  let data := dict_update data (special h name content pyversion) in
  if forallb (fun e => sendable (snd e)) data then
    Ok (flat_map (fun e => map (fun s => Field (fst e) s None) (values (snd e))) data ++ [Field (lit "content") content (Some name)])
  else Err ValueError.

(** ** auth.py 11-12; base64.py [b64encode] *)
Definition sextet := (bool * bool * bool * bool * bool * bool)%type.
Definition number (s : sextet) : N :=
  let '(a, b, c, d, e, f) := s in
  let bit x n := if x : bool then n else 0%N in (bit a 32 + bit b 16 + bit c 8 + bit d 4 + bit e 2 + bit f 1)%N.
(** the alphabet of RFC 4648 *)
Definition letter (s : sextet) : ascii :=
  let n := number s in
  if (n <? 26)%N then ascii_of_N (65 + n) else if (n <? 52)%N then ascii_of_N (97 + (n - 26)) else if (n <? 62)%N then ascii_of_N (48 + (n - 52))
  else if (n =? 62)%N then "+"%char else "/"%char.
Fixpoint b64encode (l : list ascii) : str :=
  match l with
  | Ascii a0 a1 a2 a3 a4 a5 a6 a7 :: Ascii b0 b1 b2 b3 b4 b5 b6 b7 :: Ascii c0 c1 c2 c3 c4 c5 c6 c7 :: r =>
      letter (a7, a6, a5, a4, a3, a2) :: letter (a1, a0, b7, b6, b5, b4) :: letter (b3, b2, b1, b0, c7, c6) :: letter (c5, c4, c3, c2, c1, c0) :: b64encode r
  | [Ascii a0 a1 a2 a3 a4 a5 a6 a7; Ascii b0 b1 b2 b3 b4 b5 b6 b7] =>
      [letter (a7, a6, a5, a4, a3, a2); letter (a1, a0, b7, b6, b5, b4); letter (b3, b2, b1, b0, false, false); "="%char]
  | [Ascii a0 a1 a2 a3 a4 a5 a6 a7] =>
      [letter (a7, a6, a5, a4, a3, a2); letter (a1, a0, false, false, false, false); "="%char; "="%char]
  | [] => []
  end.
Definition basic_header (user password : str) : str * str := (lit "Authorization", lit "Basic " ++ b64encode (user ++ lit ":" ++ password)).
(** 187-190: the names that the parameters of [BasicAuthentication] take *)
Definition auth_header (args : list (str * str)) : res (str * str) :=
  match dict_get (lit "username") args, dict_get (lit "password") args with
  | Some u, Some p => if length args =? 2 then Ok (basic_header u p) else Err TypeError
  | _, _ => Err TypeError
  end.

(** ** repository_management.py 39-41, 78-97 *)
Section Publishers.
  Variable publisher : Type.
  (** [Repository.publisher] *)
  Variable publisher_of : repo -> option publisher.
  (** the answers that a manager remembers, and the cache of the loader *)
  Record memory := Memory { e_known : list (str * option publisher); e_built : cache }.
  (** 82-87: the first repository of the name in the chain *)
  Definition find_repo (chain : list (list (str * instance))) (name : str) : option instance :=
    option_map snd (find (fun e => str_eqb (fst e) name) (concat chain)).
  (** 78-89; [chain]: the repositories of the configurations in the chain, as they are now *)
  Definition publisher_for (bs : builders) (chain : list (list (str * instance))) (name : str) (e : memory) : res (option publisher) * memory :=
    match dict_get name (e_known e) with
    | Some p => (Ok p, e)
    | None =>
        match find_repo chain name with
        | None => (Err NoSuchElement, e)
        | Some i =>
            let '(r, c) := build bs name (i_type i) (i_args i) (e_built e) in
            match r with
            | Ok r => (Ok (publisher_of r), Memory (dict_set name (publisher_of r) (e_known e)) c)
            | Err x => (Err x, Memory (e_known e) c)
            end
        end
    end.
End Publishers.

(** ** environment.py 163-170: the text that is hashed *)
Fixpoint insert_marker (x : str * str) (l : list (str * str)) : list (str * str) :=
  match l with
  | [] => [x]
  | y :: r => if str_ltb (fst x) (fst y) then x :: y :: r else y :: insert_marker x r
  end.
(** [sorted(.., key=lambda item: item[0])], stable *)
Definition sort_markers (l : list (str * str)) : list (str * str) := fold_left (fun d x => insert_marker x d) l [].
Definition marker_text (markers : list (str * str)) : str :=
  join (lit ";") (map (fun e => fst e ++ lit "=" ++ snd e) (sort_markers markers)).
