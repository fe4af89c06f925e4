(** Model of [parse_version] (pkm/src/pkm/api/versions/version_parser.py:10-19) and
    [UrlVersion.parse] (version.py:10 and 75-79). *)
From Coq Require Import String Ascii List Bool NArith Arith.
From Verif Require Import Base ParserModel VersionModel VersionParserModel UrlModel.
Import ListNotations.
Open Scope string_scope.
Open Scope list_scope.
Open Scope bool_scope.

(** regular expression class [\w] on ASCII *)
Definition is_word (c : ascii) : bool := is_alnum c || Ascii.eqb c "_"%char.

(** version.py:10, 75-79.  [.*] stops at a newline. *)
Definition split_protocol (t : str) : option str * str :=
  let upto_nl := fun s => fst (span (fun c => negb (Ascii.eqb c "010"%char)) s) in
  match span is_word t with
  | (c :: w, "+"%char :: r) => (Some (c :: w), upto_nl r)
  | _ => (None, upto_nl t)
  end.
Definition parse_url_version (txt : str) : res version :=
  let '(repo, u) := split_protocol (lower txt) in
  do p <- url_parse u;
  Ok (VUrl u repo (u_scheme p)).

(** version_parser.py:10-19 *)
Definition parse_version (text : str) : res version :=
  let l := lower text in
  let r := if contains "://" l then parse_url_version l
           else do (v, _) <- read_version (pinit l); Ok (VStd v) in
  match r with
  | Err ValueError => Ok (VNamed text)
  | _ => r
  end.
