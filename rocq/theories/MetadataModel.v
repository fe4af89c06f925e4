(** METADATA files and the upload of distributions: pkm/src/pkm/api/packages/package_metadata.py,
    pkm/src/pkm/repositories/pypi_repository.py:141-197 *)
From Coq Require Import String Ascii List Bool NArith Arith.
From Verif Require Import Base ParserModel.
Import ListNotations.
Open Scope string_scope.
Open Scope nat_scope.
Open Scope list_scope.
Open Scope bool_scope.

Definition lf : ascii := "010"%char.
(** values of the dictionary that is written; [None]: None *)
Inductive mval := MStr (s : str) | MList (l : list str).
(** package_metadata.py:21-24 *)
Definition multi_fields : list str :=
  [lit "Provides-Extra"; lit "Platform"; lit "Supported-Platform"; lit "Classifier"; lit "Requires-Dist"; lit "Provides-Dist";
   lit "Obsoletes-Dist"; lit "Requires-External"; lit "Project-URL"; lit "Dynamic"].
Definition is_multi (k : str) : bool := existsb (str_eqb k) multi_fields.

Section Metadata.
  (** how the email package breaks the value of a header into lines, by the name of the header *)
  Variable fold : str -> str -> str.
  (** [msg[key] = value]: email.policy.EmailPolicy.header_store_parse refuses values of several lines.  Simplification: a value whose
      only line feed is its last character is refused as well; only line feeds end lines. *)
  Definition store (k v : str) : res (str * str) := if existsb (Ascii.eqb lf) v then Err ValueError else Ok (k, v).
  Fixpoint store_all (k : str) (l : list str) : res (list (str * str)) :=
    match l with [] => Ok [] | v :: r => do h <- store k v; do hs <- store_all k r; Ok (h :: hs) end.
  (** 29-51, the loop: the headers of the message *)
  Fixpoint headers_of (data : list (str * option mval)) : res (list (str * str)) :=
    match data with
    | [] => Ok []
    | (k, None) :: r => headers_of r
    | (k, Some v) :: r =>
        if is_multi k && (match v with MList _ => false | MStr _ => true end) then Err ValueError
        else if str_eqb k "Description" then headers_of r
        else
          do hs <- match v with
                   | MList l => store_all k l
                   | MStr s => match store k s with Ok h => Ok [h] | Err _ => Ok [] end
                   end;
          do rest <- headers_of r; Ok (hs ++ rest)
    end.
  Definition header_text (h : str * str) : str := fst h ++ lit ": " ++ fold (fst h) (snd h) ++ [lf].
  (** 53-56: the text of the message, headers, an empty line and the description.  Simplification: the description is a text. *)
  Definition write_metadata (data : list (str * option mval)) : res str :=
    do hs <- headers_of data;
    let payload := match dict_get (lit "Description") data with Some (Some (MStr s)) => s | _ => [] end in
    Ok (concat (map header_text hs) ++ [lf] ++ payload).
End Metadata.

(** email.feedparser: the characters of header names *)
Definition name_char (c : ascii) : bool := in_range 33 57 c || in_range 59 126 c.
Definition is_blank (c : ascii) : bool := Ascii.eqb c " " || Ascii.eqb c "009".
(** [headerRE], without the lines that start with "From " *)
Definition is_header (l : str) : bool :=
  match l with c :: _ => is_blank c | [] => false end || match snd (span name_char l) with ":"%char :: _ => true | _ => false end.
(** the lines of the headers, up to the first line that is none *)
Fixpoint header_lines (lines : list str) : list str :=
  match lines with [] => [] | l :: r => if is_header l then l :: header_lines r else [] end.
Definition skip_blanks (s : str) : str := snd (span is_blank s).
(** email.feedparser [_parse_headers], with email._policybase.Compat32.header_source_parse: lines that start with a blank belong to
    the value before, with their line feed *)
Fixpoint parse_headers (last : option (str * str)) (lines : list str) : list (str * str) :=
  match lines with
  | [] => match last with Some h => [h] | None => [] end
  | l :: r =>
      if match l with c :: _ => is_blank c | [] => false end then
        match last with
        | Some (k, v) => parse_headers (Some (k, v ++ [lf] ++ l)) r
        | None => parse_headers None r
        end
      else
        let flush := match last with Some h => [h] | None => [] end in
        match span (fun c => negb (Ascii.eqb c ":")) l with
        | ([], _) => flush ++ parse_headers None r
        | (k, _ :: v) => flush ++ parse_headers (Some (k, skip_blanks v)) r
        | (k, []) => flush ++ parse_headers None r
        end
  end.
(** [rstrip('\r\n')] *)
Definition rstrip_lf (s : str) : str := rev (snd (span (Ascii.eqb lf) (rev s))).
Definition parse_message (text : str) : list (str * str) :=
  map (fun h => (fst h, rstrip_lf (snd h))) (parse_headers None (header_lines (split_on lf text))).
(** 65-75 *)
Definition add_header (data : list (str * mval)) (h : str * str) : list (str * mval) :=
  let (k, v) := h in
  if is_multi k then
    dict_set k (MList (match dict_get k data with Some (MList l) => l | _ => [] end ++ [v])) data
  else
    match dict_get k data with
    | Some (MList l) => dict_set k (MList (l ++ [v])) data
    | Some (MStr (c :: s)) => dict_set k (MList [c :: s; v]) data
    | _ => dict_set k (MStr v) data
    end.
Definition read_metadata (text : str) : list (str * mval) := fold_left add_header (parse_message text) [].

(** ** Metadata of a project *)
Record contact := Contact { c_name : option str; c_email : option str }.
Definition truthy_texts (l : list (option str)) : list str := flat_map (fun o => match o with Some (c :: s) => [c :: s] | _ => [] end) l.
(** package_metadata.py:104-108, 118-119: the fields for authors and maintainers *)
Definition people_fields (authors maintainers : option (list contact)) : list (str * str) :=
  let author_names := truthy_texts (map c_name (opt_or authors [])) in
  let author_emails := truthy_texts (map c_email (opt_or authors [])) in
  let maintainer_names := truthy_texts (map c_name (opt_or authors [])) in
  let maintainer_emails := truthy_texts (map c_email (opt_or authors [])) in
  [(lit "Author", join ", " author_names); (lit "Author-email", join ", " author_emails);
   (lit "Maintainer", join ", " maintainer_names); (lit "Maintainer-email", join ", " maintainer_emails)].

(** ** Upload *)
Definition is_wheel (name : str) : bool := starts_with (rev (lit ".whl")) (rev name) && (length (lit ".whl") <? length name).
(** pypi_repository.py:154-156 *)
Definition upload_key (k : str) : str := lower (map (fun c => if Ascii.eqb c "-" then "_"%char else c) k).
Definition upload_type (name : str) : str * res str :=
  if is_wheel name then (lit "bdist_wheel", match split_on "-" name with _ :: _ :: v :: _ => Ok v | _ => Err IndexError end)
  else (lit "sdist", Ok (lit "source")).
(** 154, 175-180: the form fields of the metadata *)
Definition upload_fields (data : list (str * mval)) : list (str * str) :=
  flat_map (fun e => match snd e with MStr s => [(fst e, s)] | MList l => map (fun s => (fst e, s)) l end)
           (fold_left (fun d e => dict_set (upload_key (fst e)) (snd e) d) data []).
