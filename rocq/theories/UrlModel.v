(** Model of [Url] in pkm/src/pkm/utils/http/http_client.py:54-92 and of the part of
    python's [urllib.parse.urlsplit] it relies on. *)
From Coq Require Import String Ascii List Bool NArith Arith.
From Verif Require Import Base ParserModel.
Import ListNotations.
Open Scope string_scope.
Open Scope nat_scope.
Open Scope list_scope.
Open Scope bool_scope.

(** http_client.py:54-61 *)
Record url := Url { u_scheme : str; u_host : str; u_port : N; u_path : str; u_query : str; u_fragment : str }.

(** [urllib.parse.scheme_chars] *)
Definition is_scheme_char (c : ascii) : bool :=
  is_alnum c || Ascii.eqb c "+"%char || Ascii.eqb c "-"%char || Ascii.eqb c "."%char.
Definition is_alpha (c : ascii) : bool := is_lower c || is_upper c.
(** control characters and blanks stripped in front; tab, CR, LF removed everywhere *)
Definition is_c0_or_space (c : ascii) : bool := (code c <=? 32)%N.
Definition is_unsafe (c : ascii) : bool := existsb (Ascii.eqb c) ["009"; "010"; "013"]%char.
Definition url_clean (u : str) : str := filter (fun c => negb (is_unsafe c)) (snd (span is_c0_or_space u)).

Definition not_char (c x : ascii) : bool := negb (Ascii.eqb x c).
(** [s.split(c, 1)] when [c in s] *)
Definition split_once (c : ascii) (s : str) : str * option str :=
  match span (not_char c) s with
  | (a, _ :: b) => (a, Some b)
  | (a, []) => (a, None)
  end.

(** the scheme: text before the first ':' when it starts with a letter and has only scheme characters *)
Definition split_scheme (u : str) : str * str :=
  match split_once ":"%char u with
  | (s, Some r) =>
      match s with
      | c :: _ => if is_alpha c && forallb is_scheme_char s then (lower s, r) else ([], u)
      | [] => ([], u)
      end
  | (_, None) => ([], u)
  end.
(** [_splitnetloc] *)
Definition netloc_stop (c : ascii) : bool :=
  Ascii.eqb c "/"%char || Ascii.eqb c "?"%char || Ascii.eqb c "#"%char.
Definition split_netloc (u : str) : str * str :=
  match u with
  | "/"%char :: "/"%char :: r => span (fun c => negb (netloc_stop c)) r
  | _ => ([], u)
  end.
Definition str_has (c : ascii) (s : str) : bool := existsb (Ascii.eqb c) s.

(** [urlsplit]: (scheme, netloc, path, query, fragment).
    Simplification: the unicode normalisation check of the netloc is not modelled. *)
Definition urlsplit (u0 : str) : res (str * str * str * str * str) :=
  let u := url_clean u0 in
  let '(scheme, u1) := split_scheme u in
  let '(netloc, u2) := split_netloc u1 in
  if xorb (str_has "["%char netloc) (str_has "]"%char netloc) then Err ValueError else
  let '(u3, fragment) := split_once "#"%char u2 in
  let '(path, query) := split_once "?"%char u3 in
  Ok (scheme, netloc, path, opt_or query [], opt_or fragment []).

(** http_client.py:81-92 [Url.parse].
    Simplification: python's [int] also accepts blanks, a sign and underscores in the port; here those
    texts are rejected like any other malformed number. *)
Definition url_parse (u : str) : res url :=
  do (scheme, netloc, path, query, fragment) <- urlsplit u;
  if str_has ":"%char netloc then
    match split_on ":"%char netloc with
    | [host; port] =>
        if all_digits port then Ok (Url scheme host (read_N port) path query fragment) else Err ValueError
    | _ => Err ValueError
    end
  else Ok (Url scheme netloc (if str_eqb scheme "http" then 80 else 443)%N path query fragment).

Definition default_port (u : url) : bool :=
  (str_eqb (u_scheme u) "https" && (u_port u =? 443)%N) || (str_eqb (u_scheme u) "http" && (u_port u =? 80)%N).
Definition opt_part (c : ascii) (s : str) : str := match s with [] => [] | _ => c :: s end.
(** http_client.py:66-69 [resource_part] *)
Definition resource_part (u : url) : str :=
  u_path u ++ opt_part "?"%char (u_query u) ++ opt_part "#"%char (u_fragment u).
(** http_client.py:63-64 [connection_part] *)
Definition connection_part (u : url) : str := u_scheme u ++ lit "://" ++ u_host u ++ ":"%char :: show_N (u_port u).
(** http_client.py:71-76 [__str__] *)
Definition show_url (u : url) : str :=
  u_scheme u ++ lit "://" ++ u_host u
  ++ (if default_port u then [] else ":"%char :: show_N (u_port u))
  ++ resource_part u.
