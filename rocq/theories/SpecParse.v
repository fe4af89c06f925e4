(** Model of the specifier part of pkm/src/pkm/api/versions/version_parser.py (lines 22-23, 92-172). *)
From Coq Require Import String Ascii List Bool NArith Arith.
From Verif Require Import Base ParserModel VersionModel VersionParserModel VersionParse SpecifierModel.
Import ListNotations.
Open Scope string_scope.
Open Scope nat_scope.
Open Scope list_scope.
Open Scope bool_scope.

(** [release[:-1] + (release[-1] + 1,)] (line 120); IndexError on an empty release, which [read_version]
    never returns *)
Definition bump_last (r : list N) : res (list N) :=
  match rev r with
  | [] => Err IndexError
  | x :: b => Ok (rev b ++ [(x + 1)%N])
  end.
(** [release[:-2] + (release[-2] + 1, 0)] (line 141) *)
Definition bump_compat (r : list N) : res (list N) :=
  match rev r with
  | _ :: y :: b => Ok (rev b ++ [(y + 1)%N; 0%N])
  | _ => Err IndexError
  end.
Definition with_release (v : sv) (r : list N) : sv :=
  SV r (epoch v) (pre_release v) (post_release v) (dev_release v) (local_label v).

(** lines 93-157 [_read_single_specifier].  [as_uri] is [Path(url).resolve().as_uri()] (line 103),
    which depends on the current directory. *)
Definition read_single (as_uri : str -> str) (s0 : pstate) : res (spec * pstate) :=
  let s := match_ws true s0 in
  match pmatch "*" s with
  | Some s1 => Ok (AllowAll, s1)
  | None =>
  match pmatch "@" s with
  | Some s1 =>
      let '(u, s2) := take_while (fun c => negb (is_space c)) (match_ws true s1) in
      let u := if contains "://" u then u else as_uri u in
      do v <- parse_url_version u; Ok (Match v true, s2)
  | None =>
  match pmatch "===" s with
  | Some s1 =>
      let '(n, s2) := take_while (fun c => negb (is_space c || Ascii.eqb c ","%char)) (match_ws true s1) in
      Ok (Match (VNamed n) true, s2)
  | None =>
  match match_any [lit "=="; lit "!="] s with
  | Some (op, s1) =>
      do (v, s2) <- read_version (match_ws true s1);
      do (r, s3) <- match pmatch ".*" s2 with
                    | Some s3 => do rel <- bump_last (release v);
                                 do r <- create_range (Some v) (Some (with_release v rel)) true false; Ok (r, s3)
                    | None => do r <- create_range (Some v) (Some v) true true; Ok (r, s2)
                    end;
      if str_eqb op "!=" then do i <- inverse r; Ok (i, s3) else Ok (r, s3)
  | None =>
  match pmatch "~=" s with
  | Some s1 =>
      do (v, s2) <- read_version (match_ws true s1);
      if length (release v) =? 1 then Err ValueError else
      do rel <- bump_compat (release v);
      do r <- create_range (Some v) (Some (SV rel (epoch v) None None None None)) true false;
      Ok (r, s2)
  | None =>
  match match_any [lit ">="; lit ">"; lit "<="; lit "<"] s with
  | Some (op, s1) =>
      do (v, s2) <- read_version (match_ws true s1);
      let inc := 1 <? length op in
      let s3 := skip ".*" s2 in
      do r <- (if starts_with ">" op then create_range (Some v) None inc false
               else create_range None (Some v) false inc);
      Ok (r, s3)
  | None => Err ValueError
  end end end end end end.

(** lines 163-170: the loop of [read_specifier].  [fuel] bounds the iterations; each one consumes
    at least one character or fails. *)
Fixpoint read_loop (as_uri : str -> str) (fuel : nat) (paren : bool) (acc : spec) (s : pstate) : res (spec * pstate) :=
  if negb (not_empty s) then Ok (acc, s) else
  match fuel with
  | 0 => Err RecursionErr
  | S f =>
      do (x, s1) <- read_single as_uri s;
      do acc' <- intersect_with acc x;
      let s2 := match_ws true s1 in
      match pmatch "," s2 with
      | Some s3 => read_loop as_uri f paren acc' s3
      | None =>
          if not_empty s2 then
            if negb paren then Ok (acc', s2)
            else match pmatch ")" s2 with
                 | Some s3 => Ok (acc', s3)
                 | None => Err ValueError
                 end
          else read_loop as_uri f paren acc' s2
      end
  end.
(** lines 159-172 *)
Definition read_specifier (as_uri : str -> str) (s0 : pstate) : res (spec * pstate) :=
  let s := match_ws true s0 in
  let '(paren, s1) := match pmatch "(" s with Some s1 => (true, s1) | None => (false, s) end in
  read_loop as_uri (S (length (rest s1))) paren AllowAll s1.
(** lines 22-23 *)
Definition parse_specifier (as_uri : str -> str) (t : str) : res spec :=
  do (s, _) <- read_specifier as_uri (pinit (lower t)); Ok s.
