(** Model of pkm/src/pkm/api/versions/version_parser.py (version part). *)
From Coq Require Import String Ascii List Bool NArith Arith.
From Verif Require Import Base ParserModel VersionModel.
Import ListNotations.
Open Scope string_scope.
Open Scope nat_scope.
Open Scope list_scope.
Open Scope bool_scope.

(** version_parser.py:26-28 [_PRE_RELEASE_TYPE_NORMALIZER], in insertion order *)
Definition pre_normalizer : list (str * str) :=
  [(lit "a", lit "a"); (lit "b", lit "b"); (lit "rc", lit "rc"); (lit "c", lit "rc");
   (lit "alpha", lit "a"); (lit "beta", lit "b"); (lit "preview", lit "rc")].
Definition pre_keys : list str := map fst pre_normalizer.
Definition separators : list str := [lit "."; lit "-"; lit "_"].
(** [prev in _PRE_RELEASE_TYPE_NORMALIZER] for a one character string: the keys of length one *)
Definition is_pre_key_char (c : ascii) : bool := existsb (str_eqb [c]) pre_keys.

(** [0 if not self.peek().isdigit() else int(self.read_digits())] (lines 56, 65, 71).
    Python's limit on the number of digits accepted by [int] is not modelled. *)
Definition opt_number (s : pstate) : N * pstate :=
  let '(d, s') := take_while is_digit s in
  match d with [] => (0%N, s) | _ => (read_N d, s') end.

(** version_parser.py:48-49: the loop reading [.digits]; the dot is consumed even when no digit follows.
    [fuel] bounds the number of iterations, each of which consumes characters. *)
Fixpoint read_release (fuel : nat) (s : pstate) : list N * pstate :=
  match pmatch "." s with
  | None => ([], s)
  | Some s1 =>
      if opt_test is_digit (peek s1) then
        match fuel with
        | 0 => ([], s1)
        | S f =>
            let '(d, s2) := take_while is_digit s1 in
            let '(r, s3) := read_release f s2 in
            (read_N d :: r, s3)
        end
      else ([], s1)
  end.

(** version_parser.py:51-57 *)
Definition read_pre (s : pstate) : option (str * N) * pstate :=
  match match_any pre_keys s with
  | Some (t, s1) =>
      let '(n, s2) := opt_number (skip_any separators s1) in
      (Some (opt_or (dict_get t pre_normalizer) [], n), s2)
  | None => (None, s)
  end.

(** version_parser.py:59-65 *)
Definition read_post (s : pstate) : option N * pstate :=
  let p := peek_prev s in
  let s1 := if opt_test is_digit p || opt_test is_pre_key_char p then skip_any separators s else s in
  match match_any [lit "post"; lit "r"; lit "rev"] s1 with
  | Some (_, s2) => let '(n, s3) := opt_number (skip "-" s2) in (Some n, s3)
  | None =>
      if opt_is "-"%char (peek_prev s1) && opt_test is_digit (peek s1)
      then let '(n, s3) := opt_number (skip "-" s1) in (Some n, s3)
      else (None, s1)
  end.

(** version_parser.py:67-71 *)
Definition read_dev (s : pstate) : option N * pstate :=
  let s1 := if opt_test is_digit (peek_prev s) then skip_any separators s else s in
  match pmatch "dev" s1 with
  | Some s2 => let '(n, s3) := opt_number s2 in (Some n, s3)
  | None => (None, s1)
  end.

Definition is_label_char (c : ascii) : bool :=
  Ascii.eqb c "."%char || Ascii.eqb c "-"%char || Ascii.eqb c "_"%char || is_alnum c.
Definition label_translate (c : ascii) : ascii :=
  if Ascii.eqb c "-"%char || Ascii.eqb c "_"%char then "."%char else c.
(** version_parser.py:73-76 *)
Definition read_local (s : pstate) : option str * pstate :=
  match pmatch "+" s with
  | Some s1 => let '(l, s2) := take_while is_label_char s1 in (Some (map label_translate l), s2)
  | None => (None, s)
  end.

(** version_parser.py:41-49 *)
Definition read_epoch_release (s : pstate) : res (option N * list N * pstate) :=
  do (n, s1) <- read_digits s;
  match pmatch "!" s1 with
  | Some s2 =>
      do (n2, s3) <- read_digits s2;
      let '(r, s4) := read_release (length (rest s3)) s3 in
      Ok (Some (read_N n), read_N n2 :: r, s4)
  | None =>
      let '(r, s2) := read_release (length (rest s1)) s1 in
      Ok (None, read_N n :: r, s2)
  end.

(** version_parser.py:33-90 [read_version] *)
Definition read_version (s0 : pstate) : res (sv * pstate) :=
  let s1 := match_ws true s0 in
  let '(brackets, s2) := match pmatch_ws "(" s1 with Some (_, s') => (true, s') | None => (false, s1) end in
  let '(quotes, s3) :=
    match pmatch_ws "'" s2 with
    | Some (t, s') => (Some t, s')
    | None => match pmatch_ws """" s2 with
              | Some (t, s') => (Some t, s')
              | None => (None, s2)
              end
    end in
  let s4 := skip "v" s3 in
  do (ep, rel, s5) <- read_epoch_release s4;
  let '(pre, s6) := read_pre s5 in
  let '(post, s7) := read_post s6 in
  let '(dev, s8) := read_dev s7 in
  let '(loc, s9) := read_local s8 in
  let s10 := if opt_is "."%char (peek_prev s9) then back1 s9 else s9 in
  let s11 := match_ws true s10 in
  do s12 <- match quotes with Some q => match_or_err q s11 | None => Ok s11 end;
  do s13 <- (if brackets then match_or_err ")" s12 else Ok s12);
  Ok (SV rel ep pre post dev loc, match_ws true s13).
