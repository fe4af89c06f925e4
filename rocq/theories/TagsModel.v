(** Model of the compatibility tags of pkm/src/pkm/api/environments/environment_introspection.py (144-165, 183-185, 206-384,
    424-476, 571-575).

    Simplifications: the machine is given by what the code reads of it (the glibc and musl versions have two components, the
    version of macOS too); [int()] accepts digits only (it would accept blanks and signs as well). Scores are lists of
    fractions, compared exactly where python compares floats. *)
From Coq Require Import String Ascii List Bool NArith Arith.
From Verif Require Import Base.
Import ListNotations.
Open Scope string_scope.
Open Scope nat_scope.
Open Scope list_scope.
Open Scope bool_scope.

Inductive system := Linux | Darwin | OtherSystem.
Record machine := Machine {
  m_ipt : str;                 (* interpreter_name *)
  m_version : N * N;           (* interpreter_version[:2] *)
  m_debug : bool;              (* 216 *)
  m_pymalloc : bool;           (* 220 *)
  m_ucs4 : bool;               (* 224-226 *)
  m_soabi : option str;        (* SOABI *)
  m_system : system;
  m_platform : str;            (* sysconfig.get_platform() *)
  m_32bit : bool;
  m_glibc : option (N * N);    (* 294-298, None: the interpreter is no suitable elf file *)
  m_musl : option (N * N);
  m_mac_version : N * N;
  m_mac_cpu : str }.

Definition pair_ltb (a b : N * N) : bool := (fst a <? fst b)%N || ((fst a =? fst b)%N && (snd a <? snd b)%N).
(** fractions *)
Definition frac := (N * N)%type.
Definition frac_ltb (a b : frac) : bool := (fst a * snd b <? fst b * snd a)%N.
Definition frac_eqb (a b : frac) : bool := (fst a * snd b =? fst b * snd a)%N.
Definition whole (n : N) : frac := (n, 1%N).
Definition score := list frac.
(** comparison of tuples *)
Fixpoint score_ltb (a b : score) : bool :=
  match a, b with
  | x :: a', y :: b' => if frac_eqb x y then score_ltb a' b' else frac_ltb x y
  | [], _ :: _ => true
  | _, [] => false
  end.
(** [int(s)] *)
Definition int_of (s : str) : res N := if all_digits s then Ok (read_N s) else Err ValueError.
(** [s.replace(a, b)] for characters; 475-476 *)
Definition normalize_string (s : str) : str := map (fun c => if Ascii.eqb c "." || Ascii.eqb c "-" then "_"%char else c) s.

(** 206-233 *)
Definition cpython_abis (m : machine) : list str :=
  let base := lit "cp" ++ show_N (fst (m_version m)) ++ show_N (snd (m_version m)) in
  let d := if m_debug m then lit "d" else [] in
  if pair_ltb (m_version m) (3, 8)%N
  then [base ++ d ++ (if m_pymalloc m then lit "m" else []) ++ (if pair_ltb (m_version m) (3, 3)%N && m_ucs4 m then lit "u" else [])]
  else if m_debug m then [base ++ d; base] else [base].
(** 251-258 *)
Definition my_abis (m : machine) : list str :=
  rev ((if str_eqb (m_ipt m) (lit "cp")
        then cpython_abis m ++ (if pair_ltb (m_version m) (3, 2)%N then [] else [lit "abi3"])
        else match m_soabi m with Some ((_ :: _) as a) => [normalize_string a] | _ => [] end) ++ [lit "none"]).
Definition my_platform (m : machine) : str := normalize_string (m_platform m).
(** 424-431 *)
Definition mac_arch (arch : str) (is_32bit : bool) : str := if negb is_32bit then arch else if starts_with (lit "ppc") arch then lit "ppc" else lit "i386".
(** 440-468 *)
Definition mac_binary_formats (v : N * N) (cpu : str) : list str :=
  let tail := (if str_mem cpu [lit "arm64"; lit "x86_64"] then [lit "universal2"] else []) ++
              (if str_mem cpu [lit "x86_64"; lit "i386"; lit "ppc64"; lit "ppc"; lit "intel"] then [lit "universal"] else []) in
  if str_eqb cpu (lit "x86_64") then if pair_ltb v (10, 4)%N then [] else [cpu; lit "intel"; lit "fat64"; lit "fat32"] ++ tail
  else if str_eqb cpu (lit "i386") then if pair_ltb v (10, 4)%N then [] else [cpu; lit "intel"; lit "fat32"; lit "fat"] ++ tail
  else if str_eqb cpu (lit "ppc64") then if pair_ltb (10, 5)%N v || pair_ltb v (10, 4)%N then [] else [cpu; lit "fat64"] ++ tail
  else if str_eqb cpu (lit "ppc") then if pair_ltb (10, 6)%N v then [] else [cpu; lit "fat32"; lit "fat"] ++ tail
  else cpu :: tail.
(** 263-270 *)
Definition mac_formats (m : machine) : list str :=
  let arch := mac_arch (m_mac_cpu m) (m_32bit m) in
  rev (mac_binary_formats (m_mac_version m) arch ++ (if (11 <=? fst (m_mac_version m))%N && negb (str_eqb arch (lit "x86_64")) then [lit "universal2"] else [])).
(** 45-54 of utils/sequences.py *)
Fixpoint index_from (n : N) (l : list str) (v : str) : option N := match l with [] => None | x :: r => if str_eqb x v then Some n else index_from (n + 1) r v end.
Definition index_of_or_none (l : list str) (v : str) : option N := index_from 0 l v.
(** 326-329 *)
Definition ndiff (a b : N) : N := if (a <? b)%N then (b - a)%N else (a - b)%N.
Definition vdscore (v1 v2 : N * N) : list frac :=
  if (fst v1 =? fst v2)%N then [whole 1; (1, 1 + ndiff (snd v1) (snd v2))%N] else [(1, 1 + ndiff (fst v1) (fst v2))%N; whole 0].
(** what stands before and after the first [c] *)
Fixpoint cut_at (c : ascii) (s : str) : option (str * str) :=
  match s with [] => None | x :: r => if Ascii.eqb x c then Some ([], r) else match cut_at c r with Some (a, b) => Some (x :: a, b) | None => None end end.
(** [s.split(c, n)] *)
Fixpoint split_max (n : nat) (c : ascii) (s : str) : list str :=
  match n with
  | 0 => [s]
  | S n => match cut_at c s with Some (a, b) => a :: split_max n c b | None => [s] end
  end.
(** 272-282 *)
Definition darwin_score (m : machine) (plt : str) : res (option (list frac)) :=
  match split_max 3 "_" plt with
  | x :: r =>
      if negb (str_eqb x (lit "macosx")) then Ok None
      else match r with
           | [major; minor; binary_format] =>
               do a <- int_of major; do b <- int_of minor;
               if pair_ltb (m_mac_version m) (a, b) then Ok None
               else match index_of_or_none (mac_formats m) binary_format with
                    | None => Ok None
                    | Some i => Ok (Some (whole (i + 1) :: vdscore (m_mac_version m) (a, b)))
                    end
           | _ => Err ValueError
           end
  | [] => Ok None
  end.
(** 284-292 *)
Definition my_linux (m : machine) : str :=
  if m_32bit m
  then if str_eqb (my_platform m) (lit "linux_x86_64") then lit "linux_i686"
       else if str_eqb (my_platform m) (lit "linux_aarch64") then lit "linux_armv7l" else my_platform m
  else my_platform m.
(** the part after the first underscore; a platform without one makes the unpacking fail (when the scorer is built) *)
Definition my_arch (m : machine) : option str := match split_max 1 "_" (my_linux m) with [_; a] => Some a | _ => None end.
(** 571-575 *)
Definition legacy_manylinux : list (str * (N * N)) :=
  [(lit "manylinux2014", (2, 17)%N); (lit "manylinux2010", (2, 12)%N); (lit "manylinux1", (2, 5)%N)].
Fixpoint ints (l : list str) : res (list N) := match l with [] => Ok [] | x :: r => do n <- int_of x; do ns <- ints r; Ok (n :: ns) end.
Definition ends_with (suffix s : str) : bool := starts_with (rev suffix) (rev s).
(** 300-324 *)
Definition linux_score (m : machine) (arch plt : str) : res (option (list frac)) :=
  let no_arch := firstn (length plt - (length arch + 1)) plt in
  if str_eqb plt (my_linux m) then Ok (Some [whole 1; whole 0; whole 0])
  else if negb (ends_with ("_"%char :: arch) plt) then Ok None
  else if starts_with (lit "manylinux") no_arch
  then match m_glibc m with
       | None => Ok None
       | Some mine =>
           do v <- match dict_get no_arch legacy_manylinux with
                   | Some (a, b) => Ok [a; b]
                   | None => ints (firstn 2 (skipn 1 (split_on "_" no_arch)))
                   end;
           match v with
           | [a; b] => if pair_ltb mine (a, b) then Ok None else Ok (Some (whole 1 :: vdscore (a, b) mine))
           | _ => Ok None
           end
       end
  else match m_musl m with
       | Some mine =>
           if starts_with (lit "musllinux_") no_arch
           then do v <- ints (split_on "_" no_arch);   (* 319: of all the parts, "musllinux" included *)
                match firstn 2 (skipn 1 v) with
                | [a; b] => if negb (a =? fst mine)%N || (snd mine <? b)%N then Ok None else Ok (Some (whole 1 :: vdscore mine (a, b)))
                | _ => Ok None
                end
           else Ok None
       | None => Ok None
       end.
(** 341-357 *)
Definition platform_score (m : machine) (plt : str) : res (option (list frac)) :=
  if str_eqb plt (lit "any") then Ok (Some [whole 0; whole 0; whole 0])
  else if str_eqb plt (my_platform m) then Ok (Some [whole 1; whole 0; whole 0])
  else match m_system m with
       | Darwin => darwin_score m plt
       | Linux => match my_arch m with Some a => linux_score m a plt | None => Err ValueError end
       | OtherSystem => Ok None
       end.
(** 246: [version_rx.fullmatch] *)
Definition version_chars (s : str) : bool := negb (str_eqb s []) && forallb (fun c => is_digit c || Ascii.eqb c "_") s.
(** 369-375 *)
Definition ipt_version (m : machine) (v : str) : res (N * N) :=
  match v with
  | [c] => do a <- int_of [c]; Ok (a, snd (m_version m))
  | c :: r =>
      if existsb (Ascii.eqb "_") v
      then do ns <- ints (split_on "_" v); match ns with a :: b :: _ => Ok (a, b) | _ => Err IndexError end
      else do a <- int_of [c]; do b <- int_of r; Ok (a, b)
  | [] => Err ValueError
  end.
(** 359-380 *)
Definition interpreter_score (m : machine) (ipt : str) : res (option (list frac)) :=
  let choose (n : N) (v : str) :=
    do iv <- ipt_version m v;
    if negb (fst (m_version m) =? fst iv)%N || (snd (m_version m) <? snd iv)%N then Ok None
    else Ok (Some [whole n; nth 1 (vdscore (m_version m) iv) (whole 0)]) in
  if starts_with (lit "py") ipt && version_chars (skipn 2 ipt) then choose 0%N (skipn 2 ipt)
  else if starts_with (m_ipt m) ipt && version_chars (skipn (length (m_ipt m)) ipt) then choose 1%N (skipn (length (m_ipt m)) ipt)
  else Ok None.
(** 333-382 *)
Definition scorer (m : machine) (ipt abi plt : str) : res (option score) :=
  match index_of_or_none (my_abis m) abi with
  | None => Ok None
  | Some i =>
      do p <- platform_score m plt;
      match p with
      | None => Ok None
      | Some p => do v <- interpreter_score m ipt;
                  match v with None => Ok None | Some v => Ok (Some (whole i :: p ++ v)) end
      end
  end.
(** 154-160 *)
Fixpoint best (m : machine) (tags : list (str * str * str)) (max : option score) : res (option score) :=
  match tags with
  | [] => Ok max
  | (i, a, p) :: r =>
      do s <- scorer m i a p;
      best m r (match s, max with
                | Some s, None => Some s
                | Some s, Some x => if score_ltb x s then Some s else max
                | None, _ => max
                end)
  end.
Definition expand (is_ abis plts : str) : list (str * str * str) :=
  flat_map (fun i => flat_map (fun a => map (fun p => (i, a, p)) (split_on "." plts)) (split_on "." abis)) (split_on "." is_).
(** 144-165; any exception gives None *)
Definition compatibility_score (m : machine) (tag : str) : option score :=
  match split_on "-" tag with
  | [i; a; p] => match best m (expand i a p) None with Ok s => s | Err _ => None end
  | _ => None
  end.
