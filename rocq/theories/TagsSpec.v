(** The rules of compatibility tags (PEP 425, 600, 513 and the platform tags of macOS), stated without the scorer. *)
From Coq Require Import String Ascii List Bool NArith Arith.
From Verif Require Import Base TagsModel.
Import ListNotations.
Open Scope string_scope.
Open Scope nat_scope.
Open Scope list_scope.
Open Scope bool_scope.

Definition not_newer (v mine : N * N) : Prop := (fst v < fst mine)%N \/ (fst v = fst mine /\ (snd v <= snd mine)%N).
Definition us : str := lit "_".

(** the tags a file name stands for: every combination of the alternatives between dots *)
Definition stands_for (tag i a p : str) : Prop :=
  exists is_ abis plts, tag = is_ ++ lit "-" ++ abis ++ lit "-" ++ plts /\ ~ In "-"%char is_ /\ ~ In "-"%char abis /\ ~ In "-"%char plts /\
    In i (split_on "." is_) /\ In a (split_on "." abis) /\ In p (split_on "." plts).

(** the text of a version in an interpreter tag: "3", "38", "310" or "3_8" *)
Inductive version_text (minor : N) : str -> N * N -> Prop :=
| one_digit : forall d, is_digit d = true -> version_text minor [d] (read_N [d], minor)
| digits : forall d ds, is_digit d = true -> all_digits ds = true -> version_text minor (d :: ds) (read_N [d], read_N ds)
| separated : forall a b more, all_digits a = true -> all_digits b = true -> Forall (fun s => all_digits s = true) more ->
    version_text minor (join us (a :: b :: more)) (read_N a, read_N b).
Definition interpreter_ok (m : machine) (i : str) : Prop :=
  exists name t v, (name = lit "py" \/ name = m_ipt m) /\ i = name ++ t /\ version_text (snd (m_version m)) t v /\
    fst v = fst (m_version m) /\ (snd v <= snd (m_version m))%N.

(** the abi of cpython up to 3.7 has suffixes, later ones only for debug builds, which can load the others too *)
Definition cp (m : machine) (suffix : str) : str := lit "cp" ++ show_N (fst (m_version m)) ++ show_N (snd (m_version m)) ++ suffix.
Definition own_abi (m : machine) (a : str) : Prop :=
  (not_newer (3, 8)%N (m_version m) /\ (a = cp m [] \/ (m_debug m = true /\ a = cp m (lit "d")))) \/
  (~ not_newer (3, 8)%N (m_version m) /\
   exists d pm u, a = cp m (d ++ pm ++ u) /\ d = (if m_debug m then lit "d" else []) /\ pm = (if m_pymalloc m then lit "m" else []) /\
     ((u = lit "u" /\ m_ucs4 m = true /\ ~ not_newer (3, 3)%N (m_version m)) \/ (u = [] /\ (m_ucs4 m = false \/ not_newer (3, 3)%N (m_version m))))).
Definition abi_ok (m : machine) (a : str) : Prop :=
  a = lit "none" \/
  (m_ipt m = lit "cp" /\ (own_abi m a \/ (a = lit "abi3" /\ not_newer (3, 2)%N (m_version m)))) \/
  (m_ipt m <> lit "cp" /\ exists s, m_soabi m = Some s /\ s <> [] /\ a = map (fun c => if Ascii.eqb c "." || Ascii.eqb c "-" then "_"%char else c) s).

(** which binaries run on which mac *)
Definition mac_runs (cpu : str) (v : N * N) (fmt : str) : Prop :=
  (cpu = lit "x86_64" /\ not_newer (10, 4)%N v /\ In fmt [lit "x86_64"; lit "intel"; lit "fat64"; lit "fat32"; lit "universal2"; lit "universal"]) \/
  (cpu = lit "i386" /\ not_newer (10, 4)%N v /\ In fmt [lit "i386"; lit "intel"; lit "fat32"; lit "fat"; lit "universal"]) \/
  (cpu = lit "ppc64" /\ not_newer (10, 4)%N v /\ not_newer v (10, 5)%N /\ In fmt [lit "ppc64"; lit "fat64"; lit "universal"]) \/
  (cpu = lit "ppc" /\ not_newer v (10, 6)%N /\ In fmt [lit "ppc"; lit "fat32"; lit "fat"; lit "universal"]) \/
  (cpu = lit "arm64" /\ In fmt [lit "arm64"; lit "universal2"]) \/
  (~ In cpu [lit "x86_64"; lit "i386"; lit "ppc64"; lit "ppc"] /\ fmt = cpu) \/
  (cpu = lit "intel" /\ fmt = lit "universal") \/
  (cpu <> lit "x86_64" /\ (11 <= fst v)%N /\ fmt = lit "universal2").
Definition mac_cpu_seen (m : machine) : str :=
  if m_32bit m then if starts_with (lit "ppc") (m_mac_cpu m) then lit "ppc" else lit "i386" else m_mac_cpu m.
Definition mac_ok (m : machine) (p : str) : Prop :=
  exists a b fmt, p = lit "macosx" ++ us ++ a ++ us ++ b ++ us ++ fmt /\ all_digits a = true /\ all_digits b = true /\
    not_newer (read_N a, read_N b) (m_mac_version m) /\ mac_runs (mac_cpu_seen m) (m_mac_version m) fmt.

(** glibc platforms *)
Definition glibc_of_legacy (name : str) (v : N * N) : Prop :=
  (name = lit "manylinux1" /\ v = (2, 5)%N) \/ (name = lit "manylinux2010" /\ v = (2, 12)%N) \/ (name = lit "manylinux2014" /\ v = (2, 17)%N).
(** the version the name of a platform asks for. "more" is what the code skips (the tags in use have none) *)
Definition manylinux_version (name : str) (v : N * N) : Prop :=
  glibc_of_legacy name v \/
  exists x a b more, name = join us ((lit "manylinux" ++ x) :: a :: b :: more) /\ ~ In "_"%char x /\ all_digits a = true /\ all_digits b = true /\
    Forall (fun s => ~ In "_"%char s) more /\ v = (read_N a, read_N b).
Definition linux_name (m : machine) : str :=
  let p := map (fun c => if Ascii.eqb c "." || Ascii.eqb c "-" then "_"%char else c) (m_platform m) in
  if m_32bit m && str_eqb p (lit "linux_x86_64") then lit "linux_i686"
  else if m_32bit m && str_eqb p (lit "linux_aarch64") then lit "linux_armv7l" else p.
Definition linux_ok (m : machine) (p : str) : Prop :=
  p = linux_name m \/
  exists os arch name v mine, linux_name m = os ++ us ++ arch /\ ~ In "_"%char os /\ p = name ++ us ++ arch /\
    m_glibc m = Some mine /\ manylinux_version name v /\ not_newer v mine.
Definition platform_ok (m : machine) (p : str) : Prop :=
  p = lit "any" \/ p = map (fun c => if Ascii.eqb c "." || Ascii.eqb c "-" then "_"%char else c) (m_platform m) \/
  (m_system m = Linux /\ linux_ok m p) \/ (m_system m = Darwin /\ mac_ok m p).

(** musl platforms, PEP 656 *)
Definition musl_ok (m : machine) (p : str) : Prop :=
  m_system m = Linux /\ exists os arch a b mine, linux_name m = os ++ us ++ arch /\ ~ In "_"%char os /\
    p = lit "musllinux_" ++ show_N a ++ us ++ show_N b ++ us ++ arch /\ m_musl m = Some mine /\ a = fst mine /\ (b <= snd mine)%N.

Definition compatible (m : machine) (i a p : str) : Prop := interpreter_ok m i /\ abi_ok m a /\ platform_ok m p.

(** well formed interpreter tags: when the name is followed by digits and underscores, it is a version *)
Definition well_formed_interpreter (m : machine) (i : str) : Prop :=
  forall name t, (name = lit "py" \/ name = m_ipt m) -> i = name ++ t -> t <> [] -> Forall (fun c => is_digit c = true \/ c = "_"%char) t ->
    exists v, version_text (snd (m_version m)) t v.
(** well formed platforms: "macosx" and "manylinux" are followed by a version, and the platform is not one of musl *)
Definition well_formed_platform (m : machine) (p : str) : Prop :=
  (m_system m = Linux -> exists os arch, linux_name m = os ++ us ++ arch /\ ~ In "_"%char os /\
     forall name, p = name ++ us ++ arch -> starts_with (lit "musllinux_") name = false /\
       (starts_with (lit "manylinux") name = true -> exists v, manylinux_version name v)) /\
  (m_system m = Darwin -> p = lit "macosx" \/ starts_with (lit "macosx_") p = true ->
     exists a b fmt, p = lit "macosx" ++ us ++ a ++ us ++ b ++ us ++ fmt /\ all_digits a = true /\ all_digits b = true).
