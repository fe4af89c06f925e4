(** The executables made for scripts: pkm/src/pkm/launchers/__init__.py, [Executables] of pkm/src/pkm/launchers/executables.py and
    [OperatingPlatform] of pkm/src/pkm/api/environments/environment.py 130-141, 352-370.

    Simplifications: a file system is a mapping from paths, as texts, to contents; the directory can be made and written;
    permissions are left out.  A text is the sequence of its bytes. *)
From Coq Require Import String Ascii List Bool NArith Arith.
From Verif Require Import Base ParserModel.
Import ListNotations.
Open Scope string_scope.
Open Scope nat_scope.
Open Scope list_scope.
Open Scope bool_scope.

Definition lf : ascii := "010"%char.
Definition cr : ascii := "013"%char.

(** ** environment.py 352-370: the platform *)
Record platform := { p_os : str; p_bits : N; p_machine : str }.
(** 130-141, of what the interpreter says of itself: [platform.system()], [platform.machine()] *)
Definition platform_of (system machine : str) (bits : N) : platform :=
  {| p_os := lower system; p_bits := bits; p_machine := lower machine |}.
(** 361-362 *)
Definition has_windows_os (p : platform) : bool := str_eqb (p_os p) (lit "Windows").
(** 367-368 *)
Definition has_arm_cpu (p : platform) : bool := contains (lit "armv71") (p_machine p) || contains (lit "aarch64") (p_machine p).

(** ** launchers/__init__.py *)
(** the programs beside the module, pkm/src/pkm/launchers/, by their names *)
Definition shipped_names : list str :=
  [lit "w32.exe"; lit "w64.exe"; lit "w64-arm.exe"; lit "t32.exe"; lit "t64-arm.exe"; lit "t64.exe"].
(** 33-35 *)
Definition launcher_name (p : platform) (gui : bool) : str :=
  lit (if gui then "t" else "w") ++ (if has_arm_cpu p then lit "-arm" else []) ++ show_N (p_bits p) ++ lit ".exe".
Definition under (dir name : str) : str := dir ++ lit "/" ++ name.
Definition files := list (str * str).
(** a [ZipFile] of a file open for writing only, in the default mode, which is for reading: there is nothing to read,
    and BadZipFile is raised *)
Definition open_zip : res unit := Err OtherErr.
(** 16-46; [shipped] has the contents of the programs *)
Definition windows_launcher (shipped : list (str * str)) (p : platform) (interpreter dir name script : str) (gui : bool) (f : files) : files * res str :=
  match dict_get (launcher_name p gui) shipped with
  | None => (f, Err IOErr)
  | Some data =>
    let file := under dir (name ++ lit ".exe") in
    let f := dict_set file (data ++ lit "#!" ++ interpreter ++ [cr; lf]) f in
    (f, do _ <- open_zip; Ok file)
  end.

(** ** executables.py *)
(** 54 *)
Definition posix_script (interpreter script : str) : str := lit "#!" ++ interpreter ++ [lf] ++ script.
(** 39-61 *)
Definition generate (shipped : list (str * str)) (p : platform) (interpreter dir name script : str) (gui : bool) (f : files) : files * res str :=
  if has_windows_os p then windows_launcher shipped p interpreter dir name script gui f
  else (dict_set (under dir name) (posix_script interpreter script) f, Ok (under dir name)).
(** 63-75; [group] is the group of the entry point *)
Definition generate_for_entrypoint (shipped : list (str * str)) (p : platform) (interpreter dir name script group : str) (f : files) : files * res str :=
  generate shipped p interpreter dir name script (str_eqb group (lit "console_scripts")) f.
(** 25-34: a script of a wheel; [linesep] is that of the system pkm runs on *)
Definition first_line (s : str) : str * str :=
  match span (fun c => negb (Ascii.eqb c lf)) s with
  | (l, c :: rest) => (l ++ [c], rest)
  | (l, []) => (l, [])
  end.
Definition patched (linesep interpreter s : str) : str :=
  let (line, rest) := first_line s in
  (if starts_with "#!python" line
   then lit "#!" ++ interpreter ++ (if starts_with "#!pythonw" line then lit "w" else []) ++ linesep
   else line) ++ rest.

(** ** What a posix system makes of a script
    Linux, fs/binfmt_script.c: of the first [buf] bytes of a file, filled up with zeros, the first line without its "#!"; its first
    word is the program, the rest of the line its argument.  A word that may go on after the bytes seen is refused. *)
Definition nul : ascii := "000"%char.
Definition blank (c : ascii) : bool := Ascii.eqb c " " || Ascii.eqb c "009".
Definition ends_word (c : ascii) : bool := blank c || Ascii.eqb c nul.
Definition started (buf : nat) (text : str) : option (str * str) :=
  match firstn buf (text ++ repeat nul buf) with
  | "#"%char :: "!"%char :: r =>
    let (line, after) := span (fun c => negb (Ascii.eqb c lf)) r in
    let (name, rest) := span (fun c => negb (ends_word c)) (snd (span blank line)) in
    match name, after, rest with
    | [], _, _ => None
    | _, [], [] => None
    | _, _, _ => Some (name, fst (span (fun c => negb (Ascii.eqb c nul)) (snd (span blank rest))))
    end
  | _ => None
  end.
