(** Model of the hooks of a build backend: pkm/src/pkm/build/external_builders.py 28-77 (build_sdist), 98-156 (build_wheel without the
    detection of cycles, for which see BuildModel) and 159-216 (the script that calls a hook).

    Simplifications: a backend is what its import, its objects and its hooks do when they are called once; a hook returns nothing, a text,
    a list of texts, or something else that json can or cannot write; the script sees the file system of pkm. *)
From Coq Require Import String Ascii List Bool NArith ZArith Arith.
From Verif Require Import Base.
Import ListNotations.
Open Scope string_scope. Open Scope nat_scope. Open Scope list_scope. Open Scope bool_scope.

(** what a hook returns; [JOther]: a number and the like *)
Inductive value := JNull | JStr (s : str) | JList (l : list str) | JOther.
(** what a call does: it returns a value that json can write (or one that it cannot), raises, or ends the process *)
Inductive call := Returns (v : value) | ReturnsOpaque | Raises | Exits (code : Z).
Inductive arg := ANone | AStr (s : str).
(** what is found under "module:object"; [NotPython]: the names are such that the script is no python *)
Inductive object := NotPython | ImportRaises | ImportExits (code : Z) | NoObject | Object (hooks : str -> list arg -> option call).
(** [leave]: the code of the process after [exit(0)] (what runs at its end may change it) *)
Record backend := Backend { found : str -> option str -> object; leave : Z }.
(** how a function of pkm ends; [BuildErr missing_hook]: 22-26 *)
Inductive outcome (A : Type) := Done (a : A) | BuildErr (missing : bool) | Fails (e : exn).
Arguments Done {A} a. Arguments BuildErr {A} missing. Arguments Fails {A} e.

(** 163-165: the module, and the object in it if one is named; a second colon and what follows it are dropped *)
Definition backend_parts (build_backend : str) : str * option str :=
  match split_on ":"%char build_backend with
  | m :: o :: _ => (m, Some o)
  | m :: [] => (m, None)
  | [] => ([], None)
  end.
(** 167: backslashes are doubled *)
Fixpoint doubled (s : str) : str := match s with [] => [] | c :: r => if Ascii.eqb c "092" then c :: c :: doubled r else c :: doubled r end.
(** 173: python reads the text between single quotes; None: the script is no python. Escapes other than for a backslash do not occur *)
Fixpoint literal (s : str) : option str :=
  match s with
  | [] => Some []
  | c :: r =>
      if Ascii.eqb c "'" || Ascii.eqb c "010" || Ascii.eqb c "013" || Ascii.eqb c "000" then None
      else if Ascii.eqb c "092" then match r with d :: r' => if Ascii.eqb d "092" then match literal r' with Some t => Some (d :: t) | None => None end else None | [] => None end
      else match literal r with Some t => Some (c :: t) | None => None end
  end.
(** 172-176: the status and the value that are written, if any *)
Definition SUCCESS : str := lit "success".
Definition UNDEFINED : str := lit "undefined_hook".
Definition FAIL : str := lit "fail".
Definition ret (status : str) (v : value) (b : backend) : Z * option (str * value) := (leave b, Some (status, v)).
(** 178-189: the process: its code, and what it wrote. [SystemExit] is no [Exception]; a value that json cannot write raises in [ret], and
    the file is opened again for the failure. The text of the failure is left out *)
Definition script (b : backend) (build_backend hook : str) (args : list arg) : Z * option (str * value) :=
  let '(m, o) := backend_parts build_backend in
  match found b m o with
  | NotPython => (1%Z, None)
  | ImportRaises => ret FAIL JOther b
  | ImportExits code => (code, None)
  | NoObject => ret FAIL JOther b
  | Object hooks =>
      match hooks hook args with
      | None => ret UNDEFINED JNull b
      | Some (Returns v) => ret SUCCESS v b
      | Some ReturnsOpaque => ret FAIL JOther b
      | Some Raises => ret FAIL JOther b
      | Some (Exits code) => (code, None)
      end
  end.
(** 166-167, 191-193: the output is written to the file that the literal names *)
Definition process (b : backend) (output_path build_backend hook : str) (args : list arg) : Z * option (str * value) :=
  match literal (doubled output_path) with
  | None => (1%Z, None)
  | Some p => let '(code, out) := script b build_backend hook args in (code, if str_eqb p output_path then out else None)
  end.
(** 194-216 *)
Definition exec_hook (b : backend) (output_path build_backend hook : str) (args : list arg) : outcome (str * value) :=
  let '(code, out) := process b output_path build_backend hook args in
  if negb (Z.eqb code 0) then BuildErr false
  else match out with
       | None => Fails IOErr
       | Some (status, v) => if str_eqb status FAIL then BuildErr false else Done (status, v)
       end.

(** what is done to the build environment, in order *)
Inductive event := InstallDeps (l : list str) | Link (paths : list str) | Hook (name : str) (args : list arg).
Record job := Job {
  j_backend : backend; j_name : str; j_requires : list str; j_paths : list str;
  j_outputs : str -> str; (** the temporary output file of a hook *)
  j_install : list str -> option exn (** what fails when these are parsed and installed *) }.
Definition run := (list event * outcome str)%type.
Definition also (l : list event) (r : run) : run := (l ++ fst r, snd r).
Definition installing (j : job) (l : list str) (k : run) : run :=
  match j_install j l with Some e => ([InstallDeps l], Fails e) | None => also [InstallDeps l] k end.
Definition hooking (j : job) (hook : str) (args : list arg) (k : str -> value -> run) : run :=
  match exec_hook (j_backend j) (j_outputs j hook) (j_name j) hook args with
  | Done (status, v) => also [Hook hook args] (k status v)
  | BuildErr m => ([Hook hook args], BuildErr m)
  | Fails e => ([Hook hook args], Fails e)
  end.
(** 65, 132-134: iterating over the result: a text gives its characters *)
Definition requirements (v : value) : res (list str) :=
  match v with JList l => Ok l | JStr s => Ok (map (fun c => [c]) s) | JNull | JOther => Err TypeError end.
(** target_dir / result *)
Definition joined (dir : str) (v : value) : outcome str :=
  match v with JStr s => Done (if starts_with (lit "/") s then s else dir ++ lit "/" ++ s) | _ => Fails TypeError end.
(** 51-54, 119-122 *)
Definition prepared (j : job) (k : run) : run :=
  let k := match j_paths j with [] => k | _ => also [Link (j_paths j)] k end in
  match j_requires j with [] => k | _ => installing j (j_requires j) k end.
(** 56-77 *)
Definition build_sdist (j : job) (target_dir : str) : run :=
  prepared j
    (hooking j (lit "get_requires_for_build_sdist") [ANone] (fun status v =>
       let rest := hooking j (lit "build_sdist") [AStr target_dir; ANone] (fun status v =>
                     ([], if str_eqb status SUCCESS then joined target_dir v else BuildErr true)) in
       if str_eqb status SUCCESS then
         match requirements v with
         | Err e => ([], Fails e)
         | Ok [] => rest
         | Ok l => installing j l rest
         end
       else rest)).
(** 124-156 *)
Definition build_wheel (j : job) (target_dir : str) (only_meta editable : bool) : run :=
  prepared j
    (hooking j (if editable then lit "get_requires_for_build_editable" else lit "get_requires_for_build_wheel") [ANone] (fun status v =>
       let rest :=
         if only_meta then
           hooking j (lit "prepare_metadata_for_build_wheel") [AStr target_dir; ANone] (fun status v =>
             ([], if str_eqb status SUCCESS then joined target_dir v else BuildErr true))
         else
           hooking j (if editable then lit "build_editable" else lit "build_wheel") [AStr target_dir; ANone; ANone] (fun status v =>
             ([], if str_eqb status SUCCESS then joined target_dir v else BuildErr false)) in
       if str_eqb status SUCCESS then
         match requirements v with Err e => ([], Fails e) | Ok l => installing j l rest end
       else rest)).

(** where a path leads for a process in the directory [cwd] (193: the script runs in the directory of the project) *)
Definition seen_from (cwd path : str) : str := if starts_with (lit "/") path then path else cwd ++ lit "/" ++ path.
