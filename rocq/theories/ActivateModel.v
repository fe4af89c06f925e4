(** Model of pkm/src/pkm/api/environments/environment.py:172-196 and environments_zoo.py:63-76: activation of an environment
    and of a zoo. The process environment is a dictionary of strings. *)
From Coq Require Import String Ascii List Bool NArith Arith.
From Verif Require Import Base.
Import ListNotations.
Open Scope string_scope.
Open Scope nat_scope.
Open Scope list_scope.
Open Scope bool_scope.

Definition env := list (str * str).
(** the body of a [with] block: what it leaves, and how it ends *)
Definition body := env -> env * option exn.
Definition PATH := lit "PATH".
Definition VENV := lit "VIRTUAL_ENV".
(** [del env[k]] *)
Definition del_key (k : str) (e : env) : res env := if dict_has k e then Ok (dict_del k e) else Err KeyError.
(** os.pathsep, on posix *)
Definition pathsep := lit ":".
(** the new PATH: 175-177, and environments_zoo.py:66-67 *)
Definition extended (dir : str) (old : option str) : str := match old with Some (c :: r) => dir ++ pathsep ++ (c :: r) | _ => dir end.
(** environment.py:172-196 [Environment.activate], with a body; [scripts], [home]: the scripts directory and the path of the
    environment. An exception in the [finally] block replaces the one of the body. *)
Definition restore (k : str) (old : option str) (e : env) : res env := match old with Some v => Ok (dict_set k v e) | None => del_key k e end.
Definition activate (scripts home : str) (b : body) : body := fun e =>
  let old_path := dict_get PATH e in
  let new_path := extended scripts old_path in
  let old_venv := dict_get VENV e in
  let e1 := dict_set VENV home (dict_set PATH new_path e) in
  let (e2, x) := b e1 in
  match restore PATH old_path e2 with
  | Err y => (e2, Some y)
  | Ok e3 => match restore VENV old_venv e3 with Err y => (e3, Some y) | Ok e4 => (e4, x) end
  end.
(** environments_zoo.py:63-76 [EnvironmentsZoo.activate] *)
Definition activate_zoo (bin : str) (b : body) : body := fun e =>
  let prev := dict_get PATH e in
  let new_path := extended bin prev in
  let (e2, x) := b (dict_set PATH new_path e) in
  match prev with
  | Some (c :: r) => (dict_set PATH (c :: r) e2, x)
  | _ => match del_key PATH e2 with Ok e3 => (e3, x) | Err y => (e2, Some y) end
  end.

(** programs that activate: other commands do not touch the two variables (they may fail) *)
Inductive prog := Other (f : env -> env) | Fail (x : exn) | Seq (a b : prog) | InEnv (scripts home : str) (p : prog) | InZoo (bin : str) (p : prog).
Fixpoint exec (p : prog) : body :=
  match p with
  | Other f => fun e => (f e, None)
  | Fail x => fun e => (e, Some x)
  | Seq a b => fun e => match exec a e with (e1, None) => exec b e1 | r => r end
  | InEnv s h p => activate s h (exec p)
  | InZoo s p => activate_zoo s (exec p)
  end.
