(** The command that runs programs and tasks: pkm-cli/src/pkm_cli/main.py [pkm_run] (78-108) and the dynamic commands of
    pkm-cli/src/pkm_cli/api/dynamic_cli/command_parser.py (607-616).

    Simplifications: the words before [run] are parsed already (CliModel); what the program or the task does is left out;
    the tasks that are attached to the command are left out (ControllerModel). *)
From Coq Require Import String Ascii List Bool NArith Arith.
From Verif Require Import Base FsModel CliModel ContextModel.
Import ListNotations.
Open Scope string_scope.
Open Scope nat_scope.
Open Scope list_scope.
Open Scope bool_scope.

(** command_parser.py 138-151: the reader that is taken when none is given *)
Definition plain_text : reader := RType (fun s => Ok (VS s)).
(** main.py 83: the arguments of a program *)
Definition exec_args : list argdef := [Arg [lit "cmd-and-args"] plain_text None None (KPositional None)].
(** main.py 104: the arguments of a task *)
Definition task_args : list argdef :=
  [Arg [lit "task"] plain_text None None (KPositional (Some 1)); Arg [lit "args"] plain_text (Some (VL [])) None (KPositional None)].
(** context.py 88-91 [lookup_project]: the project of the context; the collector is called without one when it is missing *)
Definition project_of (f : fs) (x : context) : res (option path) :=
  do t <- run f (Handlers true false false false false true) x;
  Ok (match t with OnProject p => Some p | _ => None end).
(** main.py 78-108 [pkm_run]: the arguments the command takes, by the next word, and the project when it is a task *)
Definition pkm_run (f : fs) (x : context) (words : buffer) : res (option path * list argdef) :=
  if match words with [] => true | w :: _ => negb (starts_with (lit "@") w) end then Ok (None, exec_args)
  else do p <- project_of f x;
       match p with Some p => Ok (Some p, task_args) | None => Err UnsupportedOperation end.
(** what is done in the end *)
Inductive done := Exec (t : target) (program : str) (args : list str) | RunTask (project : path) (task : str) (args : list str) | Help.
(** the texts of an argument that takes any number of them *)
Definition texts (v : val) : list str := match v with VL l => flat_map (fun v => match v with VS s => [s] | _ => [] end) l | _ => [] end.
(** main.py 84-96 [os_exec] *)
Definition os_exec (f : fs) (x : context) (cmd : result) : res done :=
  match getattr cmd (lit "cmd_and_args") with
  | None => Err AttributeError
  | Some v => match texts v with
              | [] => Err UnsupportedOperation
              | program :: args => do t <- run f (Handlers true false true false false false) x; Ok (Exec t program args)
              end
  end.
(** main.py 105-106 [task_exec] *)
Definition task_exec (p : path) (cmd : result) : res done :=
  match getattr cmd (lit "task"), getattr cmd (lit "args") with
  | Some (VS t), Some v => Ok (RunTask p t (texts v))
  | _, _ => Err AttributeError
  end.
(** command_parser.py 607-613: the command replaces itself, without subcommands, and reads the words that remain; main.py
    208-225: the help is printed when it is asked for, and a word that is not understood is an error ([IOErr]).
    [above]: the commands that were read before.  [None]: the loop did not end within [fuel] rounds. *)
Definition run_command (fuel : nat) (f : fs) (x : context) (above : result) (words : buffer) : option (res done) :=
  match pkm_run f x words with
  | Err e => Some (Err e)
  | Ok (task, args) =>
      option_map (fun r =>
        do cmd <- r;
        if match getattr cmd (lit "help") with Some v => truthy v | None => false end then Ok Help
        else match task with None => os_exec f x cmd | Some p => task_exec p cmd end)
      (parse_loop fuel (St (Node (Some args) []) [lit "pkm"; lit "run"] [] 0 above) words)
  end.
