(** Model of the template for new tasks: pkm-cli/src/pkm_templates/task/render.py 7-15, and where its only file is put.

    Simplifications: the tree of tasks is the one of TaskModel; no part of the name is empty or has a slash in it; the file of the template
    is a script with a function run. *)
From Coq Require Import String Ascii List Bool NArith Arith.
From Verif Require Import Base TaskModel.
Import ListNotations.
Open Scope string_scope. Open Scope nat_scope. Open Scope list_scope. Open Scope bool_scope.

(** 9: task_parts *)
Definition task_parts (name : str) : list str := split_on "."%char (underscored name).
(** 10: task_name, and 11: task_path below "tasks" *)
Definition task_name (name : str) : str := last (task_parts name) [].
Definition task_path (name : str) : list str := removelast (task_parts name).
(** the directories are made where they are missing; a file in their place raises. The file does not replace one
    that is there: IOError (template_runner.py 107-110). Simplification: a directory with the name of the file is an error too; in the code
    the file is put into it *)
Fixpoint put (dirs : list str) (file : str) (l : list (str * node)) : res (list (str * node)) :=
  match dirs with
  | [] => match dict_get file l with Some _ => Err IOErr | None => Ok (dict_set file (Script true) l) end
  | d :: dirs =>
      match dict_get d l with
      | Some (Script _) => Err IOErr
      | Some (Folder k) => do k <- put dirs file k; Ok (dict_set d (Folder k) l)
      | None => do k <- put dirs file []; Ok (dict_set d (Folder k) l)
      end
  end.
Definition new_task (name : str) (tasks : list (str * node)) : res (list (str * node)) := put (task_path name) (task_name name ++ dot_py) tasks.
(** a task whose name has no point, in a process that has already imported modules (tasks_executor.py 69-89): importlib.util.find_spec
    takes the imported module if it has the name. None of these modules has a function run. Names with points are left to [load_task] *)
Definition load_among (imported : list str) (project : node) (installed : option node) (name : str) : res (list str) :=
  if str_mem (underscored name) imported then Err ValueError else load_task project installed name.
