(** [CopyTransaction], pkm/src/pkm/utils/files.py:119-269.
    Simplifications: the sources are read only and given by their content; the temporary directory with the
    backups is not part of the file system; a failing system call has no effect except for [shutil.copy],
    which may leave a partly written target; recording in the python sets happens together with the effect. *)
From Coq Require Import String Ascii List Bool NArith Arith.
From Verif Require Import Base FsModel.
Import ListNotations.
Open Scope nat_scope.
Open Scope list_scope.
Open Scope bool_scope.

(** files.py:127-130: [_copied_files], and [_overwritten_files] with what was moved to [_temp_dir/i] *)
Record tx := TX { fsys : fs; copied : list path; backups : list (path * fs) }.
Definition tx_start (f : fs) : tx := TX f [] [].

(** An execution either goes on, with the number of system calls that still succeed, or has raised. *)
Inductive outcome := Go (budget : nat) (t : tx) | Raised (t : tx).
(** one system call: raises when the budget is used up; [t'] is the state it leads to, [None] if the
    operating system refuses it anyway *)
Definition syscall (b : nat) (t : tx) (t' : option tx) : outcome :=
  match b with
  | 0 => Raised t
  | S b' => match t' with Some t' => Go b' t' | None => Raised t end
  end.
Definition and_then (o : outcome) (k : nat -> tx -> outcome) : outcome :=
  match o with Go b t => k b t | Raised t => Raised t end.

Definition add_copied (t : tx) (p : path) : tx := TX (fsys t) (copied t ++ [p]) (backups t).
Definition set_fs (t : tx) (f : fs) : tx := TX f (copied t) (backups t).

(** files.py:161-173 [mkdir] *)
Fixpoint tx_mkdir (b : nat) (t : tx) (target : path) : outcome :=
  if exists_at (fsys t) target then Go b t
  else match target with
       | [] => Go b t
       | _ :: parent =>
           and_then (if exists_at (fsys t) parent then Go b t else tx_mkdir b t parent)
             (fun b t => syscall b t (if is_dir (fsys t) parent
                                      then Some (add_copied (set_fs t (write (fsys t) target Dir)) target)
                                      else None))
       end.
(** files.py:230-238 [rm] *)
Definition tx_rm (b : nat) (t : tx) (p : path) : outcome :=
  syscall b t (if exists_at (fsys t) p
               then Some (TX (remove_tree (fsys t) p) (copied t) (backups t ++ [(p, tree_at (fsys t) p)]))
               else None).
(** [shutil.copy] to a path that does not exist; [partial] is what a failing call leaves behind *)
Definition do_copy (b : nat) (t : tx) (content : str) (target : path) (partial : option str) : outcome :=
  match target with
  | [] => Raised t
  | _ :: parent =>
    if is_dir (fsys t) parent then
      match b, partial with
      | 0, Some c => Raised (set_fs t (write (fsys t) target (File c)))
      | _, _ => syscall b t (Some (add_copied (set_fs t (write (fsys t) target (File content))) target))
      end
    else Raised t
  end.
(** files.py:175-196 [copy] of a file with the given content; [None] when the source is a directory *)
Definition tx_copy (b : nat) (t : tx) (source : option str) (target : path) (partial : option str) : outcome :=
  match source with
  | None => Raised t (* 181-182 UnsupportedOperationException *)
  | Some content =>
      and_then (if exists_at (fsys t) target then tx_rm b t target else Go b t)
        (fun b t =>
           match target with
           | [] => Raised t
           | _ :: parent =>
               (* 189-192: FileNotFoundError when the parent does not exist *)
               and_then (if exists_at (fsys t) parent then Go b t else tx_mkdir b t parent)
                 (fun b t => do_copy b t content target partial)
           end)
  end.
(** files.py:212-220 [touch]; with [fs_touch] a missing file is created empty (its time stamp is not modelled) *)
Definition tx_touch (b : nat) (t : tx) (p : path) (fs_touch : bool) : outcome :=
  let t := add_copied t p in
  if negb fs_touch || exists_at (fsys t) p then Go b t
  else syscall b t (match p with
                    | _ :: parent => if is_dir (fsys t) parent then Some (set_fs t (write (fsys t) p (File []))) else None
                    | [] => None
                    end).
(** files.py:146-147: a user supplied [file_copy] that writes the target, followed by [touch] *)
Definition tx_custom_copy (b : nat) (t : tx) (content : str) (target : path) : outcome :=
  match target with
  | [] => Raised t
  | _ :: parent =>
      and_then (syscall b t (if is_dir (fsys t) parent && negb (is_dir (fsys t) target)
                             then Some (set_fs t (write (fsys t) target (File content))) else None))
        (fun b t => tx_touch b t target false)
  end.

Inductive tx_op :=
| OMkdir (p : path)
| OCopy (source : option str) (p : path)
| ORm (p : path)
| OTouch (p : path) (fs_touch : bool)
| OCustom (content : str) (p : path).
Definition tx_step (partial : option str) (b : nat) (t : tx) (o : tx_op) : outcome :=
  match o with
  | OMkdir p => tx_mkdir b t p
  | OCopy s p => tx_copy b t s p partial
  | ORm p => tx_rm b t p
  | OTouch p ft => tx_touch b t p ft
  | OCustom c p => tx_custom_copy b t c p
  end.
Definition tx_run (partial : option str) (b : nat) (t : tx) (ops : list tx_op) : outcome :=
  fold_left (fun o op => and_then o (fun b t => tx_step partial b t op)) ops (Go b t).

(** the source of [copy_tree]: what the directory iteration of the source yields, in that order *)
Inductive tree := TFile (content : str) | TDir (children : list (str * tree)).
(** files.py:132-159 [copy_tree]: the operations it performs.  [accept] sees the path below the source;
    [custom]: a [file_copy] was given.  The recursive call of line 157 passes [accept] but not [file_copy]. *)
Fixpoint copy_tree_ops (custom : bool) (accept : path -> bool) (src : path) (target : path) (t : tree) : list tx_op :=
  match t with
  | TFile _ => []
  | TDir cs =>
      OMkdir target ::
      (fix go (l : list (str * tree)) : list tx_op :=
         match l with
         | [] => []
         | (n, c) :: r =>
             (if accept (n :: src) then
                match c with
                | TDir _ => copy_tree_ops false accept (n :: src) (n :: target) c
                | TFile x => if custom then [OCustom x (n :: target)] else [OCopy (Some x) (n :: target)]
                end
              else []) ++ go r
         end) cs
  end.

(** [shutil.move(temp/i, path)] on the way back; [None]: raises *)
Definition restore (f : fs) (i : str) (p : path) (t : fs) : option fs :=
  match lookup f p with
  | Some Dir => (* moved into the directory, under the name of the temporary entry *)
      if exists_at f (i :: p) then None else Some (graft f (i :: p) t)
  | Some (File _) => if is_dir t [] then None else Some (graft (remove_path f p) p t)
  | None => match p with
            | [] => None
            | _ :: parent => if is_dir f parent then Some (graft f p t) else None
            end
  end.
Fixpoint restore_all (f : fs) (i : nat) (bs : list (path * fs)) : option fs :=
  match bs with
  | [] => Some f
  | (p, t) :: r => match restore f (show_N (N.of_nat i)) p t with
                   | Some f' => restore_all f' (S i) r
                   | None => None
                   end
  end.
(** files.py:257-259 *)
Definition unlink_pass (order : list path) (f : fs) : fs :=
  fold_left (fun f p => if is_file f p then remove_path f p else f) order f.
(** files.py:261-263 *)
Definition rmdir_pass (order : list path) (f : fs) : fs :=
  fold_left (fun f p => if is_empty_directory f p then remove_path f p else f) order f.
(** files.py:256-269 [_rollback]; [order]: the order in which python iterates over the set *)
Definition rollback (order : list path) (t : tx) : option fs :=
  restore_all (rmdir_pass order (unlink_pass order (fsys t))) 0 (backups t).
