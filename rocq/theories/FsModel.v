(** A small file system: absolute paths, regular files and directories.
    Shared by the copy transaction, the templates, the build cache and the shared store models.
    Simplifications: no symbolic links, no permissions; a path is the list of its component names,
    innermost first, so that [parent] is the tail and [[]] is the root. *)
From Coq Require Import String Ascii List Bool NArith Arith.
From Verif Require Import Base.
Import ListNotations.
Open Scope nat_scope.
Open Scope list_scope.
Open Scope bool_scope.

Definition path := list str.
Inductive node := File (content : str) | Dir.
Definition fs := list (path * node).

Definition path_eqb : path -> path -> bool := list_eqb str_eqb.
Definition path_mem (p : path) (l : list path) : bool := existsb (path_eqb p) l.
Fixpoint lookup (f : fs) (p : path) : option node :=
  match f with
  | [] => None
  | (q, n) :: r => if path_eqb p q then Some n else lookup r p
  end.
Definition exists_at (f : fs) (p : path) : bool := is_some (lookup f p).
Definition is_dir (f : fs) (p : path) : bool := match lookup f p with Some Dir => true | _ => false end.
Definition is_file (f : fs) (p : path) : bool := match lookup f p with Some (File _) => true | _ => false end.
(** [p] is [b] or lies below it *)
Definition under (b p : path) : bool :=
  (length b <=? length p) && path_eqb (skipn (length p - length b) p) b.
(** the part of [p] below [b] *)
Definition rel_to (b p : path) : path := firstn (length p - length b) p.
Definition keep (q : path -> bool) (f : fs) : fs := filter (fun e => q (fst e)) f.
Definition remove_path (f : fs) (p : path) : fs := keep (fun q => negb (path_eqb q p)) f.
Definition remove_tree (f : fs) (p : path) : fs := keep (fun q => negb (under p q)) f.
Definition write (f : fs) (p : path) (n : node) : fs := (p, n) :: remove_path f p.
Definition is_child (p q : path) : bool := match q with [] => false | _ :: par => path_eqb par p end.
(** files.py:13-20 [is_empty_directory] *)
Definition is_empty_directory (f : fs) (p : path) : bool :=
  is_dir f p && forallb (fun e => negb (is_child p (fst e))) f.
(** the entries of the tree at [p], with paths relative to it *)
Definition tree_at (f : fs) (p : path) : fs :=
  map (fun e => (rel_to p (fst e), snd e)) (keep (under p) f).
Definition graft (f : fs) (p : path) (t : fs) : fs := map (fun e => (fst e ++ p, snd e)) t ++ f.
