(** Executing a template, pkm-cli/src/pkm_cli/api/templates/template_runner.py:97-163.
    Simplifications: the module of the template is reduced to the renderings of its context ([names], [texts]:
    what jinja makes of a file name and of a text, or its exception); [setup] and [post_render] change no file;
    no symbolic links; the template is a tree that is not changed by rendering; the directory entries come in
    the order of the lists; [shutil.copytree] copies directories before what they contain. *)
From Coq Require Import String Ascii List Bool NArith Arith.
From Verif Require Import Base FsModel.
Import ListNotations.
Open Scope string_scope.
Open Scope nat_scope.
Open Scope list_scope.
Open Scope bool_scope.

(** a directory entry of the template *)
Inductive tree := TFile (name content : str) | TDir (name : str) (children : list tree).
Definition tname (t : tree) : str := match t with TFile n _ => n | TDir n _ => n end.

(** 117-130 [_load_ignored_files]: paths relative to the template directory. [glob root line]: what the
    pattern of a line of .templateignore matches below [root]. The defaults always name entries of the template
    directory itself and .templateignore is always looked up there. *)
Definition control_files : list path := [[lit "render.py"]; [lit "__pycache__"]; [lit ".templateignore"]].
Definition ignored_here (ignore_lines : option (list str)) (glob : path -> str -> list path) (root : path) : list path :=
  match ignore_lines with
  | None => control_files
  | Some lines => flat_map (fun l => if forallb is_space l then [] else glob root l) lines
  end.
Fixpoint ignored_below (ignore_lines : option (list str)) (glob : path -> str -> list path) (root : path) (t : tree) : list path :=
  match t with
  | TFile _ _ => []
  | TDir n c => ignored_here ignore_lines glob (n :: root) ++ flat_map (ignored_below ignore_lines glob (n :: root)) c
  end.
Definition load_ignored (ignore_lines : option (list str)) (glob : path -> str -> list path) (template : list tree) : list path :=
  ignored_here ignore_lines glob [] ++ flat_map (ignored_below ignore_lines glob []) template.

(** [(base / name).resolve()], 145: [base] is absolute and resolved *)
Definition descend (p : path) (part : str) : path :=
  if str_eqb part [] || str_eqb part (lit ".") then p
  else if str_eqb part (lit "..") then tl p
  else part :: p.
Definition resolve (base : path) (name : str) : path :=
  fold_left descend (split_on "/"%char name) (if starts_with (lit "/") name then [] else base).

(** [Path.mkdir(parents=True, exist_ok=True)], [os.makedirs(exist_ok=True)]: nothing is made when a file is in
    the way *)
Fixpoint mkdirs (f : fs) (p : path) : res fs :=
  match lookup f p with
  | Some Dir => Ok f
  | Some (File _) => Err IOErr
  | None =>
      match p with
      | [] => Ok (write f [] Dir)
      | _ :: par => do f' <- mkdirs f par; Ok (write f' p Dir)
      end
  end.
(** opening for writing and filling with [c] *)
Definition put (f : fs) (p : path) (c : str) : res fs :=
  match p with
  | [] => Err IOErr
  | _ :: par => if is_dir f p || negb (is_dir f par) then Err IOErr else Ok (write f p (File c))
  end.
(** [shutil.copy]: into the directory, under the name of the source, when the destination is a directory *)
Definition copy_to (f : fs) (source_name content : str) (dst : path) : res fs :=
  put f (if is_dir f dst then source_name :: dst else dst) content.

(** [target_child.suffix == ".tmpl"] and [with_suffix("")], 157-158: the name without the suffix *)
Definition tmpl_stem (p : path) : option (str * path) :=
  match p with
  | [] => None
  | n :: par =>
      let k := length n - 5 in
      if (5 <? length n) && str_eqb (skipn k n) (lit ".tmpl") then Some (firstn k n, par) else None
  end.

(** [shutil.copytree] of a directory of the template to a place where nothing is, 152 *)
Fixpoint copy_one (dst : path) (f : fs) (t : tree) : fs :=
  match t with
  | TFile n c => write f (n :: dst) (File c)
  | TDir n cs => fold_left (copy_one (n :: dst)) cs (write f (n :: dst) Dir)
  end.
Definition copy_tree (f : fs) (dst : path) (children : list tree) : fs := fold_left (copy_one dst) children f.

Section Render.
  Variables (names texts : str -> res str) (ignored : path -> bool).
  Definition preserved (children : list tree) : bool :=
    existsb (fun t => str_eqb (tname t) (lit ".templatepreserve")) children.
  (** 157-161: a file of the template *)
  Definition render_file (f : fs) (name content : str) (dst : path) : fs * res unit :=
    match tmpl_stem dst with
    | Some (stem, par) =>
        if str_eqb stem (lit ".") || str_eqb stem (lit "..") then (f, Err IOErr)
        else match put f (stem :: par) [] with
             | Err e => (f, Err e)
             | Ok f1 => match texts content with
                        | Err e => (f1, Err e)
                        | Ok t => match put f1 (stem :: par) t with Err e => (f1, Err e) | Ok f2 => (f2, Ok tt) end
                        end
             end
    | None => match copy_to f name content dst with Err e => (f, Err e) | Ok f1 => (f1, Ok tt) end
    end.
  (** 147-148 *)
  Definition ensure_parent (f : fs) (dst : path) : res fs :=
    if exists_at f (tl dst) then Ok f else mkdirs f (tl dst).
  (** 155 [mkdir(exist_ok=True)] *)
  Definition ensure_dir (f : fs) (dst : path) : res fs :=
    match lookup f dst with
    | Some Dir => Ok f
    | Some (File _) => Err IOErr
    | None => if is_dir f (tl dst) then Ok (write f dst Dir) else Err IOErr
    end.
  (** 136: the loop over the entries; [Ok false]: return *)
  Definition loop (entry : tree -> fs -> fs * res bool) : list tree -> fs -> fs * res unit :=
    fix go (l : list tree) (f : fs) : fs * res unit :=
      match l with
      | [] => (f, Ok tt)
      | t :: r =>
          match entry t f with
          | (f', Ok true) => go r f'
          | (f', Ok false) => (f', Ok tt)
          | (f', Err e) => (f', Err e)
          end
      end.
  Definition continue (r : fs * res unit) : fs * res bool :=
    match r with (f, Ok _) => (f, Ok true) | (f, Err e) => (f, Err e) end.
  (** 137-161: an entry; [at_]: where its directory is in the template *)
  Fixpoint render_entry (at_ target : path) (t : tree) (f : fs) : fs * res bool :=
    if ignored (tname t :: at_) then (f, Ok true)
    else match names (tname t) with
         | Err e => (f, Err e)
         | Ok [] => (f, Ok true)
         | Ok name =>
             let dst := resolve target name in
             match ensure_parent f dst with
             | Err e => (f, Err e)
             | Ok f1 =>
                 match t with
                 | TDir n cs =>
                     if preserved cs
                     then if exists_at f1 dst || negb (is_dir f1 (tl dst)) then (f1, Err IOErr)
                          else (copy_tree (write f1 dst Dir) dst cs, Ok false) (* 152-153: copytree, return *)
                     else match ensure_dir f1 dst with
                          | Err e => (f1, Err e)
                          | Ok f2 => continue (loop (render_entry (n :: at_) dst) cs f2)
                          end
                 | TFile n c => continue (render_file f1 n c dst)
                 end
             end
         end.
  (** 132-161 [_render] *)
  Definition render (f : fs) (at_ target : path) (children : list tree) : fs * res unit :=
    loop (render_entry at_ target) children f.
End Render.

(** the entries below a directory with paths relative to it, directories before what they contain *)
Definition by_depth (l : fs) : fs :=
  flat_map (fun d => filter (fun e => length (fst e) =? d) l) (seq 1 (list_max (map (fun e => length (fst e)) l))).
(** [shutil.copytree(tdir, target_dir, dirs_exist_ok=True)], 113, for one entry: errors are collected, the rest
    is copied all the same *)
Definition copy_entry (target : path) (st : fs * bool) (e : path * node) : fs * bool :=
  let (f, ok) := st in
  let dst := fst e ++ target in
  match snd e with
  | Dir => match ensure_dir f dst with Ok f' => (f', ok) | Err _ => (f, false) end
  | File c => match copy_to f (hd [] (fst e)) c dst with Ok f' => (f', ok) | Err _ => (f, false) end
  end.

(** 97-115 [execute], after [setup]; [tdir]: the directory that [temp_dir] makes *)
Definition execute (names texts : str -> res str) (ignored : path -> bool) (template : list tree)
    (allow_overwrite : bool) (tdir target : path) (f : fs) : fs * res unit :=
  if allow_overwrite then render names texts ignored f [] target template
  else
    match render names texts ignored (write f tdir Dir) [] tdir template with
    | (f2, Err e) => (remove_tree f2 tdir, Err e)
    | (f2, Ok _) =>
        let rendered := by_depth (tree_at f2 tdir) in
        if existsb (fun e => exists_at f2 (fst e ++ target) && negb (is_dir f2 (fst e ++ target))) rendered
        then (remove_tree f2 tdir, Err IOErr)
        else match mkdirs f2 target with
             | Err e => (remove_tree f2 tdir, Err e)
             | Ok f3 =>
                 let (f4, ok) := fold_left (copy_entry target) rendered (f3, true) in
                 (remove_tree f4 tdir, if ok then Ok tt else Err IOErr)
             end
    end.
