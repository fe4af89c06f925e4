(** Model of pkm/src/pkm/api/distributions/pth_link.py, on posix ([os.linesep] is a line feed). Characters are bytes: the
    encoding of the file is left out. *)
From Coq Require Import String Ascii List Bool NArith Arith.
From Verif Require Import Base.
Import ListNotations.
Open Scope string_scope.
Open Scope nat_scope.
Open Scope list_scope.
Open Scope bool_scope.

(** [str.strip()] *)
Fixpoint lstrip_ws (s : str) : str := match s with [] => [] | c :: r => if is_space c then lstrip_ws r else s end.
Definition strip_ws (s : str) : str := rev (lstrip_ws (rev (lstrip_ws s))).
(** reading a file in text mode: CR LF and CR become LF *)
Definition LF : ascii := "010"%char.
Definition CR : ascii := "013"%char.
Fixpoint newlines (s : str) : str :=
  match s with
  | [] => []
  | c :: r => if Ascii.eqb c CR
              then LF :: match r with d :: r' => if Ascii.eqb d LF then newlines r' else newlines r | [] => [] end
              else c :: newlines r
  end.
(** [pathlib.PurePosixPath]: the root ("", "/" or "//") and the components *)
Record ppath := PP { pp_root : str; pp_parts : list str }.
Definition part_ok (s : str) : bool := negb (str_eqb s []) && negb (str_eqb s (lit ".")).
Definition path_of (s : str) : ppath :=
  PP (if starts_with (lit "/") s then if starts_with (lit "//") s && negb (starts_with (lit "///") s) then lit "//" else lit "/" else [])
     (filter part_ok (split_on "/" s)).
Definition show_path (p : ppath) : str := match pp_root p, pp_parts p with [], [] => lit "." | r, ps => r ++ join (lit "/") ps end.
(** [Path.absolute] in the working directory [cwd] *)
Definition absolute (cwd p : ppath) : ppath := match pp_root p with [] => PP (pp_root cwd) (pp_parts cwd ++ pp_parts p) | _ => p end.

(** pth_link.py:22-31; [None]: no imports given *)
Record pth_link := Pth { l_imports : option (list str); l_links : list ppath }.
(** 33-43: the text of the file *)
Definition save (cwd : ppath) (l : pth_link) : str :=
  concat (map (fun i => lit "import " ++ i ++ [LF]) (match l_imports l with Some i => i | None => [] end)) ++
  concat (map (fun p => show_path (absolute cwd p) ++ [LF]) (l_links l)).
(** 52-60 for one line *)
Definition load_line (acc : list str * list ppath) (line : str) : list str * list ppath :=
  match strip_ws line with
  | [] => acc
  | l => if starts_with (lit "#") l then acc
         else if starts_with (lit "import ") l || starts_with (lit "import" ++ ["009"%char]) l
              then (fst acc ++ [strip_ws (skipn 6 l)], snd acc)
              else (fst acc, snd acc ++ [path_of l])
  end.
(** 45-62, for the content of an existing file; the last (empty) piece of the split is what readline does not return *)
Definition load (content : str) : pth_link :=
  let r := fold_left load_line (split_on LF (newlines content)) ([], []) in Pth (Some (fst r)) (snd r).
