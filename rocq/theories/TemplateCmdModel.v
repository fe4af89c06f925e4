(** The command of a template: pkm-cli/src/pkm_cli/api/templates/template_runner.py 79-95 and 163-164, on top of the command of a
    function (MethodModel.v).

    Simplifications: those of MethodModel.v; the command stands alone; what the template renders is in TemplateModel.v. *)
From Coq Require Import String Ascii List Bool NArith Arith.
From Verif Require Import Base ParserModel MarkerModel ProjectModel CliModel ContextModel MethodModel.
Import ListNotations.
Open Scope string_scope.
Open Scope nat_scope.
Open Scope list_scope.
Open Scope bool_scope.

(** 81-89: the arguments of the setup, and a flag whose short name is left out if one of them has it *)
Definition overwrite_flag (defs : list argdef) : argdef :=
  Arg (if existsb (fun a => str_mem (lit "-o") (a_names a)) defs then [lit "--overwrite"] else [lit "-o"; lit "--overwrite"])
    RFlag (Some (VB false)) None (KOption false None).
Definition template_args (g : signature) : res (list argdef) :=
  do defs <- definition g; Ok (defs ++ [overwrite_flag defs]).
(** 91-92, 163-164: what the setup is called with, and whether files may be overwritten (103: the truth of [cmd.overwrite]) *)
Definition execute (g : signature) (arguments : list (str * val)) : res (list (str * val) * bool) :=
  do defs <- definition g;
  match dict_get (lit "overwrite") arguments with
  | None => Err AttributeError
  | Some v => do b <- call g (filter (fun kv => str_mem (fst kv) (map a_field defs)) arguments); Ok (b, truthy v)
  end.
Inductive result := HelpShown | Ran (bound : list (str * val)) (allow_overwrite : bool).
(** the words after the name of the template *)
Definition run_template (fuel : nat) (g : signature) (words : list str) : option (res result) :=
  match template_args g with
  | Err e => Some (Err e)
  | Ok defs =>
      match parse fuel (create [([lit "new"], defs)]) (lit "new" :: words) with
      | None => None
      | Some (Err e) => Some (Err e)
      | Some (Ok r) =>
          Some (match r with
                | (_, args) :: _ =>
                    if match dict_get (lit "help") args with Some v => truthy v | None => false end then Ok HelpShown
                    else do b <- execute g args; Ok (Ran (fst b) (snd b))
                | [] => Err IOErr
                end)
      end
  end.
