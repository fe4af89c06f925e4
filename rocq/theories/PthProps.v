(** C60: link files. *)
From Coq Require Import String Ascii List Bool NArith Arith.
From Verif Require Import Base BaseFacts PthModel PthProofs.
Import ListNotations.
Open Scope string_scope.
Open Scope nat_scope.
Open Scope list_scope.
Open Scope bool_scope.

(** imports that are neither empty nor surrounded by blanks, (absolute) paths that do not end with a blank, and no line breaks *)
Theorem C60_round_trip_partial : forall cwd imports links, Forall good_import (match imports with Some l => l | None => [] end) ->
  Forall good_link (map (absolute cwd) links) ->
  load (save cwd (Pth imports links)) = Pth (Some (match imports with Some l => l | None => [] end)) (map (absolute cwd) links).
Proof. exact round_trip. Qed.
Print Assumptions C60_round_trip_partial.
Definition home : ppath := PP (lit "/") [lit "home"; lit "me"].
Example C60_sample : let links := [PP (lit "/") [lit "opt"; lit "my lib"]; PP [] [lit "src"]] in
  Forall good_import [lit "a.b; a.b.run()"; lit "import"] /\ Forall good_link (map (absolute home) links) /\
  map show_path (l_links (load (save home (Pth (Some [lit "a.b; a.b.run()"; lit "import"]) links)))) = [lit "/opt/my lib"; lit "/home/me/src"].
Proof.
  cbv zeta. split; [|split; [|vm_compute; reflexivity]].
  - constructor; [|constructor; [|constructor]]; (split; [split; reflexivity|split; intro X; cbn in X; intuition discriminate]).
  - assert (P : forall s, s <> [] -> s <> lit "." -> forallb (fun c => negb (Ascii.eqb c "/" || Ascii.eqb c LF || Ascii.eqb c CR)) s = true -> good_part s).
    { intros s A B C. rewrite forallb_forall in C. split; [exact A|]. split; [exact B|]. split; [|split]; intro I; specialize (C _ I); discriminate. }
    constructor; [|constructor; [|constructor]]; (split; [left; reflexivity|split; [|split; [discriminate|split; reflexivity]]]); cbn.
    + constructor; [|constructor; [|constructor]]; (apply P; [discriminate|discriminate|reflexivity]).
    + constructor; [|constructor; [|constructor; [|constructor]]]; (apply P; [discriminate|discriminate|reflexivity]).
Qed.
(** a path with a line break becomes two links *)
Theorem C60_line_break_refuted : exists cwd link, pp_root link = lit "/" /\ l_links (load (save cwd (Pth None [link]))) <> [link] /\
  length (l_links (load (save cwd (Pth None [link])))) = 2.
Proof. exists home, (PP (lit "/") [lit "a" ++ [LF] ++ lit "b"]). split; [reflexivity|]. split; [vm_compute; discriminate|vm_compute; reflexivity]. Qed.
Print Assumptions C60_line_break_refuted.
(** a blank at the end of a path is lost *)
Theorem C60_blank_refuted : exists cwd link, pp_root link = lit "/" /\ pp_parts link = [lit "a "] /\ l_links (load (save cwd (Pth None [link]))) = [PP (lit "/") [lit "a"]].
Proof. exists home, (PP (lit "/") [lit "a "]). vm_compute. repeat split; reflexivity. Qed.
Print Assumptions C60_blank_refuted.
(** an empty import comes back as a link *)
Theorem C60_empty_import_refuted : exists cwd, load (save cwd (Pth (Some [[]]) [])) = Pth (Some []) [PP [] [lit "import"]].
Proof. exists home. vm_compute. reflexivity. Qed.
Print Assumptions C60_empty_import_refuted.
