(** Vocabulary for the properties of wheel installations. *)
From Coq Require Import String Ascii List Bool NArith Arith.
From Verif Require Import Base FsModel FilesModel CopyTxModel RecordFileModel InstallModel WheelModel.
Import ListNotations.
Open Scope string_scope.
Open Scope nat_scope.
Open Scope list_scope.
Open Scope bool_scope.

(** a file of a directory with its path from there, outermost name first *)
Inductive has_file : tree -> list str -> str -> Prop :=
| here : forall s, has_file (TFile s) [] s
| inside : forall n cs c r s, In (n, c) cs -> has_file c r s -> has_file (TDir cs) (n :: r) s.
(** the directories for the parts of the data directory of a wheel *)
Definition parts (tg : target) : list (str * path) :=
  [(lit "stdlib", t_stdlib tg); (lit "platstdlib", t_platstdlib tg); (lit "platinclude", t_platinclude tg); (lit "purelib", t_purelib tg);
   (lit "platlib", t_platlib tg); (lit "include", t_include tg); (lit "data", t_data tg); (lit "scripts", t_scripts tg)].
(** where a file of a wheel belongs: in the site, or, for the data directory, in the directory of its part *)
Inductive belongs (tg : target) (site : path) (data : str) : list str -> path -> Prop :=
| in_site : forall n r, n <> data \/ r = [] -> belongs tg site data (n :: r) (rev (n :: r) ++ site)
| in_part : forall key dir r, r <> [] -> In (key, dir) (parts tg) -> belongs tg site data (data :: key :: r) (rev r ++ dir).
(** a name that can be the name of a file *)
Definition proper (n : str) : Prop := n <> [] /\ ~ In "/"%char n /\ n <> lit "." /\ n <> lit "..".
(** the files of a wheel; its own record is replaced by a new one *)
Definition wheel_file (c : content) (info : str) (r : list str) (s : str) : Prop :=
  has_file (TDir c) r s /\ ~ exists q, r = info :: lit "RECORD" :: q.
(** the program for an entry point of these two groups is put into the directory for scripts *)
Definition launcher_of (tg : target) (entries : list entry) (p : path) : Prop :=
  exists e, In e entries /\ (e_group e = lit "console_scripts" \/ e_group e = lit "gui_scripts") /\ p = resolve_record (t_scripts tg) (e_name e).
(** where the compiled code of a file of Python is kept *)
Definition cached (tag : str) (p q : path) : Prop :=
  exists n d, p = (n ++ lit ".py") :: d /\ n <> [] /\ q = (n ++ lit "." ++ tag ++ lit ".pyc") :: lit "__pycache__" :: d.
(** the paths of an installation: of the files of the wheel, of launchers and of compiled files *)
Inductive brought (tg : target) (site : path) (stem tag : str) (entries : list entry) (c : content) : path -> Prop :=
| from_wheel : forall r s p, wheel_file c (stem ++ lit ".dist-info") r s -> belongs tg site (stem ++ lit ".data") r p -> brought tg site stem tag entries c p
| from_entry : forall p, launcher_of tg entries p -> brought tg site stem tag entries c p
| from_source : forall r s p q, wheel_file c (stem ++ lit ".dist-info") r s -> belongs tg site (stem ++ lit ".data") r p -> cached tag p q -> brought tg site stem tag entries c q
| from_launcher : forall p q, launcher_of tg entries p -> cached tag p q -> brought tg site stem tag entries c q.
(** what pkm writes into the dist-info directory itself *)
Definition own (info q : path) : Prop := In q (map (fun n => n :: info) [lit "RECORD"; lit "INSTALLER"; lit "REQUESTED"; lit "INSTALLATION_MODE"]).
(** the record of an installed package lists a path *)
Definition listed (f : fs) (info : path) (q : path) : Prop :=
  exists text l r n, lookup f (lit "RECORD" :: info) = Some (File text) /\ load_records text = Ok l /\ In r l /\
    rec_file r = Some n /\ resolve_record (parent info) n = q.
(** the package with this dist-info directory is removed with the help of its record (InstallModel.v) *)
Definition uninstalled (info : path) (f1 f2 : fs) : Prop :=
  exists text l names, lookup f1 (lit "RECORD" :: info) = Some (File text) /\ load_records text = Ok l /\ map rec_file l = map Some names /\ removal info names f1 f2.
