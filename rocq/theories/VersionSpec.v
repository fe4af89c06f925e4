(** Independent specifications used to state the version properties.
    Nothing here refers to the comparison functions of the model. *)
From Coq Require Import String Ascii List Bool NArith Arith.
From Verif Require Import Base VersionModel.
Import ListNotations.
Open Scope string_scope.
Open Scope nat_scope.
Open Scope list_scope.

(** What the version parser can produce: a non-empty release and a pre-release type among a, b, rc. *)
Definition pre_types : list str := [lit "a"; lit "b"; lit "rc"].
Definition wf_sv (v : sv) : Prop :=
  release v <> [] /\
  (forall t n, pre_release v = Some (t, n) -> In t pre_types).

(** Release component [i], with the implicit zeros. *)
Definition rel_at (v : sv) (i : nat) : N := nth i (release v) 0%N.
Definition ep (v : sv) : N := match epoch v with Some e => e | None => 0%N end.

(** Two standard versions name the same version (PEP 440, "version equality" with trailing zeros
    and missing epoch ignored). *)
Definition same_public (a b : sv) : Prop :=
  ep a = ep b /\ (forall i, rel_at a i = rel_at b i)
  /\ pre_release a = pre_release b /\ post_release a = post_release b
  /\ dev_release a = dev_release b.
Definition same_version (a b : sv) : Prop := same_public a b /\ local_label a = local_label b.

(** The segments of a local label. *)
Definition segs (v : sv) : list str :=
  match local_label v with Some l => split_on "."%char l | None => [[]] end.

(** The first differing segments of two local labels are both numeric. *)
Definition numeric_clash (a b : list str) : Prop :=
  exists p m o r1 r2, a = p ++ m :: r1 /\ b = p ++ o :: r2 /\ m <> o
    /\ all_digits m = true /\ all_digits o = true.
(** One has no label and the other an empty one ("1.0" and "1.0+"). *)
Definition empty_label_clash (a b : sv) : Prop :=
  (local_label a = None /\ local_label b = Some []) \/ (local_label a = Some [] /\ local_label b = None).

(** ** PEP 440 ordering, after the reference implementation "packaging" ([_cmpkey]). *)
Inductive ext (A : Type) := NegInf | Fin (a : A) | PosInf.
Arguments NegInf {A}. Arguments Fin {A} a. Arguments PosInf {A}.
Definition ext_lt {A} (lt : A -> A -> Prop) (x y : ext A) : Prop :=
  match x, y with
  | NegInf, NegInf => False | NegInf, _ => True
  | Fin a, Fin b => lt a b | Fin _, PosInf => True
  | _, _ => False
  end.
Definition str_lt (a b : str) : Prop := str_ltb a b = true.
Definition pre_lt (a b : str * N) : Prop := str_lt (fst a) (fst b) \/ (fst a = fst b /\ (snd a < snd b)%N).
Definition rel_lt (a b : sv) : Prop :=
  exists i, (rel_at a i < rel_at b i)%N /\ forall j, j < i -> rel_at a j = rel_at b j.
Definition pep_pre (v : sv) : ext (str * N) :=
  match pre_release v, post_release v, dev_release v with
  | None, None, Some _ => NegInf
  | None, _, _ => PosInf
  | Some p, _, _ => Fin p
  end.
Definition pep_post (v : sv) : ext N := match post_release v with None => NegInf | Some n => Fin n end.
Definition pep_dev (v : sv) : ext N := match dev_release v with None => PosInf | Some n => Fin n end.
(** local segments: numeric ones compare as numbers and are above alphanumeric ones *)
Inductive lseg := LStr (s : str) | LNum (n : N).
Definition to_lseg (s : str) : lseg := if all_digits s then LNum (read_N s) else LStr s.
Definition lseg_lt (a b : lseg) : Prop :=
  match a, b with
  | LStr x, LStr y => str_lt x y
  | LStr _, LNum _ => True
  | LNum x, LNum y => (x < y)%N
  | LNum _, LStr _ => False
  end.
Fixpoint lsegs_lt (a b : list lseg) : Prop :=
  match a, b with
  | [], _ :: _ => True
  | x :: a', y :: b' => lseg_lt x y \/ (x = y /\ lsegs_lt a' b')
  | _, [] => False
  end.
Definition pep_local (v : sv) : ext (list lseg) :=
  match local_label v with None => NegInf | Some l => Fin (map to_lseg (split_on "."%char l)) end.

Definition pep440_lt (a b : sv) : Prop :=
  (ep a < ep b)%N \/ (ep a = ep b /\
  (rel_lt a b \/ ((forall i, rel_at a i = rel_at b i) /\
  (ext_lt pre_lt (pep_pre a) (pep_pre b) \/ (pep_pre a = pep_pre b /\
  (ext_lt N.lt (pep_post a) (pep_post b) \/ (pep_post a = pep_post b /\
  (ext_lt N.lt (pep_dev a) (pep_dev b) \/ (pep_dev a = pep_dev b /\
   ext_lt lsegs_lt (pep_local a) (pep_local b)))))))))).

(** A development release that is not at the same time a pre- or post-release. *)
Definition dev_alone (v : sv) : Prop := dev_release v <> None -> pre_release v = None /\ post_release v = None.
(** No empty segment in the label, as PEP 440 requires. *)
Definition label_ok (v : sv) : Prop := forall l, local_label v = Some l -> ~ In [] (split_on "."%char l).
