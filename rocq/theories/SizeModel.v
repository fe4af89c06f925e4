(** The sizes in the report about pkm: pkm/src/pkm/utils/files.py 282-302, and reading a file in pieces:
    pkm/src/pkm/utils/io_streams.py 22-40, pkm/src/pkm/utils/hashes.py 109-121.

    Simplifications: a size is below 2^53 bytes, so that dividing it by a power of two is exact; every entry of a directory can be
    asked for its size; a stream is the list of what its reads deliver, which raise nothing. *)
From Coq Require Import String Ascii List Bool NArith Arith.
From Verif Require Import Base.
Import ListNotations.
Open Scope string_scope.
Open Scope nat_scope.
Open Scope list_scope.
Open Scope bool_scope.

(** ** files.py 292-302 [numbytes_to_human] *)
(** the format ".2f" of n / sz: hundredths, rounded to the nearest and to the even one of two *)
Definition hundredths (n sz : N) : N :=
  let q := (100 * n / sz)%N in
  let r := (100 * n mod sz)%N in
  match (2 * r ?= sz)%N with
  | Lt => q
  | Gt => (q + 1)%N
  | Eq => if N.even q then q else (q + 1)%N
  end.
Definition digit (n : N) : ascii := ascii_of_N (48 + n).
Definition fixed2 (q : N) : str := show_N (q / 100) ++ lit "." ++ [digit (q / 10 mod 10); digit (q mod 10)].
(** 299-301: the loop over the letters; the size of a unit is a power of 1024 *)
Definition units : list (N * ascii) := [(2 ^ 40, "T"%char); (2 ^ 30, "G"%char); (2 ^ 20, "M"%char); (2 ^ 10, "K"%char)]%N.
Fixpoint in_units (l : list (N * ascii)) (n : N) : str :=
  match l with
  | [] => show_N n ++ lit "B"
  | (sz, u) :: r => if (sz <=? n)%N then fixed2 (hundredths n sz) ++ [u] else in_units r n
  end.
Definition numbytes_to_human (n : N) : str := in_units units n.

(** ** files.py 282-289 [dir_size]: a directory has a size of its own, and [rglob] yields directories too *)
Inductive entry := SFile (size : N) | SDir (own : N) (children : list entry).
Fixpoint entry_size (e : entry) : N :=
  match e with
  | SFile n => n
  | SDir own l => (own + fold_right (fun x a => entry_size x + a) 0 l)%N
  end.
Definition dir_size (children : list entry) : N := fold_right (fun x a => entry_size x + a)%N 0%N children.

(** ** io_streams.py 22-40 [chunks] of a stream with [readinto]: one buffer, and what is yielded are references to it, to all of it
    or to a part of it (memoryview) *)
Inductive ref := Whole | Front (n : nat).
Definition deref (buffer : str) (r : ref) : str := match r with Whole => buffer | Front n => firstn n buffer end.
(** [readinto]: the piece is written at the front of the buffer *)
Definition readinto (buffer piece : str) : str := piece ++ skipn (length piece) buffer.
(** what is yielded, with the buffer at that moment, and the buffer at the end; an empty read ends the loop *)
Fixpoint reuse_chunks (size : nat) (buffer : str) (reads : list str) : list (ref * str) * str :=
  match reads with
  | [] => ([], buffer)
  | [] :: _ => ([], buffer)
  | piece :: rest =>
    let b := readinto buffer piece in
    let (l, last) := reuse_chunks size b rest in
    (((if length piece =? size then Whole else Front (length piece)), b) :: l, last)
  end.
(** 38-40: each read gives a new object *)
Fixpoint new_chunks (reads : list str) : list str :=
  match reads with
  | [] => []
  | [] :: _ => []
  | piece :: rest => piece :: new_chunks rest
  end.
Definition zeros (size : nat) : str := repeat zero size.
(** the pieces for somebody who is done with each of them before asking for the next *)
Definition used_at_once (size : nat) (reads : list str) : list str :=
  map (fun x => deref (snd x) (fst x)) (fst (reuse_chunks size (zeros size) reads)).
(** and for somebody who keeps them to the end, like [list] *)
Definition kept (size : nat) (reads : list str) : list str :=
  let (l, last) := reuse_chunks size (zeros size) reads in map (fun x => deref last (fst x)) l.
(** hashes.py 119-121 [stream]: [step] is what the digester does with one byte *)
Definition digest {H} (step : H -> ascii -> H) (h : H) (size : nat) (reads : list str) : H :=
  fold_left (fun h chunk => fold_left step chunk h) (used_at_once size reads) h.
