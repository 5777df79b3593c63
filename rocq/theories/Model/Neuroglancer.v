(** Model of src/meshio/neuroglancer/_neuroglancer.py. *)
From Verif.Lib Require Import Base Bytes File.
From Verif.Model Require Import Core.
From Coq Require Import NArith.

Section Neuroglancer.
Context {F : Type}.
(** 32-bit floats, little endian *)
Variable f4 : codec F.

(** _neuroglancer.py:24-41 [write_buffer].  The first four bytes hold the number of points;
    [struct.pack] fails for more than 2^32 - 1 (a [struct.error], here ValueError).  Indices are
    converted to unsigned 32-bit integers, which wraps around. *)
Definition write_neuroglancer (pts : list (list F)) (bs : list block) : result bytes :=
  let n := N.of_nat (length pts) in
  if (capacity 4 <=? n)%N then Err ValueError else
  Ok (uint_bytes false 4 n ++ flat_map (flat_map (enc f4)) pts ++
      flat_map (fun b => flat_map (flat_map (sint_bytes false 4)) (bdata b))
        (filter (fun b => String.eqb (btype b) "triangle") bs)).

(** _neuroglancer.py:49-82 [read_buffer].  [struct.unpack] on fewer than four bytes fails. *)
Definition read_neuroglancer (b : bytes) : result (list (list F) * list block) :=
  if Nat.ltb (length b) 4 then Err ValueError else
  let n := uint_value false (firstn 4 b) in
  let rest := skipn 4 b in
  if (N.of_nat (length rest) <? 12 * n)%N then Err ReadError else
  let k := N.to_nat (12 * n) in
  let tail := skipn k rest in
  if negb (Nat.eqb (length tail mod 12) 0) then Err ReadError else
  let tri := chunks 3 (map (fun w => Z.of_N (uint_value false w)) (chunks 4 tail)) in
  if existsb (existsb (fun i => Z.of_N n <? i)%Z) tri then Err ReadError else
  Ok (chunks 3 (map (dec f4) (chunks 4 (firstn k rest))), [Block "triangle" tri]).
End Neuroglancer.
