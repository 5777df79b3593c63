(** Model of src/meshio/_cli/_info.py (the check made by the command line tool [meshio info]). *)
From Verif.Lib Require Import Base.
From Verif.Model Require Import Core.

(** Warnings printed by [info]. *)
Inductive info_warning : Type :=
| Inconsistent   (* Inconsistent mesh. Cells refer to nonexistent points. *)
| UnusedPoints.  (* Some points are not part of any cell. *)

(** numpy indexing of an axis of length [n] by an integer: negative indices count from
    the end, others out of range raise an IndexError. *)
Definition np_index (n : nat) (i : Z) : result nat :=
  if (0 <=? i)%Z && (i <? Z.of_nat n)%Z then Ok (Z.to_nat i)
  else if (- Z.of_nat n <=? i)%Z && (i <? 0)%Z then Ok (Z.to_nat (i + Z.of_nat n))
  else Err IndexError.

(** src/meshio/_cli/_info.py:36: [point_is_used[cells.data] = True]; the index array is
    checked before anything is assigned. *)
Definition mark_used (used : list bool) (rows : list cell) : result (list bool) :=
  do ix <- mapM (np_index (length used)) (concat rows);
  Ok (fold_left (fun u i => upd i true u) ix used).

(** src/meshio/_cli/_info.py:25-30: the loop that looks for an inconsistent block. *)
Definition info_consistent (n : nat) (bs : list block) : bool :=
  negb (existsb (fun b => existsb (fun i => (Z.of_nat n <? i)%Z) (concat (bdata b))) bs).

Fixpoint mark_blocks (used : list bool) (bs : list block) : result (list bool) :=
  match bs with
  | [] => Ok used
  | b :: bs' => do u <- mark_used used (bdata b); mark_blocks u bs'
  end.

(** src/meshio/_cli/_info.py:19-40 [info] after the mesh with [n] points has been read and
    printed; the result lists the warnings given. *)
Definition info_check (n : nat) (bs : list block) : result (list info_warning) :=
  if info_consistent n bs
  then do used <- mark_blocks (repeat false n) bs;
       Ok (if existsb negb used then [UnusedPoints] else [])
  else Ok [Inconsistent].
