(** Specification vocabulary for readers: the cells of a file in file order, cut into
    blocks of neighbouring cells of the same type and number of nodes. *)
From Verif.Lib Require Import Base.
From Verif.Model Require Import Core.
From Verif.Spec Require Import Core.

Fixpoint regroup (l : list (string * cell)) : list block :=
  match l with
  | [] => []
  | (t, c) :: l' =>
      match regroup l' with
      | Block t' (c' :: cs) :: bs =>
          if String.eqb t t' && Nat.eqb (length c) (length c')
          then Block t (c :: c' :: cs) :: bs
          else Block t [c] :: Block t' (c' :: cs) :: bs
      | bs => Block t [c] :: bs
      end
  end.

(** Cell data of the blocks [out], given one value per cell in file order. *)
Definition data_for {V} (out : list block) (per_cell : list V) : list (list V) :=
  split_lens (map blen out) per_cell.

(** All rows have [n] nodes. *)
Definition rows_have (n : nat) (b : block) : Prop := Forall (fun c => length c = n) (bdata b).
(** A two-dimensional array: all rows have the same length. *)
Definition rectangular (b : block) : Prop := exists n, rows_have n b.
