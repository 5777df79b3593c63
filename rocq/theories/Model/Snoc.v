(** Readers that append a cell to the last block if the types agree, and open a new block
    otherwise (used by several formats, which cite the lines in their own comments). *)
From Verif.Lib Require Import Base.
From Verif.Model Require Import Core.

Fixpoint snoc_cell (bs : list block) (t : string) (c : cell) : list block :=
  match bs with
  | [] => [Block t [c]]
  | b :: bs' =>
      match bs' with
      | [] => if String.eqb (btype b) t then [Block t (bdata b ++ [c])] else [b; Block t [c]]
      | _ => b :: snoc_cell bs' t c
      end
  end.
