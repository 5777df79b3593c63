(** Specification vocabulary for VTU polyhedra (C21). *)
From Verif.Lib Require Import Base Text.
From Verif.Model Require Import Core Vtu.
From Verif.Spec Require Import Core.

(** Number of distinct nodes of a polyhedron. *)
Definition node_count (c : polycell) : nat := length (nodup Z.eq_dec (concat c)).

(** The numbers in a list, each once, in order of first occurrence. *)
Fixpoint first_numbers (l : list nat) : list nat :=
  match l with
  | [] => []
  | x :: xs => x :: filter (fun y => negb (Nat.eqb y x)) (first_numbers xs)
  end.

Definition poly_name (n : nat) : string := ("polyhedron" ++ str_of_nat n)%string.

(** The cells grouped by number of nodes, the groups in order of first occurrence. *)
Definition by_node_count (cells : list polycell) : list (string * list polycell) :=
  map (fun n => (poly_name n, filter (fun c => Nat.eqb (node_count c) n) cells))
      (first_numbers (map node_count cells)).

(** The values of the cells with [n] nodes, given one value per cell. *)
Definition values_with {V} (n : nat) (cells : list polycell) (d : list V) : list V :=
  map snd (filter (fun cv => Nat.eqb (node_count (fst cv)) n) (combine cells d)).

(** What "cell data stays attached to its cell" demands of the data that is read. *)
Definition aligned_data {V} (cells : list polycell) (d : list V) : list (list V) :=
  map (fun n => values_with n cells d) (first_numbers (map node_count cells)).
