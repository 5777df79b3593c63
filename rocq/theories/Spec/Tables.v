(** When a pair of type tables is consistent. *)
From Coq Require Import List String ZArith.
From Verif.Lib Require Import Base.
From Verif.Model Require Import Core.

(** A type that has a code comes back from the code. *)
Definition tables_agree {C} (to : string -> option C) (back : C -> option string) : Prop :=
  forall t c, to t = Some c -> back c = Some t.

(** The number of nodes that belongs to a code is the one of the type. *)
Definition nodes_agree {C} (to : string -> option C) (nodes : C -> option nat) : Prop :=
  forall t c, to t = Some c -> nodes c = dget t num_nodes_per_cell.
