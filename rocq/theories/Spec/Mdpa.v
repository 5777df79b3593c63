(** Meshes that a Kratos (MDPA) file can hold. *)
From Coq Require Import List String.
From Verif.Lib Require Import Base Text Lines.
From Verif.Model Require Import Core Mdpa.

(** The supported types with their numbers of nodes and dimensions. *)
Definition mdpa_types : list (string * (nat * nat)) :=
  [("vertex", (1, 0)); ("line", (2, 1)); ("line3", (3, 1)); ("triangle", (3, 2)); ("triangle6", (6, 2)); ("quad", (4, 2));
   ("quad8", (8, 2)); ("quad9", (9, 2)); ("tetra", (4, 3)); ("tetra10", (10, 3)); ("wedge", (6, 3)); ("hexahedron", (8, 3));
   ("hexahedron20", (20, 3)); ("hexahedron27", (27, 3))].

(** Every block has a supported type and rows of the right length. *)
Definition mdpa_block (b : block) : Prop :=
  exists w d, In (btype b, (w, d)) mdpa_types /\ Forall (fun c => length c = w) (bdata b).

(** Points with two coordinates get a third one. *)
Definition in_space {fl : floats} (p : list fl) : list fl := if Nat.eqb (length p) 2 then p ++ [fzero] else p.

(** Kratos prints numbers with a lower case exponent, and the numbers of the points can be read
    as floating point numbers. *)
Definition mdpa_floats (fl : floats) : Prop :=
  (forall x : fl, char_in "E" (ffmt x) = false) /\ (forall k, exists x : fl, fparse (str_of_nat k) = Some x).
