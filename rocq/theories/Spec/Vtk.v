(** Specification vocabulary for the VTK family (C15-C18). *)
From Verif.Lib Require Import Base.
From Verif.Model Require Import Core.
From Verif.Spec Require Import Core Blocks.

(** VTK cell types with a fixed number of nodes that a meshio mesh can contain. *)
Definition vtk_fixed : list (string * nat) := [
  ("vertex", 1); ("line", 2); ("triangle", 3); ("quad", 4); ("tetra", 4); ("hexahedron", 8);
  ("wedge", 6); ("pyramid", 5); ("line3", 3); ("triangle6", 6); ("quad8", 8); ("tetra10", 10);
  ("hexahedron20", 20); ("quad9", 9); ("hexahedron27", 27); ("wedge18", 18); ("line4", 4) ].

(** VTK cell types with a varying number of nodes. *)
Definition vtk_varying : list string := [
  "polygon"; "VTK_LAGRANGE_CURVE"; "VTK_LAGRANGE_TRIANGLE"; "VTK_LAGRANGE_QUADRILATERAL";
  "VTK_LAGRANGE_TETRAHEDRON"; "VTK_LAGRANGE_HEXAHEDRON"; "VTK_LAGRANGE_WEDGE";
  "VTK_LAGRANGE_PYRAMID" ].

Definition fixed_block (b : block) : Prop :=
  exists n, In (btype b, n) vtk_fixed /\ rows_have n b.
Definition varying_block (b : block) : Prop := In (btype b) vtk_varying /\ rectangular b.
Definition polygon_block (b : block) : Prop := btype b = "polygon" /\ rectangular b.
Definition nonempty_block (b : block) : Prop := bdata b <> [].

(** The point of a structured grid with [nx] x [ny] x ... points (x fastest). *)
Definition grid_point (nx ny i j k : nat) : Z := Z.of_nat (i + nx * (j + ny * k)).

(** Structured grids.  The axes along which a grid has boxes are those with more than one
    point; a grid point is given by its coordinates in the grid. *)
Definition gridpos : Type := (nat * nat * nat)%type.
Definition gadd (p q : gridpos) : gridpos :=
  let '(a, b, c) := p in let '(x, y, z) := q in (a + x, b + y, c + z).
Definition axes (nx ny nz : nat) : list gridpos :=
  (if Nat.ltb 1 nx then [(1, 0, 0)] else []) ++ (if Nat.ltb 1 ny then [(0, 1, 0)] else []) ++
  (if Nat.ltb 1 nz then [(0, 0, 1)] else []).
(** The corners of the box at [p]: a line, a quadrilateral (going around), or a hexahedron
    (bottom face, then top face). *)
Definition quad_corners (p a b : gridpos) : list gridpos := [p; gadd p a; gadd (gadd p a) b; gadd p b].
Definition box_corners (ax : list gridpos) (p : gridpos) : list gridpos :=
  match ax with
  | [a] => [p; gadd p a]
  | [a; b] => quad_corners p a b
  | [a; b; c] => quad_corners p a b ++ quad_corners (gadd p c) a b
  | _ => []
  end.
(** VTK's numbers for line, quadrilateral, hexahedron. *)
Definition box_code (ax : list gridpos) : Z :=
  match ax with [_] => 3%Z | [_; _] => 9%Z | _ => 12%Z end.
Definition point_index (nx ny : nat) (p : gridpos) : Z :=
  let '(i, j, k) := p in grid_point nx ny i j k.
Definition in_grid (nx ny nz : nat) (p : gridpos) : Prop :=
  let '(i, j, k) := p in i < nx /\ j < ny /\ k < nz.
(** Number of boxes along an axis with [n] points. *)
Definition boxes (n : nat) : nat := Nat.max 1 (n - 1).
