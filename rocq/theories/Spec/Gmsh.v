(** Specification vocabulary for Gmsh files (C22-C26). *)
From Verif.Lib Require Import Base Text Lines.
From Verif.Model Require Import Core Gmsh.
From Verif.Spec Require Import Core Blocks.

(** Where the nodes of a second-order cell sit: a corner, or the middle of the corners listed
    (an edge, a face or the whole cell).  Gmsh's convention, from the node ordering section of
    the Gmsh reference manual; corner sets in ascending order. *)
Definition gmsh_support : dict (list (list nat)) := [
  ("tetra10", [[0]; [1]; [2]; [3]; [0; 1]; [1; 2]; [0; 2]; [0; 3]; [2; 3]; [1; 3]]);
  ("hexahedron20", [[0]; [1]; [2]; [3]; [4]; [5]; [6]; [7];
     [0; 1]; [0; 3]; [0; 4]; [1; 2]; [1; 5]; [2; 3]; [2; 6]; [3; 7]; [4; 5]; [4; 7]; [5; 6]; [6; 7]]);
  ("hexahedron27", [[0]; [1]; [2]; [3]; [4]; [5]; [6]; [7];
     [0; 1]; [0; 3]; [0; 4]; [1; 2]; [1; 5]; [2; 3]; [2; 6]; [3; 7]; [4; 5]; [4; 7]; [5; 6]; [6; 7];
     [0; 1; 2; 3]; [0; 1; 4; 5]; [0; 3; 4; 7]; [1; 2; 5; 6]; [2; 3; 6; 7]; [4; 5; 6; 7];
     [0; 1; 2; 3; 4; 5; 6; 7]]);
  ("wedge15", [[0]; [1]; [2]; [3]; [4]; [5];
     [0; 1]; [0; 2]; [0; 3]; [1; 2]; [1; 4]; [2; 5]; [3; 4]; [3; 5]; [4; 5]]);
  ("pyramid13", [[0]; [1]; [2]; [3]; [4];
     [0; 1]; [0; 3]; [0; 4]; [1; 2]; [1; 4]; [2; 3]; [2; 4]; [3; 4]]) ].

(** The same for meshio, whose convention is VTK's (vtkQuadraticTetra, ...). *)
Definition meshio_support : dict (list (list nat)) := [
  ("tetra10", [[0]; [1]; [2]; [3]; [0; 1]; [1; 2]; [0; 2]; [0; 3]; [1; 3]; [2; 3]]);
  ("hexahedron20", [[0]; [1]; [2]; [3]; [4]; [5]; [6]; [7];
     [0; 1]; [1; 2]; [2; 3]; [0; 3]; [4; 5]; [5; 6]; [6; 7]; [4; 7]; [0; 4]; [1; 5]; [2; 6]; [3; 7]]);
  ("hexahedron27", [[0]; [1]; [2]; [3]; [4]; [5]; [6]; [7];
     [0; 1]; [1; 2]; [2; 3]; [0; 3]; [4; 5]; [5; 6]; [6; 7]; [4; 7]; [0; 4]; [1; 5]; [2; 6]; [3; 7];
     [0; 3; 4; 7]; [1; 2; 5; 6]; [0; 1; 4; 5]; [2; 3; 6; 7]; [0; 1; 2; 3]; [4; 5; 6; 7];
     [0; 1; 2; 3; 4; 5; 6; 7]]);
  ("wedge15", [[0]; [1]; [2]; [3]; [4]; [5];
     [0; 1]; [1; 2]; [0; 2]; [3; 4]; [4; 5]; [3; 5]; [0; 3]; [1; 4]; [2; 5]]);
  ("pyramid13", [[0]; [1]; [2]; [3]; [4];
     [0; 1]; [1; 2]; [2; 3]; [0; 3]; [0; 4]; [1; 4]; [2; 4]; [3; 4]]) ].

(** A block that Gmsh formats can store: a known type with rows of the right width. *)
Definition gmsh_block (b : block) : Prop :=
  exists code n, dget (btype b) meshio_to_gmsh_type = Some code /\
    dget (btype b) num_nodes_per_cell = Some n /\ rows_have n b.

(** All node indices refer to one of [np] points. *)
Definition indices_below (np : nat) (b : block) : Prop :=
  Forall (Forall (fun i => 0 <= i < Z.of_nat np)%Z) (bdata b).

(** Names that survive quoting: no double quotes, backslashes or line breaks. *)
Definition plain_name (s : string) : Prop :=
  char_in dq s = false /\ char_in backslash s = false /\ char_in (ascii_of_nat 10) s = false.

(** An element of an MSH 2.2 file: its type, its number, its tags and its node tags in
    Gmsh's order. *)
Record element : Type := Element { e_type : string; e_id : Z; e_tags : list Z; e_nodes : list Z }.

(** The numbers on the line of an element: number, type code, number of tags, tags, nodes. *)
Definition element_numbers (e : element) : list Z :=
  e_id e :: match dget (e_type e) meshio_to_gmsh_type with Some c => c | None => 0%Z end ::
  Z.of_nat (length (e_tags e)) :: e_tags e ++ e_nodes e.
Definition element_line (e : element) : string := row_line (map str_of_Z (element_numbers e)).

(** The element has a type Gmsh knows, and its nodes are among the node tags [tags]. *)
Definition element_ok (tags : list Z) (e : element) : Prop :=
  (exists code, dget (e_type e) meshio_to_gmsh_type = Some code) /\
  dget (e_type e) num_nodes_per_cell = Some (length (e_nodes e)) /\
  Forall (fun n => In n tags) (e_nodes e).

(** The position of the first entry equal to [t]. *)
Fixpoint position (t : Z) (tags : list Z) : nat :=
  match tags with
  | [] => 0
  | x :: xs => if Z.eqb x t then 0 else S (position t xs)
  end.

(** The cell of a mesh that an element stands for: nodes in meshio's order, as positions of
    the points that carry the tags. *)
Definition element_cell (tags : list Z) (e : element) : string * cell :=
  (e_type e, map (fun n => Z.of_nat (position n tags))
                 match permute match dget (e_type e) meshio_ordering with
                               | Some p => p
                               | None => seq 0 (length (e_nodes e))
                               end (e_nodes e) with
                 | Some ns => ns
                 | None => []
                 end).
