(** Meshes that a PERMAS file can hold, and the order in which the writer puts the nodes. *)
From Coq Require Import List String.
From Verif.Lib Require Import Base Text Lines.
From Verif.Model Require Import Core Permas.

(** The supported types, with their numbers of nodes.  (A block of type wedge15, for which the writer has an order, too,
    cannot be made: the type has no dimension.) *)
Definition permas_types : list (string * nat) :=
  [("vertex", 1); ("line", 2); ("line3", 3); ("triangle", 3); ("triangle6", 6); ("quad", 4); ("quad8", 8); ("quad9", 9);
   ("tetra", 4); ("tetra10", 10); ("pyramid", 5); ("wedge", 6); ("hexahedron", 8); ("hexahedron20", 20);
   ("hexahedron27", 27)].

(** A block of a supported type, with rows of the right length that refer to the [n] points. *)
Definition permas_block (n : nat) (b : block) : Prop :=
  exists w, In (btype b, w) permas_types /\
    Forall (fun c => length c = w /\ Forall (fun i => (0 <= i < Z.of_nat n)%Z) c) (bdata b).

(** The order in the file: for three types it differs from the order in the mesh (the corners and the middles of the
    edges of each row of nodes in turn). *)
Definition file_order (t : string) (c : cell) : cell :=
  let at_ := fun l => map (fun i => nth i c 0%Z) l in
  if String.eqb t "triangle6" then at_ [0; 3; 1; 4; 2; 5]
  else if String.eqb t "tetra10" then at_ [0; 4; 1; 5; 2; 6; 7; 8; 9; 3]
  else if String.eqb t "quad9" then at_ [0; 4; 1; 7; 8; 5; 3; 6; 2]
  else c.
Definition in_file (b : block) : block := Block (btype b) (map (file_order (btype b)) (bdata b)).
Definition reordered : list string := ["triangle6"; "tetra10"; "quad9"].
