(** Zones of a FLAC3D grid: shapes, orientation, and what a cell set of a grid means. *)
From Coq Require Import Ring_theory.
From Verif.Lib Require Import Base Text Lines.
From Verif.Model Require Import Core Flac3d.

(** For every type of cell that can be a zone: the linear type, its number of corners, the four corners at which FLAC3D
    looks to find the orientation (a corner and its three neighbours, first edges first), and the mirror image, that is,
    the corners of the cell listed with the opposite orientation. *)
Record shape : Type := Shape { sh_type : string; sh_corners : nat; sh_axes : list nat; sh_mirror : list nat }.
Definition tetra_shape : shape := Shape "tetra" 4 [0; 1; 2; 3] [0; 2; 1; 3].
Definition pyramid_shape : shape := Shape "pyramid" 5 [0; 1; 3; 4] [0; 3; 2; 1; 4].
Definition wedge_shape : shape := Shape "wedge" 6 [0; 1; 3; 2] [0; 2; 1; 3; 5; 4].
Definition hexahedron_shape : shape := Shape "hexahedron" 8 [0; 1; 3; 4] [0; 3; 2; 1; 4; 7; 6; 5].
Definition zone_shapes : list (string * shape) := [
  ("tetra", tetra_shape); ("tetra10", tetra_shape); ("pyramid", pyramid_shape); ("pyramid13", pyramid_shape);
  ("wedge", wedge_shape); ("wedge12", wedge_shape); ("wedge15", wedge_shape); ("wedge18", wedge_shape);
  ("hexahedron", hexahedron_shape); ("hexahedron20", hexahedron_shape); ("hexahedron24", hexahedron_shape);
  ("hexahedron27", hexahedron_shape) ].

(** Selected nodes of a cell. *)
Definition select (idx : list nat) (row : cell) : cell := map (fun i => nth i row 0%Z) idx.

(** The faces of the linear types, seen from outside. *)
Definition shape_faces (s : shape) : list (list nat) :=
  match sh_corners s with
  | 4 => [[0; 1; 3]; [1; 2; 3]; [2; 0; 3]; [0; 2; 1]]
  | 5 => [[0; 3; 2; 1]; [0; 1; 4]; [1; 2; 4]; [2; 3; 4]; [3; 0; 4]]
  | 6 => [[0; 1; 2]; [3; 5; 4]; [0; 3; 4; 1]; [1; 4; 5; 2]; [2; 5; 3; 0]]
  | _ => [[0; 4; 7; 3]; [1; 2; 6; 5]; [0; 1; 5; 4]; [3; 7; 6; 2]; [0; 3; 2; 1]; [4; 5; 6; 7]]
  end.
(** [l'] is [l] turned around by some steps. *)
Definition rotation {A} (l l' : list A) : Prop := exists l1 l2, l = l1 ++ l2 /\ l' = l2 ++ l1.

(** ** Geometry *)
Section Geometry.
Context {F : Type} (g : geom F).

Definition vec : Type := (F * F * F)%type.
Definition point3 (pts : list (list F)) (i : Z) : option vec :=
  match nth_error pts (Z.to_nat i) with Some [x; y; z] => Some (x, y, z) | _ => None end.
Definition minus (p q : vec) : vec :=
  let '(x, y, z) := p in let '(x', y', z') := q in (gsub g x x', gsub g y y', gsub g z z').
Definition cross (b c : vec) : vec :=
  let '(b0, b1, b2) := b in let '(c0, c1, c2) := c in
  (gsub g (gmul g b1 c2) (gmul g b2 c1), gsub g (gmul g b2 c0) (gmul g b0 c2), gsub g (gmul g b0 c1) (gmul g b1 c0)).
Definition dot (a b : vec) : F :=
  let '(a0, a1, a2) := a in let '(b0, b1, b2) := b in gadd g (gadd g (gmul g a0 b0) (gmul g a1 b1)) (gmul g a2 b2).
(** The scalar triple product of the edges from the first to the other three of the first four nodes. *)
Definition triple (pts : list (list F)) (row : cell) : option F :=
  match row with
  | i0 :: i1 :: i2 :: i3 :: _ =>
      match point3 pts i0, point3 pts i1, point3 pts i2, point3 pts i3 with
      | Some p0, Some p1, Some p2, Some p3 => Some (dot (minus p1 p0) (cross (minus p2 p0) (minus p3 p0)))
      | _, _, _, _ => None
      end
  | _ => None
  end.

(** Exact arithmetic: a commutative ring with a sign (integers, rational numbers, real numbers). *)
Definition exact_arithmetic (zero one : F) (opp : F -> F) : Prop :=
  ring_theory zero one (gadd g) (gmul g) (gsub g) opp eq /\
  (forall x, gpos g x = true \/ x = zero \/ gpos g (opp x) = true).

(** The cell read back: its corners if it is right-handed, otherwise the mirror image. *)
Definition right_handed (pts : list (list F)) (s : shape) (row : cell) : bool :=
  match triple pts (select (sh_axes s) row) with Some v => gpos g v | None => false end.
Definition zone_seen (pts : list (list F)) (tc : string * cell) : string * cell :=
  match dget (fst tc) zone_shapes with
  | Some s => (sh_type s, select (if right_handed pts s (snd tc) then seq 0 (sh_corners s) else sh_mirror s) (snd tc))
  | None => tc
  end.
End Geometry.

(** ** Meshes *)
(** The first node of an edge is a point of the mesh; a block of zones. *)
Definition zone_block (n : nat) (b : block) : Prop :=
  exists s, dget (btype b) zone_shapes = Some s /\
    Forall (fun c => sh_corners s <= length c /\ Forall (fun i => (0 <= i < Z.of_nat n)%Z) c) (bdata b).

(** The running number of the first cell of block [k]. *)
Definition first_cell (bs : list block) (k : nat) : nat := sum_nat (map blen (firstn k bs)).
(** The running numbers of the cells of a set that has an array of indices for every block. *)
Definition running (bs : list block) (s : list (list Z)) : list Z :=
  concat (map (fun kl => map (fun i => (Z.of_nat (first_cell bs (fst kl)) + i)%Z) (snd kl)) (enumerate s)).
(** The numbers among [l] that belong to block [k]. *)
Definition in_block (bs : list block) (k : nat) (l : list Z) : list Z :=
  filter (fun j => (Z.of_nat (first_cell bs k) <=? j)%Z && (j <? Z.of_nat (first_cell bs (S k)))%Z) l.

(** One array per block, with valid indices, and not empty. *)
Definition zone_set (bs : list block) (s : list (list Z)) : Prop :=
  Forall2 (fun b l => Forall (fun i => (0 <= i < Z.of_nat (blen b))%Z) l) bs s /\ concat s <> [].
(** Names that can be quoted. *)
Definition quotable (l : string) : Prop := char_in """" l = false /\ char_in "'" l = false.

(** The cell sets that are read back: for every block of the mesh read, the running numbers of the members that are in
    this block.  The names tell that the sets consist of zones, and the slot. *)
Definition sets_seen (nm : string -> string) (bs out : list block) (sets : dict (list (list Z))) : dict (list (list Z)) :=
  map (fun kv => (nm (fst kv), map (fun k => in_block out k (running bs (snd kv))) (seq 0 (length out)))) sets.
Definition zone_name (l : string) : string := ("zone:" ++ l ++ ":1")%string.
Definition default_name (l : string) : string := ("zone:" ++ l ++ ":Default")%string.
