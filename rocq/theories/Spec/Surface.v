(** Specification vocabulary for surface formats: triangles as coordinates. *)
From Verif.Lib Require Import Base.
From Verif.Model Require Import Core.

(** The coordinates of the corners of a cell; None if an index is out of range. *)
Definition corners {P} (pts : list P) (c : cell) : option (list P) :=
  mapO (fun i => if Z.leb 0 i then nth_error pts (Z.to_nat i) else None) c.

(** Two rows of coordinates are the same point if they compare equal. *)
Definition same_point {P} (le : P -> P -> bool) (a b : P) : Prop := le a b = true /\ le b a = true.
Definition total_order {P} (le : P -> P -> bool) : Prop :=
  (forall a b, le a b = true \/ le b a = true) /\
  (forall a b c, le a b = true -> le b c = true -> le a c = true).

(** The mesh (points, blocks) shows exactly the given triangles: one block of triangles
    whose k-th cell has the corners of the k-th triangle, over pairwise distinct points that
    all occur; without triangles there are no cells and no points. *)
Definition shows {P} (le : P -> P -> bool) (pts : list P) (bs : list block) (tris : list (list P)) : Prop :=
  ForallOrdPairs (fun a b => ~ same_point le a b) pts /\ incl pts (concat tris) /\
  match tris with
  | [] => bs = []
  | _ => exists rows, bs = [Block "triangle" rows] /\
      Forall2 (fun c t => exists ps, corners pts c = Some ps /\ Forall2 (same_point le) ps t) rows tris
  end.

(** Points of two or three coordinates; a missing third coordinate is zero. *)
Definition in_space {F} (zero : F) (p : list F) : list F :=
  match p with [x; y] => [x; y; zero] | _ => p end.

(** [tris] lists the triangles of the mesh as coordinates in space, in order. *)
Definition triangles_of {F} (zero : F) (pts : list (list F)) (bs : list block) (tris : list (list (list F))) : Prop :=
  Forall2 (fun c t => length c = 3 /\ corners (map (in_space zero) pts) c = Some t)
    (map snd (filter (fun tc => String.eqb (fst tc) "triangle")
                (flat_map (fun b => map (pair (btype b)) (bdata b)) bs))) tris.

(** Optional point data; an array without rows is not there. *)
Definition if_rows {A} (d : option (list A)) : option (list A) :=
  match d with Some [] => None | _ => d end.
(** Faces named by their number of corners. *)
Definition face_type (w : nat) : string :=
  if Nat.eqb w 3 then "triangle" else if Nat.eqb w 4 then "quad" else "polygon".
(** The faces of a mesh in order. *)
Definition faces_of (bs : list block) : list cell := flat_map bdata bs.

(** Cells by their number of corners, as in polygon files that know vertices and lines. *)
Definition corner_type (w : nat) : string :=
  match w with 1 => "vertex" | 2 => "line" | 3 => "triangle" | 4 => "quad" | _ => "polygon" end.
(** The cells a PLY file can hold. *)
Definition ply_faces (bs : list block) : list cell :=
  faces_of (filter (fun b => smem (btype b) ["vertex"; "line"; "triangle"; "quad"; "polygon"]) bs).
(** Range of an integer type of [w] bytes. *)
Definition fits (signed : bool) (w : nat) (z : Z) : Prop :=
  if signed then (- 2 ^ (8 * Z.of_nat w - 1) <= z < 2 ^ (8 * Z.of_nat w - 1))%Z
  else (0 <= z < 2 ^ (8 * Z.of_nat w))%Z.

(** A decimal number without exponent: sign, digits, point, digits; at least one digit. *)
Definition digits (s : string) : Prop := forall c, In c (list_ascii_of_string s) -> In c (list_ascii_of_string "0123456789").
Definition plain_number (s : string) : Prop :=
  exists sign whole point fraction, s = (sign ++ whole ++ point ++ fraction)%string /\
    In sign [""; "+"; "-"] /\ In point [""; "."] /\ digits whole /\ digits fraction /\
    (whole <> "" \/ fraction <> "").
