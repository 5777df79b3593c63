(** Specification vocabulary for SVG pictures (C80). *)
From Coq Require Import QArith String.
From Verif.Lib Require Import Base.
From Verif.Model Require Import Core.
Import ListNotations.
Open Scope nat_scope.

(** The cells that are drawn, with their numbers of corners *)
Definition drawn_types : list (string * nat) := [("line", 2); ("triangle", 3); ("quad", 4)]%string.
Definition drawn (t : string) : bool := existsb (String.eqb t) (map fst drawn_types).
Definition drawn_cells (bs : list block) : list (string * cell) :=
  flat_map (fun b => if drawn (btype b) then map (fun c => (btype b, c)) (bdata b) else []) bs.
(** Lines, triangles and quadrilaterals have the right number of nodes, all of them points of the mesh. *)
Definition drawable (n : nat) (bs : list block) : Prop :=
  Forall (fun tc => In (fst tc, length (snd tc)) drawn_types /\ Forall (fun i => 0 <= i < Z.of_nat n)%Z (snd tc)) (drawn_cells bs).

Definition nodes (points : list (list Q)) (c : cell) : list (list Q) := map (fun i => nth (Z.to_nat i) points []) c.

(** The path through the given positions, as text: closed, except for a line *)
Definition stop (fmt : Q -> string) (p : Q * Q) : string := (" " ++ fmt (fst p) ++ " " ++ fmt (snd p))%string.
Definition path (fmt : Q -> string) (t : string) (ps : list (Q * Q)) : string :=
  ("M" ++ String.concat "L" (map (stop fmt) ps) ++ (if String.eqb t "line" then "" else "Z"))%string.

(** Where a point appears: scaled by [s], and upside down, since the second axis of a picture points downwards; [sum] is the
    sum of the smallest and the largest second coordinate. *)
Definition x_of (p : list Q) : Q := nth 0 p 0%Q.
Definition y_of (p : list Q) : Q := nth 1 p 0%Q.
Definition position (s sum : Q) (p : list Q) : Q * Q := (s * x_of p, s * (sum - y_of p))%Q.
(** The rectangle is the smallest one that contains all positions. *)
Definition tight (x0 y0 w h : Q) (ps : list (Q * Q)) : Prop :=
  (forall p, In p ps -> x0 <= fst p <= x0 + w /\ y0 <= snd p <= y0 + h)%Q /\
  (exists p, In p ps /\ fst p == x0)%Q /\ (exists p, In p ps /\ fst p == x0 + w)%Q /\
  (exists p, In p ps /\ snd p == y0)%Q /\ (exists p, In p ps /\ snd p == y0 + h)%Q.
(** The text of the style element *)
Definition style_text (fill stroke stroke_width : string) : string :=
  ("path {fill: " ++ fill ++ "; stroke: " ++ stroke ++ "; stroke-width: " ++ stroke_width ++ "; stroke-linejoin:bevel}")%string.
