(** Vocabulary for Nastran files (C44). *)
From Verif.Lib Require Import Base Text Lines.
From Verif.Model Require Import Core Tables Abaqus Nastran.
From Verif.Spec Require Import Core Blocks.

Section Nastran.
Context {fl : floats}.
Variable ffix : fl -> string.
(** A text that is one field and is read as the number v *)
Definition reads_as (s : string) (v : fl) : Prop := word s = true /\ char_in "," s = false /\ fparse s = Some v.
(** Numbers that have enough digits in a field: in the formats free and fixed-large at most 16 characters in scientific notation with 11 digits after
    the point; in the format fixed-small the first eight characters of the text with six digits after the point, without zeros at the end. *)
Definition float_fits (f : nas_format) (v : fl) : Prop :=
  match f with
  | Small => reads_as (substring 0 8 (rstrip_char "0" (ffix v))) v
  | _ => String.length (ffmt v) <= 16 /\ reads_as (ffmt v) v
  end.
(** Integers of at most w characters *)
Definition int_fits (w : nat) (z : Z) : Prop := (- 10 ^ (Z.of_nat w - 1) < z < 10 ^ Z.of_nat w)%Z.
Definition format_width (f : nas_format) : nat := match f with Large => 16 | _ => 8 end.
Definition number_of_cells (bs : list block) : nat := length (all_cells bs).

(** A cell block of a type of the format: the cells have the number of nodes of the type, which are points of the mesh. *)
Definition nas_block (n : nat) (b : block) : Prop :=
  known_type (btype b) /\ In (btype b) (dkeys meshio_to_nastran_type) /\
  Forall (fun c => dget (btype b) num_nodes_per_cell = Some (length c) /\ Forall (fun i => 0 <= i < Z.of_nat n)%Z c) (bdata b).
Record nas_ok (f : nas_format) (m : nas_mesh fl) : Prop := {
  no_dim : nm_dim m = 2 \/ nm_dim m = 3;
  no_points : Forall (fun p => length p = nm_dim m) (nm_points m);
  no_cells : Forall (nas_block (length (nm_points m))) (nm_cells m);
  no_floats : Forall (Forall (float_fits f)) (nm_points m) /\ float_fits f fzero;
  no_prefs : forall l, nm_prefs m = Some l -> length l = length (nm_points m) /\ Forall (int_fits (format_width f)) l;
  no_crefs : forall l, nm_crefs m = Some l -> Forall2 (fun r b => length r = length (bdata b)) l (nm_cells m) }.
(** Numbers of points and cells that fit into fields of 8 characters; cells with more than six nodes have a continuation mark with the
    hexadecimal number of the cell in six characters. *)
Definition numbers_fit (m : nas_mesh fl) : Prop :=
  (Z.of_nat (length (nm_points m)) < 10 ^ 8)%Z /\ (Z.of_nat (number_of_cells (nm_cells m)) < 10 ^ 8)%Z /\
  (Forall (fun tc => length (snd tc) <= 6) (all_cells (nm_cells m)) \/ (Z.of_nat (number_of_cells (nm_cells m)) < 16 ^ 6)%Z) /\
  (forall l, nm_crefs m = Some l -> Forall (Forall (int_fits 8)) l).

(** What is read: three coordinates per point; the cells in the order of the file in blocks of neighbouring cells of the same type *)
Definition points_3d (m : nas_mesh fl) : list (list fl) :=
  if Nat.eqb (nm_dim m) 2 then map (fun p => p ++ [fzero]) (nm_points m) else nm_points m.
Definition nonempty {A} (o : option (list A)) : option (list A) := match o with Some [] => None | _ => o end.
Definition numbers (n : nat) : list Z := map Z.of_nat (seq 1 n).
(** The whole mesh that is read; [points_id] and [cells_id] are the numbers in the file. *)
Definition read_back (m : nas_mesh fl) : nas_read fl :=
  let blocks := regroup (all_cells (nm_cells m)) in
  NasRead (points_3d m) blocks (nonempty (nm_prefs m))
    match nm_crefs m with Some refs => nonempty (Some (data_for blocks (concat refs))) | None => None end
    (numbers (length (nm_points m))) (data_for blocks (numbers (number_of_cells (nm_cells m)))).
End Nastran.
