(** Meshes for DOLFIN XML files (C54). *)
From Coq Require Import List String ZArith.
From Verif.Lib Require Import Base Text Lines.
From Verif.Model Require Import Core Dolfin.
From Verif.Spec Require Import Core.

(** The type that is written: tetrahedra if there are any, otherwise triangles *)
Definition written_type (bs : list block) (t : string) (w : nat) : Prop :=
  (t = "tetra" /\ w = 4 /\ exists b, In b bs /\ btype b = "tetra") \/
  (t = "triangle" /\ w = 3 /\ (exists b, In b bs /\ btype b = "triangle") /\ (forall b, In b bs -> btype b <> "tetra")).
(** Points and cells are rectangular arrays; the cells of the written type have [w] nodes. *)
Definition dolfin_good {F} (m : dolfin_mesh F) (t : string) (w : nat) : Prop :=
  (do_dim m = 2 \/ do_dim m = 3) /\ Forall (fun p => length p = do_dim m) (do_points m) /\ written_type (do_cells m) t w /\
  Forall (fun c => length c = w) (cells_of t (do_cells m)).
(** Numbers that can be written: no negative unsigned ones *)
Definition data_ok {F} (d : dolfin_data F) : Prop :=
  match d with DInt _ | DFloat _ => True | DUint l => Forall (fun z => (0 <= z)%Z) l | DOther _ => False end.
Definition data_length {F} (d : dolfin_data F) : nat := match d with DInt l | DUint l => length l | DFloat l => length l | DOther n => n end.
(** Names of data: not empty, without a full stop, all different; every name has one array per block *)
Definition dolfin_names {F} (m : dolfin_mesh F) : Prop :=
  NoDup (map fst (do_data m)) /\ Forall (fun nd => fst nd <> "" /\ char_in "." (fst nd) = false /\ length (snd nd) = length (do_cells m) /\ Forall data_ok (snd nd)) (do_data m).
(** The array as it is read: every entry is set. *)
Definition all_set {F} (d : dolfin_data F) : filled F :=
  match d with DInt l => FInt (map Some l) | DUint l => FUint (map Some l) | DFloat l => FFloat (map Some l) | DOther _ => FInt [] end.
(** No file of the directory has a name that starts with the stem and an underscore. *)
Definition no_data_files (stem : string) (files : list string) : Prop := Forall (fun f => String.prefix (stem ++ "_") f = false) files.
