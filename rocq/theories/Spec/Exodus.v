(** What an Exodus file must hold and what must come back from it. *)
From Coq Require Import List ZArith String.
From Verif.Lib Require Import Base Text.
From Verif.Model Require Import Core Exodus.

(** Cell types that have an Exodus name and are known to meshio. *)
Definition exodus_types : list string :=
  ["vertex"; "line"; "line3"; "triangle"; "triangle6"; "quad"; "quad8"; "quad9"; "tetra"; "tetra10"; "pyramid"; "wedge";
   "hexahedron"; "hexahedron20"; "hexahedron27"].

(** No three names are a stem with X, Y, Z and no two are a stem with _R, _Z. *)
Definition no_components (names : list string) : Prop :=
  (forall s, In (s ++ "X")%string names -> In (s ++ "Y")%string names -> In (s ++ "Z")%string names -> False) /\
  (forall s, In (s ++ "_R")%string names -> In (s ++ "_Z")%string names -> False).

Definition exodus_names (names : list string) : Prop :=
  NoDup names /\ Forall (fun s => 0 < String.length s <= 33) names.

(** Meshes with two or three coordinates per point, blocks of supported types, and data and
    sets with distinct names of 1 to 33 characters. *)
Record exodus_mesh {F} (m : ex_in F) : Prop := {
  em_dim : 2 <= ei_dim m;
  em_points : Forall (fun p => length p = ei_dim m) (ei_points m);
  em_types : Forall (fun b => In (btype b) exodus_types) (ei_cells m);
  em_pd : exodus_names (dkeys (ei_pd m));
  em_sets : exodus_names (dkeys (ei_sets m)) }.

(** A file of another program: connectivity variables (any of the names of a type, in any
    case), element variables, one time step, every variable stored for every block. *)
Definition conn_vars {F} (conns : list (string * list cell)) : list (string * nc_var F) :=
  map (fun kc => (("connect" ++ str_of_nat (S (fst kc)))%string, NcConn (fst (snd kc)) (snd (snd kc)))) (enumerate conns).
Definition elem_vars {F} (vals : list (list (list F))) : list (string * nc_var F) :=
  concat (map (fun iv =>
    map (fun bv => (("vals_elem_var" ++ str_of_nat (S (fst iv)) ++ "eb" ++ str_of_nat (S (fst bv)))%string, NcElem [snd bv]))
      (enumerate (snd iv))) (enumerate vals)).
