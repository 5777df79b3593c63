(** Sections with data of the elements in MSH 2.2 files, and the meshes these files describe. *)
From Coq Require Import ZArith List String Bool.
From Verif.Lib Require Import Base Text Lines Bytes File.
From Verif.Model Require Import Core Gmsh Gmsh22 Port.
From Verif.Spec Require Import Core Blocks Gmsh Gmsh22 Msh2File Msh2Bin Msh4Data.
Import ListNotations.
Local Open Scope list_scope.

Section Data.
Context {fl : floats}.
(** The file with ElementData sections at its end. *)
Definition file22_data_lines (f : file22 fl) (ds : list (node_data fl)) : list string :=
  file22_lines f ++ flat_map (data_section "ElementData") ds.
(** One row for every element, in the order of the elements; names that do not occur twice and are not those of
    meshio's own arrays. *)
Definition element_data_ok (f : file22 fl) (ds : list (node_data fl)) : Prop :=
  NoDup (map nd_name ds) /\
  Forall (fun d => plain_name (nd_name d) /\ ~ In (nd_name d) reserved /\ length (nd_rows d) = length (f2_elements f) /\
                   exists nc, In nc [1; 3; 9] /\ Forall (fun r => length (snd r) = nc) (nd_rows d)) ds.
(** The mesh of the file with the rows of every section divided among the blocks. *)
Definition file22_data_mesh (f : file22 fl) (ds : list (node_data fl)) (names : dict (Z * Z)) : gmesh fl :=
  let m := file22_mesh f names in
  GMesh (g_points m) (g_cells m) (g_phys m) (g_geom m) (g_extra m) (g_names m) (g_periodic m) (g_pdata m)
    (map (fun d => (nd_name d, data_for (file22_blocks f) (map snd (nd_rows d)))) ds).
(** There are elements, and every block but the last has two of them. *)
Definition two_each (bs : list block) : bool :=
  match bs with [] => false | _ => forallb (fun b => Nat.eqb (blen b) 2) (removelast bs) end.
End Data.

(** The same in binary files *)
Section Binary.
Context {fl : floats} (c8 : codec fl).
Definition file22_data_bytes (f : file22 fl) (groups : list (list element)) (ds : list (bdata fl)) : bytes :=
  file22_bytes c8 f groups ++ flat_map (bdata_section c8 "ElementData") ds.
Definition element_bdata_ok (f : file22 fl) (ds : list (bdata fl)) : Prop :=
  NoDup (map bd_name ds) /\ Forall (fun d => bdata_ok d /\ length (bd_rows d) = length (f2_elements f) /\ Forall (fun r => int32 (fst r)) (bd_rows d)) ds.
Definition all_numbered (ds : list (bdata fl)) : {Forall numbered ds} + {~ Forall numbered ds} :=
  Forall_dec numbered (fun d => list_eq_dec Z.eq_dec _ _) ds.
Definition file22_bdata_mesh (f : file22 fl) (ds : list (bdata fl)) (names : dict (Z * Z)) : gmesh fl :=
  let m := file22_mesh f names in
  GMesh (g_points m) (g_cells m) (g_phys m) (g_geom m) (g_extra m) (g_names m) (g_periodic m) (g_pdata m)
    (map (fun d => (bd_name d, data_for (file22_blocks f) (map snd (bd_rows d)))) ds).
End Binary.
