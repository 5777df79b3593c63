(** Sections with data of nodes and elements in MSH 4 files as Gmsh writes them. *)
From Coq Require Import ZArith List String Ascii Bool.
From Verif.Lib Require Import Base Text Lines Bytes File.
From Verif.Model Require Import Core Gmsh Gmsh22 Port Msh41.
From Verif.Spec Require Import Core Blocks Gmsh Gmsh22 Msh2File.
Import ListNotations.
Local Open Scope string_scope.
Local Open Scope list_scope.

Section Data.
Context {fl : floats}.
(** A section of NodeData or ElementData: one name, the time, three integers (step, components, rows), and rows with
    the tag of the node or element. *)
Definition data_section (kind : string) (d : node_data fl) : list string :=
  [("$" ++ kind)%string; "1"; quoted (nd_name d); "1"; ffmt (nd_time d); "3"; str_of_Z (nd_step d);
   str_of_nat (width (nd_rows d)); str_of_nat (length (nd_rows d))]
  ++ map node_line (nd_rows d) ++ [("$End" ++ kind)%string].
(** Sections of both kinds, in any order; [true] for nodes. *)
Definition kind_of (k : bool) : string := if k then "NodeData" else "ElementData".
Definition data_part (ds : list (bool * node_data fl)) : list string := flat_map (fun kd => data_section (kind_of (fst kd)) (snd kd)) ds.
(** The arrays of one kind: the rows in the order of the file. *)
Definition arrays (k : bool) (ds : list (bool * node_data fl)) : dict (list (list fl)) :=
  map (fun kd => (nd_name (snd kd), map snd (nd_rows (snd kd)))) (filter (fun kd => Bool.eqb (fst kd) k) ds).
(** Names that meshio uses for the tags of nodes and elements. *)
Definition reserved : list string := ["gmsh:dim_tags"; "gmsh:physical"; "gmsh:geometrical"].
Definition data_ok (d : node_data fl) : Prop :=
  plain_name (nd_name d) /\ ~ In (nd_name d) reserved /\ exists nc, In nc [1; 3; 9] /\ Forall (fun r => length (snd r) = nc) (nd_rows d).
(** [n] rows in every section of the kind, and no name twice. *)
Definition kind_ok (k : bool) (n : nat) (ds : list (bool * node_data fl)) : Prop :=
  NoDup (dkeys (arrays k ds)) /\ Forall (fun kv => length (snd kv) = n) (arrays k ds).
End Data.

(** In binary files the head of a section is text and its rows are a 32-bit tag and doubles. *)
Record bdata (F : Type) : Type := BData { bd_name : string; bd_time : string; bd_step : Z; bd_rows : list (Z * list F) }.
Arguments BData {F} _ _ _ _.
Arguments bd_name {F} _.
Arguments bd_time {F} _.
Arguments bd_step {F} _.
Arguments bd_rows {F} _.

Section Binary.
Context {F : Type} (c : codec F).
Definition bwidth (rows : list (Z * list F)) : nat := match rows with [] => 1 | r :: _ => length (snd r) end.
Definition bdata_section (kind : string) (d : bdata F) : bytes :=
  text_bytes [("$" ++ kind)%string; "1"; quoted (bd_name d); "1"; bd_time d; "3"; str_of_Z (bd_step d);
              str_of_nat (bwidth (bd_rows d)); str_of_nat (length (bd_rows d))]
  ++ concat (map (fun r => int_bytes CInt (fst r) ++ concat (map (enc c) (snd r))) (bd_rows d))
  ++ text_bytes [""; ("$End" ++ kind)%string].
Definition bdata_part (ds : list (bool * bdata F)) : bytes := flat_map (fun kd => bdata_section (kind_of (fst kd)) (snd kd)) ds.
Definition barrays (k : bool) (ds : list (bool * bdata F)) : dict (list (list F)) :=
  map (fun kd => (bd_name (snd kd), map snd (bd_rows (snd kd)))) (filter (fun kd => Bool.eqb (fst kd) k) ds).
Definition bdata_ok (d : bdata F) : Prop :=
  plain_name (bd_name d) /\ ~ In (bd_name d) reserved /\ one_line (bd_time d) /\ (Z.of_nat (length (bd_rows d)) < 2 ^ 31 - 1)%Z /\
  exists nc, In nc [1; 3; 9] /\ Forall (fun r => length (snd r) = nc) (bd_rows d).
Definition bkind_ok (k : bool) (n : nat) (ds : list (bool * bdata F)) : Prop :=
  NoDup (dkeys (barrays k ds)) /\ Forall (fun kv => length (snd kv) = n) (barrays k ds).
(** The tags are 1, 2, ... *)
Definition numbered (d : bdata F) : Prop := map fst (bd_rows d) = map (fun k => Z.of_nat (k + 1)) (seq 0 (length (bd_rows d))).
End Binary.
