(** MSH 2.2 text files as Gmsh writes them, and the meshes they describe (C83).  The layout is that of the section on
    the MSH file format, version 2, in the Gmsh reference manual. *)
From Coq Require Import ZArith List String Ascii Bool.
From Verif.Lib Require Import Base Text Lines.
From Verif.Model Require Import Core Gmsh Gmsh22.
From Verif.Spec Require Import Core Blocks Gmsh Gmsh22.
Import ListNotations.
Local Open Scope string_scope.
Local Open Scope list_scope.

(** A NodeData section: name, time, time step, and rows with the tag of the node. *)
Record node_data (fl : floats) : Type := NodeData { nd_name : string; nd_time : fl; nd_step : Z; nd_rows : list (Z * list fl) }.
Arguments NodeData {fl} _ _ _ _.
Arguments nd_name {fl} _.
Arguments nd_time {fl} _.
Arguments nd_step {fl} _.
Arguments nd_rows {fl} _.

(** A file: physical names, nodes with their tags, elements, periodic links (which hold node tags) and node data. *)
Record file22 (fl : floats) : Type := File22 {
  f2_names : dict (Z * Z);
  f2_nodes : list (Z * list fl);
  f2_elements : list element;
  f2_links : option (list (periodic fl));
  f2_data : list (node_data fl) }.
Arguments File22 {fl} _ _ _ _ _.
Arguments f2_names {fl} _.
Arguments f2_nodes {fl} _.
Arguments f2_elements {fl} _.
Arguments f2_links {fl} _.
Arguments f2_data {fl} _.

Section Msh2.
Context {fl : floats}.

(** ** Layout *)
Definition node_line (n : Z * list fl) : string := row_line (str_of_Z (fst n) :: map ffmt (snd n)).
Definition link_lines (p : periodic fl) : list string :=
  [row_line [str_of_Z (p_dim p); str_of_Z (p_slave p); str_of_Z (p_master p)]]
  ++ match p_affine p with Some a => [("Affine " ++ row_line (map ffmt a))%string] | None => [] end
  ++ [str_of_nat (length (p_nodes p))]
  ++ map (fun ab => row_line [str_of_Z (fst ab); str_of_Z (snd ab)]) (p_nodes p).
Definition width (rows : list (Z * list fl)) : nat := match rows with r :: _ => length (snd r) | [] => 1 end.
Definition data_lines (d : node_data fl) : list string :=
  ["$NodeData"; "1"; quoted (nd_name d); "1"; ffmt (nd_time d); "3"; str_of_Z (nd_step d);
   str_of_nat (width (nd_rows d)); str_of_nat (length (nd_rows d))]
  ++ map node_line (nd_rows d) ++ ["$EndNodeData"].
Definition file22_lines (f : file22 fl) : list string :=
  ["$MeshFormat"; "2.2 0 8"; "$EndMeshFormat"]
  ++ write_physical_names (f2_names f)
  ++ ["$Nodes"; str_of_nat (length (f2_nodes f))] ++ map node_line (f2_nodes f) ++ ["$EndNodes"]
  ++ ["$Elements"; str_of_nat (length (f2_elements f))] ++ map element_line (f2_elements f) ++ ["$EndElements"]
  ++ match f2_links f with
     | Some ps => ["$Periodic"; str_of_nat (length ps)] ++ flat_map link_lines ps ++ ["$EndPeriodic"]
     | None => []
     end
  ++ flat_map data_lines (f2_data f).

(** ** Meaning *)
Definition file22_tags (f : file22 fl) : list Z := map fst (f2_nodes f).
(** Neighbouring elements of one type form a block. *)
Definition file22_blocks (f : file22 fl) : list block := regroup (map (element_cell (file22_tags f)) (f2_elements f)).
(** The tags at place [k] of the elements (0: physical group, 1: geometrical entity), by block; none if no element
    has that many. *)
Definition has_tag (k : nat) (e : element) : bool := Nat.ltb k (length (e_tags e)).
Definition file22_tag (k : nat) (f : file22 fl) : option (list (list Z)) :=
  if existsb (has_tag k) (f2_elements f)
  then Some (data_for (file22_blocks f) (map (fun e => nth k (e_tags e) 0%Z) (f2_elements f)))
  else None.
Definition file22_mesh (f : file22 fl) (names : dict (Z * Z)) : gmesh fl := GMesh
  (map snd (f2_nodes f)) (file22_blocks f) (file22_tag 0 f) (file22_tag 1 f) None names
  (option_map (map (fun p => Periodic (p_dim p) (p_slave p) (p_master p) (p_affine p)
                               (map (fun ab => (fst ab - 1, snd ab - 1))%Z (p_nodes p)))) (f2_links f))
  (map (fun d => (nd_name d, map snd (nd_rows d))) (f2_data f)) [].

(** All elements have a tag at place [k], or none has. *)
Definition tags_agree (k : nat) (f : file22 fl) : bool :=
  forallb (has_tag k) (f2_elements f) || negb (existsb (has_tag k) (f2_elements f)).

(** Integers of 32 bits *)
Definition int32 (z : Z) : Prop := (- 2 ^ 31 <= z < 2 ^ 31)%Z.

Record file22_ok (f : file22 fl) : Prop := File22Ok {
  k_names : NoDup (dkeys (f2_names f)) /\ Forall plain_name (dkeys (f2_names f));
  k_nodes : f2_nodes f <> [] /\ NoDup (file22_tags f);
  k_coords : Forall (fun n => (1 <= fst n < 2 ^ 31)%Z /\ length (snd n) = 3) (f2_nodes f);
  k_elements : Forall (fun e => element_ok (file22_tags f) e /\ Forall int32 (e_tags e) /\
                                exists d, cellblock_dim (e_type e) = Ok d) (f2_elements f);
  k_links : forall ps, f2_links f = Some ps -> Forall (fun p => p_affine p <> Some []) ps;
  k_data_names : NoDup (map nd_name (f2_data f)) /\ Forall plain_name (map nd_name (f2_data f));
  k_data : Forall (fun d => map fst (nd_rows d) = file22_tags f /\
                            exists nc, In nc [1; 3; 9] /\ Forall (fun r => length (snd r) = nc) (nd_rows d)) (f2_data f) }.
End Msh2.
