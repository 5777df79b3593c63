(** Parts of MSH text files that meshio skips (C87). *)
From Coq Require Import ZArith List String Bool.
From Verif.Lib Require Import Base Text Lines.
From Verif.Model Require Import Core Gmsh Gmsh22 Port Msh41 Msh40.
From Verif.Spec Require Import Gmsh Gmsh22 Msh41 Msh40 Msh2File GmshFile Msh40File.
Import ListNotations.
Local Open Scope string_scope.
Local Open Scope list_scope.

(** A section: the line "$name", its contents, and the line "$Endname" *)
Definition section_lines (s : string * list string) : list string := ("$" ++ fst s)%string :: snd s ++ [("$End" ++ fst s)%string].
(** The contents hold no line that ends the section. *)
Definition closed (s : string * list string) : Prop := Forall (fun l => strip l <> ("$End" ++ fst s)%string) (snd s).
(** The sections that are read by one of the versions *)
Definition known : list string := ["PhysicalNames"; "Entities"; "Nodes"; "Elements"; "Periodic"; "NodeData"; "ElementData"].
(** A section with any other name, without blanks *)
Definition other (s : string * list string) : Prop := word (fst s) = true /\ ~ In (fst s) known /\ closed s.
Definition comments (cs : list (list string)) : list string := flat_map (fun c => section_lines ("Comments", c)) cs.

(** A text file of version 2.2 with sections [u 0] after the header, [u 1] after the physical names, [u 2] after the nodes,
    [u 3] after the elements, [u 4] after the periodic links and [u 5], [u 6], ... after the sections of node data. *)
Section Mixed.
Context {fl : floats} (u : nat -> list (string * list string)).
Definition between (i : nat) : list string := flat_map section_lines (u i).
Fixpoint mixed_data (i : nat) (ds : list (node_data fl)) : list string :=
  match ds with [] => [] | d :: ds' => data_lines d ++ between i ++ mixed_data (S i) ds' end.
Definition mixed22 (f : file22 fl) : list string :=
  ["$MeshFormat"; "2.2 0 8"; "$EndMeshFormat"] ++ between 0
  ++ write_physical_names (f2_names f) ++ between 1
  ++ ["$Nodes"; str_of_nat (length (f2_nodes f))] ++ map node_line (f2_nodes f) ++ ["$EndNodes"] ++ between 2
  ++ ["$Elements"; str_of_nat (length (f2_elements f))] ++ map element_line (f2_elements f) ++ ["$EndElements"] ++ between 3
  ++ match f2_links f with
     | Some ps => ["$Periodic"; str_of_nat (length ps)] ++ flat_map link_lines ps ++ ["$EndPeriodic"]
     | None => []
     end ++ between 4
  ++ mixed_data 5 (f2_data f).
(** The same in version 4.1: [u 0] after the header, [u 1] after the physical names, [u 2] after the entities, [u 3] after
    the nodes, [u 4] after the elements and [u 5] at the end. *)
Definition mixed41 (g : gfile fl) : list string :=
  let p := ascii_port (fl := fl) in
  put_header p "4.1" ++ between 0
  ++ text p (write_physical_names (gf_names g)) ++ between 1
  ++ match gf_entities g with Some es => section p "Entities" (gentities_rows es) | None => [] end ++ between 2
  ++ section p "Nodes" (all_nodes_rows g) ++ between 3
  ++ section p "Elements" (all_elements_rows g) ++ between 4
  ++ match gf_links g with Some ks => section p "Periodic" ([Int CSize (Z.of_nat (length ks))] :: flat_map glink_rows ks) | None => [] end ++ between 5.
(** The same in version 4.0. *)
Definition mixed40 (g : gfile fl) : list string :=
  let p := ascii_port (fl := fl) in
  put_header p "4.0" ++ between 0
  ++ text p (write_physical_names (gf_names g)) ++ between 1
  ++ match gf_entities g with Some es => section p "Entities" (gentities_rows es) | None => [] end ++ between 2
  ++ section p "Nodes" (all_nodes_rows40 (gf_nodes g)) ++ between 3
  ++ section p "Elements" (all_elements_rows40 (gf_elements g)) ++ between 4
  ++ match gf_links g with Some ks => section p "Periodic" (glinks_rows40 ks) | None => [] end ++ between 5.
End Mixed.
