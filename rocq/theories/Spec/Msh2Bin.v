(** Binary MSH 2.2 files as Gmsh writes them (C84).  The layout is that of the section on the MSH file format, version 2,
    in the Gmsh reference manual: elements come in groups of one type and one number of tags. *)
From Coq Require Import ZArith NArith List String Ascii Bool.
From Verif.Lib Require Import Base Text Lines Bytes File.
From Verif.Model Require Import Core Gmsh Gmsh22 Port.
From Verif.Spec Require Import Core Blocks Gmsh Gmsh22 Msh2File.
Import ListNotations.
Local Open Scope string_scope.
Local Open Scope list_scope.

Section Msh2.
Context {fl : floats} (c8 : codec fl).

(** Integers have four bytes and floating point numbers eight. *)
Definition record22 (n : Z * list fl) : bytes := int_bytes CInt (fst n) ++ concat (map (enc c8) (snd n)).
(** A group: type, number of elements, number of tags, then number, tags and nodes of every element *)
Definition group_numbers (g : list element) : list Z :=
  match g with
  | [] => []
  | e :: _ => [match dget (e_type e) meshio_to_gmsh_type with Some code => code | None => 0%Z end;
               Z.of_nat (length g); Z.of_nat (length (e_tags e))]
              ++ concat (map (fun e => e_id e :: e_tags e ++ e_nodes e) g)
  end.
Definition data_bytes (d : node_data fl) : bytes :=
  text_bytes ["$NodeData"; "1"; quoted (nd_name d); "1"; ffmt (nd_time d); "3"; str_of_Z (nd_step d);
              str_of_nat (width (nd_rows d)); str_of_nat (length (nd_rows d))]
  ++ concat (map record22 (nd_rows d)) ++ closing_binary "NodeData".
Definition file22_bytes (f : file22 fl) (groups : list (list element)) : bytes :=
  header_binary "2.2"
  ++ text_bytes (write_physical_names (f2_names f))
  ++ (text_bytes ["$Nodes"; str_of_nat (length (f2_nodes f))] ++ concat (map record22 (f2_nodes f)) ++ closing_binary "Nodes")
  ++ (text_bytes ["$Elements"; str_of_nat (length (f2_elements f))]
      ++ concat (map (int_bytes CInt) (concat (map group_numbers groups))) ++ closing_binary "Elements")
  ++ match f2_links f with
     | Some ps => text_bytes (["$Periodic"; str_of_nat (length ps)] ++ flat_map link_lines ps ++ ["$EndPeriodic"])
     | None => []
     end
  ++ concat (map data_bytes (f2_data f)).

(** The groups hold the elements of the file in their order; numbers fit their four bytes. *)
Record groups_ok (f : file22 fl) (groups : list (list element)) : Prop := GroupsOk {
  gk_all : concat groups = f2_elements f;
  gk_groups : Forall (fun g => g <> [] /\ exists t n, Forall (fun e => e_type e = t /\ length (e_tags e) = n) g) groups;
  gk_numbers : Forall (fun e => int32 (e_id e) /\ (Z.of_nat (length (e_tags e)) < 2 ^ 31)%Z) (f2_elements f);
  gk_count : (Z.of_nat (length (f2_elements f)) < 2 ^ 31)%Z }.

(** Elements of one type have the same number of tags. *)
Definition same_counts (f : file22 fl) : bool :=
  forallb (fun e => forallb (fun e' => negb (String.eqb (e_type e) (e_type e')) ||
                                       Nat.eqb (length (e_tags e)) (length (e_tags e'))) (f2_elements f)) (f2_elements f).
(** The node tags are 1, 2, ... *)
Definition consecutive (f : file22 fl) : Prop := file22_tags f = map Z.of_nat (seq 1 (length (f2_nodes f))).
Definition consecutive_dec (f : file22 fl) : {consecutive f} + {~ consecutive f} := list_eq_dec Z.eq_dec _ _.
End Msh2.
