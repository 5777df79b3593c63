(** MSH 4.0 files as Gmsh writes them, and the meshes they describe (C85).  The files are those of Spec/GmshFile.v in
    the layout of version 4.0: points have a bounding box, too, tags are ints, blocks begin with the tag of their entity,
    every node stands on a line of its own, and no ranges of tags are announced. *)
From Coq Require Import ZArith NArith List String Ascii Bool.
From Verif.Lib Require Import Base Text Lines Bytes File.
From Verif.Model Require Import Core Gmsh Gmsh22 Port Msh41 Msh40.
From Verif.Spec Require Import Core Blocks Gmsh Gmsh22 Msh41 Msh40 GmshFile.
Import ListNotations.
Local Open Scope list_scope.

Section Layout40.
Context {F : Type} (p : port F).
Notation count l := (Int CSize (Z.of_nat (length l))).

Definition gnodes_rows40 (b : gnodes F) : list (list (item F)) :=
  [Int CInt (snd (gn_id b)); Int CInt (fst (gn_id b)); Int CInt 0; count (gn_nodes b)]
  :: map (fun n => Int CInt (fst n) :: map Dbl (snd n)) (gn_nodes b).
Definition all_nodes_rows40 (gs : list (gnodes F)) : list (list (item F)) :=
  [count gs; count (gnode_tags gs)] :: flat_map gnodes_rows40 gs.
Definition gelements_rows40 (b : gelements) : list (list (item F)) :=
  [Int CInt (snd (gl_id b)); Int CInt (fst (gl_id b)); Int CInt (type_code (gl_type b)); count (gl_rows b)]
  :: map (fun r => map (Int CInt) (fst r :: snd r)) (gl_rows b).
Definition all_elements_rows40 (bs : list gelements) : list (list (item F)) :=
  [count bs; count (flat_map gl_rows bs)] :: flat_map gelements_rows40 bs.
(** Links without transformation. *)
Definition glink_rows40 (k : link F) : list (list (item F)) :=
  [[Int CInt (k_dim k); Int CInt (k_slave k); Int CInt (k_master k)]; [Int CInt (Z.of_nat (length (k_nodes k)))]]
  ++ map (fun ab => [Int CInt (fst ab); Int CInt (snd ab)]) (k_nodes k).
Definition glinks_rows40 (ks : list (link F)) : list (list (item F)) :=
  [Int CInt (Z.of_nat (length ks))] :: flat_map glink_rows40 ks.

Definition gmsh_file40 (g : gfile F) : list (unt p) :=
  put_header p "4.0"
  ++ text p (write_physical_names (gf_names g))
  ++ match gf_entities g with Some es => section p "Entities" (gentities_rows es) | None => [] end
  ++ section p "Nodes" (all_nodes_rows40 (gf_nodes g))
  ++ section p "Elements" (all_elements_rows40 (gf_elements g))
  ++ match gf_links g with Some ks => section p "Periodic" (glinks_rows40 ks) | None => [] end.
End Layout40.

Section Meaning40.
Context {F : Type}.

(** What is read: points, cells, names and links; the first physical group and the entity of every cell. *)
Definition glink_read40 (k : link F) : link F :=
  Link (k_dim k) (k_slave k) (k_master k) None (map (fun ab => (fst ab - 1, snd ab - 1))%Z (k_nodes k)).
Definition file_mesh40 (g : gfile F) (names : dict (Z * Z)) : read40_mesh F := Read40
  (Mesh40 (file_points g) (file_cells g) names (option_map (map glink_read40) (gf_links g)) [] [])
  (if forallb (fun b => match block_groups g b with [] => true | _ => false end) (gf_elements g) then None
   else Some (map (fun b => repeat (hd 0%Z (block_groups g b)) (length (gl_rows b))) (gf_elements g)))
  (Some (map (fun b => repeat (snd (gl_id b)) (length (gl_rows b))) (gf_elements g))).

(** The same with data. *)
Definition with_data40 (m : read40_mesh F) (pd : dict (list (list F))) (cd : dict (list (list (list F)))) : read40_mesh F :=
  Read40 (Mesh40 (q_points (o_mesh m)) (q_cells (o_mesh m)) (q_names (o_mesh m)) (q_periodic (o_mesh m)) pd cd) (o_phys m) (o_geom m).

(** What a file must be like. *)
Definition gentity40_ok (e : gentity F) : Prop :=
  (0 <= fst (ge_id e) <= 3)%Z /\ in_range CInt (snd (ge_id e)) /\ length (ge_box e) = 6 /\
  Forall (in_range CInt) (ge_groups e) /\ in_range CSize (Z.of_nat (length (ge_groups e))) /\
  Forall (in_range CInt) (ge_bounds e) /\ in_range CSize (Z.of_nat (length (ge_bounds e))).
Definition gnodes40_ok (b : gnodes F) : Prop :=
  in_range CInt (fst (gn_id b)) /\ in_range CInt (snd (gn_id b)) /\
  in_range CSize (Z.of_nat (length (gn_nodes b))) /\
  Forall (fun n => (0 <= fst n < 2 ^ 31)%Z /\ length (snd n) = 3) (gn_nodes b).
Definition gelements40_ok (g : gfile F) (b : gelements) : Prop :=
  (0 <= fst (gl_id b) <= 3)%Z /\ in_range CInt (snd (gl_id b)) /\
  (exists code, dget (gl_type b) meshio_to_gmsh_type = Some code) /\
  (exists d, cellblock_dim (gl_type b) = Ok d) /\
  (gl_rows b <> [] /\ in_range CSize (Z.of_nat (length (gl_rows b)))) /\
  Forall (fun r => in_range CInt (fst r) /\
                   dget (gl_type b) num_nodes_per_cell = Some (length (snd r)) /\
                   Forall (fun n => In n (gnode_tags (gf_nodes g))) (snd r)) (gl_rows b) /\
  match gf_entities g with Some es => In (gl_id b) (map ge_id es) | None => True end.
Definition glink40_ok (k : link F) : Prop :=
  in_range CInt (k_dim k) /\ in_range CInt (k_slave k) /\ in_range CInt (k_master k) /\
  Forall (fun ab => in_range CInt (fst ab) /\ in_range CInt (snd ab)) (k_nodes k) /\
  in_range CInt (Z.of_nat (length (k_nodes k))) /\ k_affine k = None.

Record gfile40_ok (g : gfile F) : Prop := GFile40Ok {
  fo4_names : NoDup (dkeys (gf_names g)) /\ Forall plain_name (dkeys (gf_names g));
  fo4_entities : forall es, gf_entities g = Some es ->
    NoDup (map ge_id es) /\ Forall gentity40_ok es /\ in_range CSize (Z.of_nat (length es));
  fo4_nodes : Forall gnodes40_ok (gf_nodes g) /\ in_range CSize (Z.of_nat (length (gf_nodes g)));
  fo4_tags : gnode_tags (gf_nodes g) <> [] /\ NoDup (gnode_tags (gf_nodes g)) /\
    in_range CSize (Z.of_nat (length (gnode_tags (gf_nodes g))));
  fo4_elements : gf_elements g <> [] /\ Forall (gelements40_ok g) (gf_elements g) /\
    in_range CSize (Z.of_nat (length (gf_elements g))) /\
    in_range CSize (Z.of_nat (length (flat_map gl_rows (gf_elements g)))) }.
End Meaning40.
