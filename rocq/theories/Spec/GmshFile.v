(** MSH 4.1 files as Gmsh writes them, and the meshes they describe (C82).  The layout is that of the section on the
    MSH file format in the Gmsh reference manual. *)
From Coq Require Import ZArith NArith List String Ascii Bool.
From Verif.Lib Require Import Base Text Lines Bytes File.
From Verif.Model Require Import Core Gmsh Gmsh22 Port Msh41.
From Verif.Spec Require Import Core Blocks Gmsh Gmsh22 Msh41.
Import ListNotations.
Local Open Scope list_scope.

(** A model entity: dimension and tag, coordinates or bounding box, physical groups, bounding entities. *)
Record gentity (F : Type) : Type := GEntity {
  ge_id : Z * Z; ge_box : list F; ge_groups : list Z; ge_bounds : list Z }.
Arguments GEntity {F} _ _ _ _.
Arguments ge_id {F} _.
Arguments ge_box {F} _.
Arguments ge_groups {F} _.
Arguments ge_bounds {F} _.

(** The nodes classified on an entity: tags and coordinates. *)
Record gnodes (F : Type) : Type := GNodes { gn_id : Z * Z; gn_nodes : list (Z * list F) }.
Arguments GNodes {F} _ _.
Arguments gn_id {F} _.
Arguments gn_nodes {F} _.

(** The elements of one type classified on an entity: tags and node tags in Gmsh's order. *)
Record gelements : Type := GElements { gl_id : Z * Z; gl_type : string; gl_rows : list (Z * list Z) }.

(** A file.  Links hold node tags.  [gf_node_range] and [gf_element_range] are the least and greatest tags the file
    announces. *)
Record gfile (F : Type) : Type := GFile {
  gf_names : dict (Z * Z);
  gf_entities : option (list (gentity F));
  gf_nodes : list (gnodes F); gf_node_range : Z * Z;
  gf_elements : list gelements; gf_element_range : Z * Z;
  gf_links : option (list (link F)) }.
Arguments GFile {F} _ _ _ _ _ _ _.
Arguments gf_names {F} _.
Arguments gf_entities {F} _.
Arguments gf_nodes {F} _.
Arguments gf_node_range {F} _.
Arguments gf_elements {F} _.
Arguments gf_element_range {F} _.
Arguments gf_links {F} _.

Section Layout.
Context {F : Type} (p : port F).
Notation size z := (Int CSize z).
Notation count l := (Int CSize (Z.of_nat (length l))).

Definition entities_of_dim (es : list (gentity F)) (d : Z) : list (gentity F) := filter (fun e => (fst (ge_id e) =? d)%Z) es.
(** tag, coordinates or box, physical groups, and bounding entities except for points *)
Definition gentity_row (e : gentity F) : list (item F) :=
  Int CInt (snd (ge_id e)) :: map Dbl (ge_box e) ++ count (ge_groups e) :: map (Int CInt) (ge_groups e)
  ++ if (fst (ge_id e) =? 0)%Z then [] else count (ge_bounds e) :: map (Int CInt) (ge_bounds e).
Definition gentities_rows (es : list (gentity F)) : list (list (item F)) :=
  map (fun d => count (entities_of_dim es d)) [0; 1; 2; 3]%Z
  :: map gentity_row (flat_map (entities_of_dim es) [0; 1; 2; 3]%Z).

Definition gnode_tags (g : list (gnodes F)) : list Z := flat_map (fun b => map fst (gn_nodes b)) g.
Definition gnodes_rows (b : gnodes F) : list (list (item F)) :=
  [Int CInt (fst (gn_id b)); Int CInt (snd (gn_id b)); Int CInt 0; count (gn_nodes b)]
  :: map (fun n => [size (fst n)]) (gn_nodes b) ++ map (fun n => map Dbl (snd n)) (gn_nodes b).
Definition all_nodes_rows (g : gfile F) : list (list (item F)) :=
  [count (gf_nodes g); count (gnode_tags (gf_nodes g)); size (fst (gf_node_range g)); size (snd (gf_node_range g))]
  :: flat_map gnodes_rows (gf_nodes g).

Definition type_code (t : string) : Z := match dget t meshio_to_gmsh_type with Some c => c | None => 0%Z end.
Definition gelements_rows (b : gelements) : list (list (item F)) :=
  [Int CInt (fst (gl_id b)); Int CInt (snd (gl_id b)); Int CInt (type_code (gl_type b)); count (gl_rows b)]
  :: map (fun r => map (Int CSize) (fst r :: snd r)) (gl_rows b).
Definition all_elements_rows (g : gfile F) : list (list (item F)) :=
  [count (gf_elements g); count (flat_map gl_rows (gf_elements g));
   size (fst (gf_element_range g)); size (snd (gf_element_range g))]
  :: flat_map gelements_rows (gf_elements g).

Definition glink_affine (k : link F) : list F := match k_affine k with Some a => a | None => [] end.
Definition glink_rows (k : link F) : list (list (item F)) :=
  [[Int CInt (k_dim k); Int CInt (k_slave k); Int CInt (k_master k)];
   count (glink_affine k) :: map Dbl (glink_affine k); [count (k_nodes k)]]
  ++ map (fun ab => [size (fst ab); size (snd ab)]) (k_nodes k).

Definition section (name : string) (rows : list (list (item F))) : list (unt p) :=
  opening p name ++ put p rows ++ closing p name.
Definition gmsh_file (g : gfile F) : list (unt p) :=
  put_header p "4.1"
  ++ text p (write_physical_names (gf_names g))
  ++ match gf_entities g with Some es => section "Entities" (gentities_rows es) | None => [] end
  ++ section "Nodes" (all_nodes_rows g)
  ++ section "Elements" (all_elements_rows g)
  ++ match gf_links g with Some ks => section "Periodic" ([count ks] :: flat_map glink_rows ks) | None => [] end.
End Layout.

Section Meaning.
Context {F : Type}.

(** The entity with a given dimension and tag. *)
Definition same_id (a b : Z * Z) : bool := (fst a =? fst b)%Z && (snd a =? snd b)%Z.
Definition find_entity (es : list (gentity F)) (id : Z * Z) : option (gentity F) := find (fun e => same_id (ge_id e) id) es.
(** The physical groups an element block belongs to, and the entities that bound it. *)
Definition block_groups (g : gfile F) (b : gelements) : list Z :=
  match gf_entities g with
  | Some es => match find_entity es (gl_id b) with Some e => ge_groups e | None => [] end
  | None => []
  end.
Definition block_bounds (es : list (gentity F)) (b : gelements) : option (list Z) :=
  if (0 <? fst (gl_id b))%Z
  then Some match find_entity es (gl_id b) with Some e => ge_bounds e | None => [] end
  else None.

(** The mesh: points in the order of the file, cells that refer to the points with the given tags, and what is known
    about the entities.  [names] are the physical names. *)
Definition file_points (g : gfile F) : list (list F) := flat_map (fun b => map snd (gn_nodes b)) (gf_nodes g).
Definition file_cells (g : gfile F) : list block :=
  map (fun b => Block (gl_type b)
     (map (fun r => snd (element_cell (gnode_tags (gf_nodes g)) (Element (gl_type b) (fst r) [] (snd r)))) (gl_rows b)))
    (gf_elements g).
Definition in_group (g : gfile F) (nd : Z * Z) (b : gelements) : bool :=
  (snd nd =? fst (gl_id b))%Z && existsb (Z.eqb (fst nd)) (block_groups g b).
Definition file_mesh (g : gfile F) (names : dict (Z * Z)) : mesh41 F := Mesh41
  (file_points g) (file_cells g)
  (Some (flat_map (fun b => map (fun _ => gn_id b) (gn_nodes b)) (gf_nodes g)))
  (if forallb (fun b => match block_groups g b with [] => true | _ => false end) (gf_elements g) then None
   else Some (map (fun b => repeat (hd 0%Z (block_groups g b)) (length (gl_rows b))) (gf_elements g)))
  (Some (map (fun b => repeat (snd (gl_id b)) (length (gl_rows b))) (gf_elements g)))
  (option_map (fun es => map (block_bounds es) (gf_elements g)) (gf_entities g))
  names
  (map (fun kv => (fst kv, map (fun b => if in_group g (snd kv) b then seq 0 (length (gl_rows b)) else [])
                             (gf_elements g))) names)
  (option_map (map (fun k => Link (k_dim k) (k_slave k) (k_master k) (Some (glink_affine k))
                               (map (fun ab => (fst ab - 1, snd ab - 1))%Z (k_nodes k)))) (gf_links g))
  [] [].

(** The mesh with data of points and cells; data of cells has one array for each block. *)
Definition with_data (m : mesh41 F) (pd : dict (list (list F))) (cd : dict (list (list (list F)))) : mesh41 F :=
  Mesh41 (m_points m) (m_cells m) (m_dim_tags m) (m_phys m) (m_geom m) (m_bounds m) (m_names m) (m_sets m) (m_periodic m) pd cd.
Definition by_block (g : gfile F) (d : dict (list (list F))) : dict (list (list (list F))) :=
  map (fun kv => (fst kv, split_lens (map (fun b => length (gl_rows b)) (gf_elements g)) (snd kv))) d.

(** All blocks belong to physical groups, or none does. *)
Definition groups_agree (g : gfile F) : bool :=
  forallb (fun b => match block_groups g b with [] => true | _ => false end) (gf_elements g) ||
  forallb (fun b => match block_groups g b with [] => false | _ => true end) (gf_elements g).

(** What a file must be like. *)
Definition gentity_ok (e : gentity F) : Prop :=
  (0 <= fst (ge_id e) <= 3)%Z /\ in_range CInt (snd (ge_id e)) /\
  length (ge_box e) = (if (fst (ge_id e) =? 0)%Z then 3 else 6) /\
  Forall (in_range CInt) (ge_groups e) /\ in_range CSize (Z.of_nat (length (ge_groups e))) /\
  Forall (in_range CInt) (ge_bounds e) /\ in_range CSize (Z.of_nat (length (ge_bounds e))).
Definition gnodes_ok (b : gnodes F) : Prop :=
  in_range CInt (fst (gn_id b)) /\ in_range CInt (snd (gn_id b)) /\
  in_range CSize (Z.of_nat (length (gn_nodes b))) /\
  Forall (fun n => (1 <= fst n < 2 ^ 63)%Z /\ length (snd n) = 3) (gn_nodes b).
Definition gelements_ok (g : gfile F) (b : gelements) : Prop :=
  (0 <= fst (gl_id b) <= 3)%Z /\ in_range CInt (snd (gl_id b)) /\
  (exists code, dget (gl_type b) meshio_to_gmsh_type = Some code) /\
  (exists d, cellblock_dim (gl_type b) = Ok d) /\
  (gl_rows b <> [] /\ in_range CSize (Z.of_nat (length (gl_rows b)))) /\
  Forall (fun r => in_range CSize (fst r) /\
                   dget (gl_type b) num_nodes_per_cell = Some (length (snd r)) /\
                   Forall (fun n => In n (gnode_tags (gf_nodes g))) (snd r)) (gl_rows b) /\
  match gf_entities g with Some es => In (gl_id b) (map ge_id es) | None => True end.
Definition glink_ok (k : link F) : Prop :=
  in_range CInt (k_dim k) /\ in_range CInt (k_slave k) /\ in_range CInt (k_master k) /\
  Forall (fun ab => (1 <= fst ab < 2 ^ 63 /\ 1 <= snd ab < 2 ^ 63)%Z) (k_nodes k) /\
  in_range CSize (Z.of_nat (length (k_nodes k))) /\ in_range CSize (Z.of_nat (length (glink_affine k))).

Record gfile_ok (g : gfile F) : Prop := GFileOk {
  fo_names : NoDup (dkeys (gf_names g)) /\ Forall plain_name (dkeys (gf_names g));
  fo_entities : forall es, gf_entities g = Some es ->
    NoDup (map ge_id es) /\ Forall gentity_ok es /\ in_range CSize (Z.of_nat (length es));
  fo_nodes : Forall gnodes_ok (gf_nodes g) /\ in_range CSize (Z.of_nat (length (gf_nodes g)));
  fo_tags : gnode_tags (gf_nodes g) <> [] /\ NoDup (gnode_tags (gf_nodes g)) /\
    in_range CSize (Z.of_nat (length (gnode_tags (gf_nodes g))));
  fo_elements : gf_elements g <> [] /\ Forall (gelements_ok g) (gf_elements g) /\
    in_range CSize (Z.of_nat (length (gf_elements g))) /\
    in_range CSize (Z.of_nat (length (flat_map gl_rows (gf_elements g))));
  fo_ranges : in_range CSize (fst (gf_node_range g)) /\ in_range CSize (snd (gf_node_range g)) /\
    in_range CSize (fst (gf_element_range g)) /\ in_range CSize (snd (gf_element_range g));
  fo_links : forall ks, gf_links g = Some ks -> Forall glink_ok ks /\ in_range CSize (Z.of_nat (length ks)) }.
End Meaning.
