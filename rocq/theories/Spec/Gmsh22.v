(** What MSH 2.2 can store, and what is read back (C23). *)
From Verif.Lib Require Import Base Text Lines.
From Verif.Model Require Import Core Gmsh Gmsh22.
From Verif.Spec Require Import Core Blocks Gmsh.

Section Spec22.
Context {fl : floats}.

(** One value per cell, by block. *)
Definition per_cell {V} (bs : list block) (d : list (list V)) : Prop :=
  Forall2 (fun b a => length a = blen b) bs d.

(** Rows of 1, 3 or 9 numbers. *)
Definition gmsh_rows (rows : list (list fl)) : Prop :=
  exists nc, In nc [1; 3; 9] /\ Forall (fun r => length r = nc) rows.

(** Meshes that fit the format. *)
Record msh22_mesh (m : gmesh fl) : Prop := Msh22Mesh {
  v_points : g_points m <> [];
  v_coords : Forall (fun p => length p = 2 \/ length p = 3) (g_points m);
  v_blocks : Forall gmsh_block (g_cells m);
  v_index : Forall (indices_below (length (g_points m))) (g_cells m);
  v_phys : forall d, g_phys m = Some d -> per_cell (g_cells m) d;
  v_geom : forall d, g_geom m = Some d -> per_cell (g_cells m) d;
  v_extra : forall d, g_extra m = Some d -> per_cell (g_cells m) d;
  v_names : NoDup (dkeys (g_names m)) /\ Forall plain_name (dkeys (g_names m));
  v_periodic : forall ps, g_periodic m = Some ps -> Forall (fun p => p_affine p <> Some []) ps;
  v_pdata_names : NoDup (dkeys (g_pdata m)) /\ Forall plain_name (dkeys (g_pdata m));
  v_pdata : Forall (fun kv => length (snd kv) = length (g_points m) /\ gmsh_rows (snd kv)) (g_pdata m);
  v_cdata_names : NoDup (dkeys (g_cdata m)) /\ Forall plain_name (dkeys (g_cdata m));
  v_cdata : Forall (fun kv => g_cells m <> [] /\ per_cell (g_cells m) (snd kv) /\ gmsh_rows (concat (snd kv)))
              (g_cdata m);
  v_dims : Forall (fun b => exists d, cellblock_dim (btype b) = Ok d) (g_cells m) }.

(** The cells of the mesh with neighbouring blocks of one type merged. *)
Definition merged (m : gmesh fl) : list block := regroup (all_cells (g_cells m)).

(** The tags that are read: those of the mesh, or zeros, attached to the same cells; none
    if there are no cells. *)
Definition tags_read (m : gmesh fl) (d : option (list (list Z))) : option (list (list Z)) :=
  match all_cells (g_cells m) with
  | [] => None
  | cs => Some (data_for (merged m) match d with Some d => concat d | None => map (fun _ => 0%Z) cs end)
  end.

(** Cell data other than tags is cut at 2, 4, 6, ... instead of at the block boundaries;
    it fits only if the mesh has a cell and all merged blocks but the last have two cells. *)
Definition splittable (m : gmesh fl) : bool :=
  match merged m with [] => false | bs => forallb (fun b => Nat.eqb (blen b) 2) (removelast bs) end.
End Spec22.

(** Meshes that also fit the binary mode: numbers of 32 bits, and no empty blocks. *)
Record binary22 {fl : floats} (m : gmesh fl) : Prop := Binary22 {
  bv_blocks : Forall (fun b => 0 < blen b) (g_cells m);
  bv_points : (Z.of_nat (length (g_points m)) < 2 ^ 31 - 1)%Z;
  bv_cells : (Z.of_nat (length (all_cells (g_cells m))) < 2 ^ 31 - 1)%Z;
  bv_tags : forall d, In (Some d) [g_phys m; g_geom m; g_extra m] ->
    Forall (Forall (fun t => - 2 ^ 31 <= t < 2 ^ 31)%Z) d }.
