(** What MSH 4.0 can store, and what is read back (C24). *)
From Coq Require Import ZArith NArith List String Ascii Bool.
From Verif.Lib Require Import Base Text Lines Bytes File.
From Verif.Model Require Import Core Gmsh Port Msh41 Msh40.
From Verif.Spec Require Import Core Blocks Gmsh Gmsh22 Msh41.
Import ListNotations.

Section Spec40.
Context {F : Type} (zero : F).

(** Meshes that fit the format, periodic links aside. *)
Record msh40_mesh (m : mesh40 F) : Prop := Msh40Mesh {
  v_points : q_points m <> [] /\ (Z.of_nat (length (q_points m)) < 2 ^ 31 - 1)%Z;
  v_coords : Forall (fun x => length x = 2 \/ length x = 3) (q_points m);
  v_cells : q_cells m <> [];
  v_blocks : Forall (fun b => (gmsh_block b /\ known_dim b) /\ bdata b <> []) (q_cells m);
  v_total : (Z.of_nat (sum_nat (map blen (q_cells m))) < 2 ^ 31 - 1)%Z;
  v_index : Forall (indices_below (length (q_points m))) (q_cells m);
  v_names : NoDup (dkeys (q_names m)) /\ Forall plain_name (dkeys (q_names m));
  v_pdata_names : NoDup (dkeys (q_pdata m)) /\ Forall plain_name (dkeys (q_pdata m));
  v_pdata : Forall (fun kv => length (snd kv) = length (q_points m) /\ gmsh_rows41 (snd kv)) (q_pdata m);
  v_cdata_names : NoDup (dkeys (q_cdata m)) /\ Forall plain_name (dkeys (q_cdata m));
  v_cdata : Forall (fun kv => per_cell (q_cells m) (snd kv) /\ gmsh_rows41 (concat (snd kv))) (q_cdata m) }.

(** A periodic link without transformation, with numbers that an int can hold. *)
Definition plain_link (k : link F) : Prop :=
  in_range CInt (k_dim k) /\ in_range CInt (k_slave k) /\ in_range CInt (k_master k) /\
  Forall (fun ab => in_range CInt (fst ab + 1) /\ in_range CInt (snd ab + 1))%Z (k_nodes k) /\
  in_range CInt (Z.of_nat (length (k_nodes k))) /\ k_affine k = None.

(** [m'] is what is read after [m] has been written: the same points in space, the same blocks, names, links and
    data.  Every cell gets the geometrical tag 1, in place of data called gmsh:geometrical. *)
Record kept40 (m : mesh40 F) (m' : read40_mesh F) : Prop := Kept40 {
  k_points40 : q_points (o_mesh m') = in_space zero (q_points m);
  k_cells40 : q_cells (o_mesh m') = q_cells m;
  k_names40 : forall k, dget k (q_names (o_mesh m')) = dget k (q_names m);
  k_periodic40 : q_periodic (o_mesh m') = q_periodic m;
  k_pdata40 : q_pdata (o_mesh m') = q_pdata m;
  k_cdata40 : q_cdata (o_mesh m') = filter (fun kv => negb (String.eqb (fst kv) "gmsh:geometrical")) (q_cdata m);
  k_geom40 : o_geom m' = Some (map (fun b => repeat 1%Z (blen b)) (q_cells m));
  k_phys40 : o_phys m' = None }.
End Spec40.
