(** Property theorems for the VTK family's cell encodings: C15-C18. *)
From Verif.Lib Require Import Base Facts Runs.
From Verif.Model Require Import Core Vtk.
From Verif.Spec Require Import Core Blocks Vtk.
From Verif.Proofs Require Import Blocks Vtk Vtk51 Grid.

(** A mesh used as a non-trivial instance: adjacent blocks of equal type, a wedge (whose
    nodes VTK orders differently), an empty block. *)
Definition ex_blocks : list block :=
  [Block "triangle" [[0; 1; 2]; [1; 2; 3]]%Z; Block "triangle" [[4; 5; 6]]%Z;
   Block "line" []; Block "wedge" [[0; 1; 2; 3; 4; 5]]%Z; Block "quad" [[3; 2; 1; 0]]%Z].

(** C15: for fixed-size types, the CELLS/CELL_TYPES arrays of the 4.2 writer are read as
    the same cells in the same order, cut into blocks of equal neighbours, and any per-cell
    data is cut the same way. *)
Theorem C15_roundtrip bs : Forall fixed_block bs ->
  exists conn types sp,
    write_cells_42 bs = Ok (conn, types) /\
    translate_cells conn types = Ok (regroup (all_cells bs), Some sp) /\
    forall V (d : list V), length d = length (all_cells bs) ->
      pieces sp d = data_for (regroup (all_cells bs)) d.
Proof. exact (vtk42_roundtrip bs). Qed.
Print Assumptions C15_roundtrip.

(** What [regroup] and [data_for] keep: the cells and the data in order, one value per
    cell. *)
Theorem C15_regroup_faithful l :
  all_cells (regroup l) = l /\
  forall V (d : list V), length d = length l ->
    concat (data_for (regroup l) d) = d /\
    map (@length V) (data_for (regroup l) d) = map blen (regroup l).
Proof.
  split; [apply regroup_cells|]. intros V d Hd. rewrite <- (regroup_cells l) in Hd. split.
  - now apply data_for_concat.
  - now apply data_for_length.
Qed.
Print Assumptions C15_regroup_faithful.

(** A mesh whose blocks are already grouped comes back unchanged. *)
Theorem C15_same_blocks bs : Forall fixed_block bs -> regroup (all_cells bs) = bs ->
  exists conn types sp, write_cells_42 bs = Ok (conn, types) /\
    translate_cells conn types = Ok (bs, Some sp).
Proof.
  intros H E. destruct (vtk42_roundtrip bs H) as (c & t & sp & H1 & H2 & _).
  exists c, t, sp. now rewrite <- E at 2.
Qed.
Print Assumptions C15_same_blocks.

(** With polygons present the cells also survive, but cell data is not returned at all. *)
Theorem C15_polygons bs : Forall (fun b => fixed_block b \/ varying_block b) bs ->
  (exists c, In ("polygon", c) (all_cells bs)) ->
  exists conn types,
    write_cells_42 bs = Ok (conn, types) /\
    translate_cells conn types = Ok (regroup (all_cells bs), None).
Proof. exact (vtk42_polygons bs). Qed.
Print Assumptions C15_polygons.

Ltac fixed_tac n := exists n; split; [cbv; tauto|repeat constructor].
Example C15_instance : Forall fixed_block ex_blocks.
Proof.
  repeat apply Forall_cons; try apply Forall_nil; [fixed_tac 3|fixed_tac 3|fixed_tac 2|fixed_tac 6|fixed_tac 4].
Qed.
Example C15_instance_value :
  exists conn types sp, write_cells_42 ex_blocks = Ok (conn, types) /\
   translate_cells conn types =
     Ok ([Block "triangle" [[0; 1; 2]; [1; 2; 3]; [4; 5; 6]]%Z;
          Block "wedge" [[0; 1; 2; 3; 4; 5]]%Z; Block "quad" [[3; 2; 1; 0]]%Z], Some sp) /\
   pieces sp [10; 11; 12; 13; 14] = [[10; 11; 12]; [13]; [14]].
Proof. do 3 eexists. split; [reflexivity|]. split; reflexivity. Qed.
Example C15_polygon_instance :
  let bs := [Block "polygon" [[0; 1; 2; 3; 4]; [1; 2; 3; 4; 5]]%Z; Block "polygon" [[0; 1; 2]]%Z; Block "triangle" [[0; 1; 2]]%Z] in
  Forall (fun b => fixed_block b \/ varying_block b) bs /\ (exists c, In ("polygon", c) (all_cells bs)) /\
  regroup (all_cells bs) = bs.
Proof.
  cbn zeta. split; [|split; [exists [0; 1; 2]%Z; cbn; tauto|reflexivity]].
 repeat apply Forall_cons; try apply Forall_nil.
  - right. split; [cbn; tauto|]. exists 5. repeat constructor.
  - right. split; [cbn; tauto|]. exists 3. repeat constructor.
  - left. fixed_tac 3.
Qed.

(** C16: the offsets/connectivity/types arrays of the VTK 5.1 writer ... *)
Theorem C16_vtk51 bs : bs <> [] -> Forall (fun b => fixed_block b \/ varying_block b) bs ->
  Forall nonempty_block bs ->
  exists conn offs offs' types sp,
    write_conn bs = Ok conn /\ write_types bs = Ok types /\ offsets_51 bs = Ok offs /\
    check_offsets_51 conn offs = Ok offs' /\
    vtk_cells_from_data conn offs' types = Ok (regroup (all_cells bs), sp) /\
    (forall V (d : list V), length d = length (all_cells bs) ->
      pieces sp d = data_for (regroup (all_cells bs)) d).
Proof. exact (vtk51_roundtrip bs). Qed.
Print Assumptions C16_vtk51.

(** ... and of the VTU writer decode to the same cells, with the data of each cell. *)
Theorem C16_vtu bs : bs <> [] -> Forall (fun b => fixed_block b \/ varying_block b) bs ->
  Forall nonempty_block bs ->
  exists conn offs types sp,
    write_conn bs = Ok conn /\ write_types bs = Ok types /\ offsets_vtu bs = Ok offs /\
    vtk_cells_from_data conn offs types = Ok (regroup (all_cells bs), sp) /\
    (forall V (d : list V), length d = length (all_cells bs) ->
      pieces sp d = data_for (regroup (all_cells bs)) d).
Proof. exact (vtu_cells_roundtrip bs). Qed.
Print Assumptions C16_vtu.

(** An empty block makes both writers raise IndexError (VTU unless it is the last one). *)
Theorem C16_empty_block_error k bs1 t bs2 :
  Forall rectangular bs1 -> Forall nonempty_block bs1 ->
  offsets_51_from k (bs1 ++ Block t [] :: bs2) = Err IndexError.
Proof.
  intros H. revert k. induction H as [|b bs (n & Hn) H IH]; intros k He; [reflexivity|].
  inversion He as [|? ? Hb He']; subst. cbn [app offsets_51_from].
  match goal with |- context [rev ?l] => destruct (rev l) as [|x xs] eqn:E end; [reflexivity|].
  now rewrite IH.
Qed.
Print Assumptions C16_empty_block_error.

Example C16_instance :
  let bs := [Block "triangle" [[0; 1; 2]; [1; 2; 3]]%Z; Block "polygon" [[0; 1; 2; 3; 4]]%Z;
             Block "polygon" [[1; 2; 3]]%Z; Block "wedge" [[0; 1; 2; 3; 4; 5]]%Z] in
  bs <> [] /\ Forall (fun b => fixed_block b \/ varying_block b) bs /\ Forall nonempty_block bs /\
  regroup (all_cells bs) = bs.
Proof.
  cbn zeta. split; [discriminate|]. split; [|split; [repeat constructor; discriminate|reflexivity]].
 repeat apply Forall_cons; try apply Forall_nil.
  - left. fixed_tac 3.
  - right. split; [cbn; tauto|]. exists 5. repeat constructor.
  - right. split; [cbn; tauto|]. exists 3. repeat constructor.
  - left. fixed_tac 6.
Qed.
Example C16_instance_value :
  write_conn [Block "line" [[0; 1]; [1; 2]]%Z; Block "wedge" [[0; 1; 2; 3; 4; 5]]%Z] =
    Ok [0; 1; 1; 2; 0; 2; 1; 3; 5; 4]%Z /\
  offsets_51 [Block "line" [[0; 1]; [1; 2]]%Z; Block "wedge" [[0; 1; 2; 3; 4; 5]]%Z] = Ok [0; 2; 4; 10]%Z.
Proof. split; reflexivity. Qed.

(** C17: node-order conversion to VTK and back, for every meshio type that has a VTK
    number; [c] must have six nodes if it is a wedge. *)
Theorem C17_to_vtk_and_back t code (c : cell) :
  dget t meshio_to_vtk_type = Some code -> (t = "wedge" -> length c = 6) ->
  exists d, reorder (meshio_to_vtk_order t) c = Ok d /\
    reorder (vtk_to_meshio_order code) d = Ok c /\ length d = length c.
Proof.
  intros H Hw. unfold meshio_to_vtk_order, vtk_to_meshio_order.
  destruct (String.eqb_spec t "wedge") as [->|Hne].
  - injection H as <-. destruct (wedge_involution c (Hw eq_refl)) as (d & H1 & H2 & H3).
    exists d. unfold reorder. try change (13 =? 13)%Z with true. try change ("wedge" =? "wedge")%string with true. cbn iota. rewrite H1, H3, H2, (Hw eq_refl). auto.
  - exists c. split; [reflexivity|]. split; [|reflexivity].
    destruct (Z.eqb_spec code 13) as [->|Hc]; [|reflexivity].
    exfalso. apply dget_In in H. cbv in H. 
    repeat (destruct H as [H|H]; [try discriminate; injection H as H; congruence|]). exact H.
Qed.
Print Assumptions C17_to_vtk_and_back.

(** The other direction, for every known VTK number. *)
Theorem C17_to_meshio_and_back t code (c : cell) :
  zget code vtk_to_meshio_type = Some t -> (t = "wedge" -> length c = 6) ->
  exists d, reorder (vtk_to_meshio_order code) c = Ok d /\
    reorder (meshio_to_vtk_order t) d = Ok c /\ length d = length c.
Proof.
  intros H Hw. unfold meshio_to_vtk_order, vtk_to_meshio_order.
  destruct (Z.eqb_spec code 13) as [->|Hne].
  - injection H as <-. destruct (wedge_involution c (Hw eq_refl)) as (d & H1 & H2 & H3).
    exists d. unfold reorder. try change (13 =? 13)%Z with true. try change ("wedge" =? "wedge")%string with true. cbn iota. rewrite H1, H3, H2, (Hw eq_refl). auto.
  - exists c. split; [reflexivity|]. split; [|reflexivity].
    destruct (String.eqb_spec t "wedge") as [->|Hc]; [|reflexivity].
    exfalso. unfold vtk_to_meshio_type in H. cbn [zget] in H.
    repeat match type of H with
    | (if ?b then _ else _) = _ => destruct b eqn:?; [try discriminate; try (apply Z.eqb_eq in Heqb; congruence)|]
    end; try discriminate.
    all: try match goal with X : (_ =? 13)%Z = true |- _ => apply Z.eqb_eq in X; congruence
                  | X : (13 =? _)%Z = true |- _ => apply Z.eqb_eq in X; congruence end.
Qed.
Print Assumptions C17_to_meshio_and_back.

(** The two orders name the same physical nodes: VTK's wedge has its two triangles turned
    the other way. *)
Theorem C17_wedge a b c d e f :
  reorder (meshio_to_vtk_order "wedge") [a; b; c; d; e; f] = Ok [a; c; b; d; f; e].
Proof. reflexivity. Qed.
Print Assumptions C17_wedge.

Example C17_instance : dget "wedge" meshio_to_vtk_type = Some 13%Z /\
  exists d, reorder (meshio_to_vtk_order "wedge") [10; 11; 12; 13; 14; 15]%Z = Ok d /\ d <> [10; 11; 12; 13; 14; 15]%Z.
Proof. split; [reflexivity|]. eexists. split; [reflexivity|discriminate]. Qed.

(** C18: a structured grid of nx*ny*nz > 1 points.  One cell per box, x fastest; the cell
    of box (i,j,k) lists its corners, which are points of the grid. *)
Theorem C18_cells nx ny nz : 1 <= nx -> 1 <= ny -> 1 <= nz -> 1 < nx * ny * nz ->
  exists rows, generate_cells [nx; ny; nz] = Ok (rows, box_code (axes nx ny nz)) /\
    length rows = boxes nx * boxes ny * boxes nz /\
    forall i j k, i < boxes nx -> j < boxes ny -> k < boxes nz ->
      nth_error rows (i + boxes nx * (j + boxes ny * k)) =
        Some (Z.of_nat (length (box_corners (axes nx ny nz) (i, j, k)))
              :: map (point_index nx ny) (box_corners (axes nx ny nz) (i, j, k))) /\
      Forall (in_grid nx ny nz) (box_corners (axes nx ny nz) (i, j, k)).
Proof. exact (generate_cells_ok nx ny nz). Qed.
Print Assumptions C18_cells.

Theorem C18_points {F} (xs ys zs : list F) :
  length (generate_points xs ys zs) = length xs * length ys * length zs /\
  forall i j k, i < length xs -> j < length ys -> k < length zs ->
    nth_error (generate_points xs ys zs) (i + length xs * (j + length ys * k)) =
    Some (nth_error xs i, nth_error ys j, nth_error zs k).
Proof. exact (generate_points_ok xs ys zs). Qed.
Print Assumptions C18_points.

(** A grid of a single point is rejected with IndexError. *)
Theorem C18_single_point : generate_cells [1; 1; 1] = Err IndexError.
Proof. reflexivity. Qed.
Print Assumptions C18_single_point.

Example C18_instance : 1 < 3 * 1 * 2 /\
  generate_cells [3; 1; 2] = Ok ([[4; 0; 1; 4; 3]; [4; 1; 2; 5; 4]]%Z, 9%Z).
Proof. split; [lia|reflexivity]. Qed.
Example C18_instance_hex :
  generate_cells [2; 3; 2] = Ok ([[8; 0; 1; 3; 2; 6; 7; 9; 8]; [8; 2; 3; 5; 4; 8; 9; 11; 10]]%Z, 12%Z).
Proof. reflexivity. Qed.
