(** Properties C55 and C63: the formats HMF, CGNS and H5M, which are stored in HDF5 files. *)
From Coq Require Import Lia ZArith Permutation.
From Verif.Lib Require Import Base Facts Facts2 Text.
From Verif.Model Require Import Core Tables Xdmf Numpy Hdf5 Hdf.
From Verif.Spec Require Import Core Hdf.
From Verif.Proofs Require Import Numpy Hdf5 Hdf.
Import Model.Numpy.

(** ** Meshes for the examples *)
Definition ex_points : list (list Z) := [[0; 0; 0]; [1; 0; 0]; [0; 1; 0]; [0; 0; 1]]%Z.
Definition ex_mesh : hmesh Z :=
  HMesh 3 ex_points [Block "triangle" [[0; 1; 2]; [1; 2; 3]]%Z; Block "tetra" [[0; 1; 2; 3]]%Z]
    [("u", HReals (Nda [4; 2] [1; 2; 3; 4; 5; 6; 7; 8]%Z)); ("t", HInts (Nda [4] [0; 1; 1; 0]%Z))] [].
Ltac one_block w := split; [right; apply smem_In; vm_compute; reflexivity|exists w; repeat constructor].
Lemma ex_mesh_ok : hdf_mesh ex_mesh.
Proof.
  constructor; cbn [hm_dim hm_points hm_cells hm_pd hm_cd ex_mesh map].
  - repeat constructor.
  - constructor; [one_block 3|]. constructor; [one_block 4|constructor].
  - repeat constructor; try discriminate; [exists [2]|exists []]; split; reflexivity.
  - repeat constructor; cbn; intuition discriminate.
  - constructor.
  - constructor.
Qed.
Definition ex_twice : hmesh Z :=
  HMesh 3 ex_points [Block "triangle" [[0; 1; 2]]%Z; Block "tetra" [[0; 1; 2; 3]]%Z; Block "triangle" [[1; 2; 3]]%Z] [] [].
Lemma ex_twice_ok : hdf_mesh ex_twice.
Proof.
  constructor; cbn [hm_dim hm_points hm_cells hm_pd hm_cd ex_twice map]; try solve [constructor].
  - repeat constructor.
  - constructor; [one_block 3|]. constructor; [one_block 4|]. constructor; [one_block 3|constructor].
Qed.
Definition ex_cd : hmesh Z :=
  HMesh 3 ex_points [Block "triangle" [[0; 1; 2]; [0; 1; 3]]%Z; Block "tetra" [[0; 1; 2; 3]]%Z] []
    [("u", [HReals (Nda [2] [1; 2]%Z); HReals (Nda [1] [3]%Z)])].
Definition ex_one : hmesh Z :=
  HMesh 3 ex_points [Block "triangle" [[0; 1; 2]; [0; 1; 3]]%Z] [] [("u", [HReals (Nda [2; 2] [1; 2; 3; 4]%Z)])].

(** ** HMF *)
(** C55 for HMF, for meshes with one block per type, and with cell data only if there is one block: the points, blocks and data come back
    (the blocks in the order of the mesh if there are at most ten of them; afterwards Topology10 is read before Topology2).
    The other meshes: C55_hmf_last_refuted, C55_hmf_data_refuted. *)
Theorem C55_hmf_partial : forall (F : Type) (m : hmesh F), hdf_mesh m -> 1 <= hm_dim m <= 3 -> distinct_types m ->
  Forall (fun b => In (btype b) (dkeys meshio_to_xdmf_type)) (hm_cells m) -> hm_cd m = [] \/ length (hm_cells m) = 1 ->
  exists bs pd cd, bind (write_hmf m) read_hmf = Ok (HMesh (hm_dim m) (hm_points m) bs pd cd) /\
    Permutation bs (hm_cells m) /\ (length (hm_cells m) <= 10 -> bs = hm_cells m) /\ Permutation pd (hm_pd m) /\ Permutation cd (hm_cd m).
Proof. intros F m. apply hmf_roundtrip. Qed.
Print Assumptions C55_hmf_partial.
Example C55_hmf_example :
  (hdf_mesh ex_mesh /\ distinct_types ex_mesh /\ Forall (fun b => In (btype b) (dkeys meshio_to_xdmf_type)) (hm_cells ex_mesh)) /\
  bind (write_hmf ex_mesh) read_hmf = Ok (HMesh 3 ex_points (hm_cells ex_mesh) (rev (hm_pd ex_mesh)) []) /\ bind (write_hmf ex_one) read_hmf = Ok ex_one.
Proof.
  split; [split; [exact ex_mesh_ok|split]|].
  - repeat constructor; cbn; intuition discriminate.
  - apply Forall_forall. intros b [<-|[<-|[]]]; apply smem_In; now vm_compute.
  - split; now vm_compute.
Qed.
(** Blocks of a type that the format does not know: the writer raises an error. *)
Theorem C55_hmf_error : forall (F : Type) (m : hmesh F),
  ~ Forall (fun b => In (btype b) (dkeys meshio_to_xdmf_type)) (hm_cells m) -> exists e, write_hmf m = Err e.
Proof. intros F m. apply hmf_unsupported. Qed.
Print Assumptions C55_hmf_error.
Example C55_hmf_error_example : write_hmf (HMesh 3 ex_points [Block "triangle" [[0; 1; 2]]%Z; Block "VTK_LAGRANGE_WEDGE" []] [] []) = Err KeyError.
Proof. now vm_compute. Qed.
(** C55 is false for HMF: only the last block of every type is there after reading. *)
Theorem C55_hmf_last_refuted :
  (forall (F : Type) (m : hmesh F), hdf_mesh m -> 1 <= hm_dim m <= 3 -> length (hm_cells m) <= 10 ->
    Forall (fun b => In (btype b) (dkeys meshio_to_xdmf_type)) (hm_cells m) -> hm_cd m = [] ->
    exists pd, bind (write_hmf m) read_hmf =
      Ok (HMesh (hm_dim m) (hm_points m) (map (fun t => Block t (last_block t (hm_cells m))) (first_occurrences (map btype (hm_cells m)))) pd []) /\
      Permutation pd (hm_pd m)) /\
  exists m m' : hmesh Z, hdf_mesh m /\ bind (write_hmf m) read_hmf = Ok m' /\
    exists c, In c (cells_of "triangle" (hm_cells m)) /\ ~ In c (cells_of "triangle" (hm_cells m')).
Proof.
  split; [intros F m; apply hmf_last|]. exists ex_twice. eexists. split; [|split; [vm_compute; reflexivity|]].
  - exact ex_twice_ok.
  - exists [0; 1; 2]%Z. cbn. split; [tauto|]. intuition discriminate.
Qed.
Print Assumptions C55_hmf_last_refuted.
(** Cell data of several blocks: a file that can be read at all has as many cells in every block but the last as there are letters
    in the name of its type. *)
Theorem C55_hmf_data_refuted :
  (forall (F : Type) (m : hmesh F) out, hdf_mesh m -> none_empty m -> 1 <= hm_dim m <= 3 -> distinct_types m -> length (hm_cells m) <= 10 ->
    Forall (fun b => In (btype b) (dkeys meshio_to_xdmf_type)) (hm_cells m) -> hm_cd m <> [] -> bind (write_hmf m) read_hmf = Ok out ->
    Forall (fun b => length (bdata b) = String.length (btype b)) (butlast (hm_cells m))) /\
  (exists f, write_hmf ex_cd = Ok f /\ read_hmf f = Err ValueError).
Proof. split; [intros F m out; apply hmf_data|]. eexists. split; vm_compute; reflexivity. Qed.
Print Assumptions C55_hmf_data_refuted.
Example C55_hmf_data_example : hdf_mesh ex_cd /\ none_empty ex_cd /\ distinct_types ex_cd /\
  (* blocks of four lines are cut correctly *)
  let m := HMesh 3 ex_points [Block "line" [[0; 1]; [1; 2]; [2; 3]; [3; 0]]%Z; Block "tetra" [[0; 1; 2; 3]]%Z] []
             [("u", [HReals (Nda [4] [1; 2; 3; 4]%Z); HReals (Nda [1] [5]%Z)])] in bind (write_hmf m) read_hmf = Ok m.
Proof.
  split; [|split; [|split]].
  - constructor; cbn [hm_dim hm_points hm_cells hm_pd hm_cd ex_cd map]; try solve [constructor].
    + repeat constructor.
    + constructor; [one_block 3|]. constructor; [one_block 4|constructor].
    + constructor; [split; [repeat split; discriminate|]|constructor]. constructor; [|constructor; [|constructor]]; exists []; split; reflexivity.
    + repeat constructor; cbn; intuition discriminate.
  - repeat split; try discriminate; cbn; try lia; repeat constructor; try discriminate.
  - repeat constructor; cbn; intuition discriminate.
  - now vm_compute.
Qed.
(** A name with a slash is written as a group: the file cannot be read. *)
Theorem C55_hmf_slash_refuted : exists (m : hmesh Z) f, write_hmf m = Ok f /\ read_hmf f = Err TypeError.
Proof.
  exists (HMesh 3 ex_points [Block "tetra" [[0; 1; 2; 3]]%Z] [("u/v", HReals (Nda [4] [1; 2; 3; 4]%Z))] []).
  eexists. split; vm_compute; reflexivity.
Qed.
Print Assumptions C55_hmf_slash_refuted.

(** ** CGNS *)
(** C55 for CGNS: the points and the tetrahedra come back if they form one block (data are not written). *)
Theorem C55_cgns_partial : forall (F : Type) (m : hmesh F) (b : block), hdf_mesh m -> hm_dim m = 3 ->
  filter (fun b => String.eqb (btype b) "tetra") (hm_cells m) = [b] -> bdata b <> [] -> Forall (fun c => length c = 4) (bdata b) ->
  bind (write_cgns m) read_cgns = Ok (HMesh 3 (hm_points m) [b] [] []).
Proof. intros F m b. apply cgns_roundtrip. Qed.
Print Assumptions C55_cgns_partial.
Example C55_cgns_example : hdf_mesh ex_mesh /\ bind (write_cgns ex_mesh) read_cgns = Ok (HMesh 3 ex_points [Block "tetra" [[0; 1; 2; 3]]%Z] [] []).
Proof. split; [exact ex_mesh_ok|now vm_compute]. Qed.
(** Several blocks of tetrahedra: the writer raises an error. *)
Theorem C55_cgns_several : forall (F : Type) (m : hmesh F), hm_dim m = 3 ->
  2 <= length (filter (fun b => String.eqb (btype b) "tetra") (hm_cells m)) -> write_cgns m = Err ValueError.
Proof.
  intros F m H3 H. fold (tetra_blocks m) in H. destruct (tetra_blocks m) as [|b1 [|b2 bs]] eqn:E; cbn in H; try lia. eapply cgns_several; eauto.
Qed.
Print Assumptions C55_cgns_several.
Example C55_cgns_several_example : write_cgns (HMesh 3 ex_points [Block "tetra" [[0; 1; 2; 3]]%Z; Block "tetra" [[3; 1; 2; 0]]%Z] [] []) = Err ValueError.
Proof. now vm_compute. Qed.
(** C55 is false for CGNS: other cells are left out without an error (first part, for every mesh with one block of tetrahedra), and a
    mesh without tetrahedra gives a file that cannot be read (second part, for every such mesh). *)
Theorem C55_cgns_refuted :
  (exists m m' : hmesh Z, hdf_mesh m /\ bind (write_cgns m) read_cgns = Ok m' /\
     exists c, In c (cells_of "triangle" (hm_cells m)) /\ cells_of "triangle" (hm_cells m') = []) /\
  (forall (F : Type) (m : hmesh F), hdf_mesh m -> hm_dim m = 3 -> filter (fun b => String.eqb (btype b) "tetra") (hm_cells m) = [] ->
     bind (write_cgns m) read_cgns = Err KeyError).
Proof.
  split.
  - exists ex_mesh. eexists. split; [exact ex_mesh_ok|split; [vm_compute; reflexivity|]]. exists [0; 1; 2]%Z. cbn. tauto.
  - intros F m. apply cgns_none.
Qed.
Print Assumptions C55_cgns_refuted.
Example C55_cgns_none_example : exists f, write_cgns ex_one = Ok f /\ read_cgns f = Err KeyError.
Proof. eexists. split; vm_compute; reflexivity. Qed.

(** ** H5M *)
Lemma supported_in_h5m b : supported b = in_h5m b.
Proof.
  unfold supported, in_h5m, dmem. cbn [dget meshio_to_h5m_type smem existsb h5m_types].
  destruct (String.eqb (btype b) "line"); [reflexivity|]. destruct (String.eqb (btype b) "triangle"); [reflexivity|]. now destruct (String.eqb (btype b) "tetra").
Qed.
Lemma filter_h5m bs : filter supported bs = filter in_h5m bs.
Proof. apply filter_ext. exact supported_in_h5m. Qed.
(** C63: without cell data and with one block each of lines, triangles and tetrahedra at most, the points, these blocks and the point data
    (with the numbers of the points, if they are asked for) come back; blocks of other types are left out. *)
Theorem C63_h5m : forall (F : Type) (ids : bool) (m : hmesh F), hdf_mesh m -> NoDup (map btype (filter in_h5m (hm_cells m))) -> hm_cd m = [] ->
  Forall (fun kv => length (hv_shape (snd kv)) <= 2) (hm_pd m) ->
  exists bs pd, bind (write_h5m ids m) read_h5m = Ok (HMesh (hm_dim m) (hm_points m) bs pd []) /\
    Permutation bs (filter in_h5m (hm_cells m)) /\ Permutation pd (with_ids ids m).
Proof. intros F ids m H1 H2. rewrite <- filter_h5m in H2 |- *. apply h5m_roundtrip; auto. Qed.
Print Assumptions C63_h5m.
Example C63_h5m_example : hdf_mesh ex_mesh /\ NoDup (map btype (filter in_h5m (hm_cells ex_mesh))) /\
  bind (write_h5m true ex_mesh) read_h5m =
    Ok (HMesh 3 ex_points (rev (hm_cells ex_mesh))
          [("GLOBAL_ID", HInts (Nda [4] [1; 2; 3; 4]%Z)); ("t", HInts (Nda [4] [0; 1; 1; 0]%Z)); ("u", HReals (Nda [4; 2] [1; 2; 3; 4; 5; 6; 7; 8]%Z))] []).
Proof. split; [exact ex_mesh_ok|split]; [repeat constructor; cbn; intuition discriminate|now vm_compute]. Qed.
(** Otherwise the writer raises an error: two blocks of one of the three types, or cell data of any kind. *)
Theorem C63_twice : forall (F : Type) (ids : bool) (m : hmesh F),
  ~ NoDup (map btype (filter in_h5m (hm_cells m))) -> exists e, write_h5m ids m = Err e.
Proof. intros F ids m. rewrite <- filter_h5m. apply h5m_twice. Qed.
Print Assumptions C63_twice.
Theorem C63_cell_data : forall (F : Type) (ids : bool) (m : hmesh F) name data,
  In (name, data) (hm_cd m) -> data <> [] -> exists e, write_h5m ids m = Err e.
Proof. intros F ids m name data H Hd. eapply h5m_cell_data; [exact H|exact Hd]. Qed.
Print Assumptions C63_cell_data.
Example C63_errors_example : write_h5m true ex_twice = Err ValueError /\ write_h5m true ex_cd = Err AttributeError.
Proof. split; now vm_compute. Qed.
