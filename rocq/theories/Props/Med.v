(** Properties C55 and C64: MED files. *)
From Coq Require Import Lia ZArith Permutation Sorting.Sorted.
From Verif.Lib Require Import Base Facts Facts2 Text Lines.
From Verif.Model Require Import Core Tables Abaqus Numpy Hdf5 Hdf Med.
From Verif.Spec Require Import Core Hdf Med.
From Verif.Proofs Require Import Numpy Hdf5 Hdf Med.
From Verif.Props Require Import Hdf.
Import Model.Numpy Model.Med Spec.Med.

(** ** A mesh for the examples: vectors at the points, vectors at the nodes of the triangles and a number for the tetrahedron under the same
    name, tags of points and cells, component names and families *)
Definition md_mesh : hmesh Z :=
  HMesh 3 ex_points [Block "triangle" [[0; 1; 2]; [1; 2; 3]]%Z; Block "tetra" [[0; 1; 2; 3]]%Z]
    [("u", HReals (Nda [4; 2] [1; 2; 3; 4; 5; 6; 7; 8]%Z)); ("point_tags", HInts (Nda [4] [0; 1; 1; 0]%Z))]
    [("v", [HReals (Nda [2; 3; 2] [1; 2; 3; 4; 5; 6; 7; 8; 9; 10; 11; 12]%Z); HReals (Nda [1; 1] [7]%Z)]);
     ("cell_tags", [HInts (Nda [2] [-3; -4]%Z); HInts (Nda [1] [-3]%Z)]); ("e", [HReals (Nda [2] [5; 6]%Z); HReals (Nda [1] [7]%Z)])].
Definition md : med_mesh Z :=
  MedMesh md_mesh (Some [["ux"; "uy"]; ["v1"; "v2"]; ["energy"]]) (Some [(1%Z, ["a"; "b c"])]) (Some [(-3, ["left"]); (-4, [])]%Z).
Lemma md_mesh_ok : hdf_mesh md_mesh.
Proof.
  constructor; cbn [hm_dim hm_points hm_cells hm_pd hm_cd md_mesh map].
  - repeat constructor.
  - constructor; [one_block 3|]. constructor; [one_block 4|constructor].
  - repeat constructor; try discriminate; [exists [2]|exists []]; split; reflexivity.
  - repeat constructor; cbn; intuition discriminate.
  - repeat constructor; try discriminate; [exists [3; 2]|exists [1]|exists []|exists []|exists []|exists []]; split; reflexivity.
  - repeat constructor; cbn; intuition discriminate.
Qed.
Lemma md_ok : med_ok md.
Proof.
  constructor; cbn [mm_mesh mm_nom md].
  - exact md_mesh_ok.
  - repeat constructor; cbn; intuition discriminate.
  - apply Forall_forall. intros b [<-|[<-|[]]]; (split; [apply smem_In; now vm_compute|discriminate]).
  - discriminate.
  - constructor; [right; cbn; lia|]. constructor; [now left|constructor].
  - constructor; [right|constructor; [now left|constructor; [right|constructor]]].
    + constructor; [right; exists 2, 3, 2; split; reflexivity|]. constructor; [left; cbn; lia|constructor].
    + constructor; [left; cbn; lia|]. constructor; [left; cbn; lia|constructor].
  - discriminate.
  - intros l [= <-] _. vm_compute. lia.
Qed.
Lemma md_families : families_ok (mm_point_tags md) /\ families_ok (mm_cell_tags md).
Proof.
  split; (split; [cbn; repeat constructor; cbn; intuition discriminate|]); repeat (constructor; cbn [snd]); cbn; try lia; try reflexivity.
Qed.
Definition md_back : med_mesh Z :=
  MedMesh (HMesh 3 ex_points [Block "tetra" [[0; 1; 2; 3]]%Z; Block "triangle" [[0; 1; 2]; [1; 2; 3]]%Z]
    [("point_tags", HInts (Nda [4] [0; 1; 1; 0]%Z)); ("u", HReals (Nda [4; 2] [1; 2; 3; 4; 5; 6; 7; 8]%Z))]
    [("cell_tags", [HInts (Nda [1] [-3]%Z); HInts (Nda [2] [-3; -4]%Z)]); ("e", [HReals (Nda [1] [7]%Z); HReals (Nda [2] [5; 6]%Z)]);
     ("v", [HReals (Nda [1] [7]%Z); HReals (Nda [2; 3; 2] [1; 2; 3; 4; 5; 6; 7; 8; 9; 10; 11; 12]%Z)])])
    (Some [["energy"]; ["ux"; "uy"]; ["v1"; "v2"]]) (Some [(1%Z, ["a"; "b c"])]) (Some [(-3, ["left"]); (-4, [])]%Z).

(** ** C55 for MED *)
(** The points and every block come back, the blocks in another order: for every mesh that can be written with one non-empty block of supported
    type each, and data in the shapes of med_ok.  Empty blocks: C55_med_empty_refuted. *)
Theorem C55_med_partial : forall (F : Type) (mm : med_mesh F),
  med_ok mm -> families_ok (mm_point_tags mm) -> families_ok (mm_cell_tags mm) ->
  exists out, bind (write_med mm) read_med = Ok out /\ hm_dim (mm_mesh out) = hm_dim (mm_mesh mm) /\
    hm_points (mm_mesh out) = hm_points (mm_mesh mm) /\ Permutation (hm_cells (mm_mesh out)) (hm_cells (mm_mesh mm)).
Proof.
  intros F mm H Hp Hc. destruct (med_roundtrip mm H Hp Hc) as (p & bs & pd & cd & names & pt & ct & E & P & Pb & _).
  eexists. split; [exact E|]. cbn [mm_mesh hm_dim hm_points hm_cells]. repeat split. eapply permuted; eauto.
Qed.
Print Assumptions C55_med_partial.
Example C55_med_example : (med_ok md /\ families_ok (mm_point_tags md) /\ families_ok (mm_cell_tags md)) /\ bind (write_med md) read_med = Ok md_back.
Proof. split; [split; [exact md_ok|exact md_families]|now vm_compute]. Qed.
(** Several blocks of a type, and types that the format does not know: the writer raises an error. *)
Theorem C55_med_twice : forall (F : Type) (mm : med_mesh F), ~ distinct_types (mm_mesh mm) -> write_med mm = Err WriteError.
Proof. intros F mm. apply med_twice. Qed.
Print Assumptions C55_med_twice.
Theorem C55_med_error : forall (F : Type) (mm : med_mesh F),
  ~ Forall (fun b => In (btype b) (dkeys meshio_to_med_type)) (hm_cells (mm_mesh mm)) -> exists e, write_med mm = Err e.
Proof. intros F mm. apply med_unsupported. Qed.
Print Assumptions C55_med_error.
Example C55_med_errors_example : ~ distinct_types ex_twice /\ write_med (MedMesh ex_twice None None None) = Err WriteError /\
  write_med (MedMesh (HMesh 3 ex_points [Block "triangle" [[0; 1; 2]]%Z; Block "VTK_LAGRANGE_WEDGE" []] [] []) None None None) = Err KeyError.
Proof.
  split; [|split; now vm_compute]. intros H. unfold distinct_types in H. cbn in H. inversion H as [|x l N _]; subst. apply N. cbn. tauto.
Qed.
(** C55 is false for MED: an empty block of cells gives a file that cannot be read. *)
Theorem C55_med_empty_refuted : exists (m : hmesh Z) f, hdf_mesh m /\ distinct_types m /\
  Forall (fun b => In (btype b) (dkeys meshio_to_med_type)) (hm_cells m) /\ write_med (MedMesh m None None None) = Ok f /\ read_med f = Err ValueError.
Proof.
  exists (HMesh 3 ex_points [Block "triangle" [[0; 1; 2]]%Z; Block "tetra" []] [] []). eexists. split; [|split; [|split; [|split; vm_compute; reflexivity]]].
  - constructor; cbn [hm_dim hm_points hm_cells hm_pd hm_cd map]; try solve [constructor].
    + repeat constructor.
    + constructor; [one_block 3|]. constructor; [one_block 4|constructor].
  - repeat constructor; cbn; intuition discriminate.
  - apply Forall_forall. intros b [<-|[<-|[]]]; apply smem_In; now vm_compute.
Qed.
Print Assumptions C55_med_empty_refuted.

(** ** C64 *)
(** The tags, the families, the data of the points and of the cells (in the order of the blocks read) come back; arrays with one number per
    entry have lost their second dimension.  The component names are those of the fields in the order of the names of the fields.
    Missing: data at integration points (C64_gauss_refuted), names with slashes. *)
Theorem C64_med_partial : forall (F : Type) (mm : med_mesh F),
  med_ok mm -> families_ok (mm_point_tags mm) -> families_ok (mm_cell_tags mm) ->
  (forall l, mm_nom mm = Some l -> Forall (Forall component) l) ->
  exists p bs pd cd names pt ct,
  bind (write_med mm) read_med = Ok (MedMesh (HMesh (hm_dim (mm_mesh mm)) (hm_points (mm_mesh mm)) bs pd cd)
    (match names with [] => None | _ => Some (map (nom_of mm) names) end) (Some pt) (Some ct)) /\
  Permutation p (seq 0 (length (hm_cells (mm_mesh mm)))) /\ permute p (hm_cells (mm_mesh mm)) = Some bs /\
  (forall k, dget k pd = option_map (fun v => if String.eqb k "point_tags" then v else squeezed v) (dget k (hm_pd (mm_mesh mm)))) /\
  (forall k, match dget k (hm_cd (mm_mesh mm)) with
             | None => dget k cd = None
             | Some data => exists data', permute p data = Some data' /\ dget k cd = Some (if String.eqb k "cell_tags" then data' else map squeezed data')
             end) /\
  NoDup (dkeys pd) /\ NoDup (dkeys cd) /\
  StronglySorted (fun a b => String.leb a b = true) names /\ NoDup names /\ (forall k, In k names <-> In k (fields_of (mm_mesh mm))) /\
  (forall id, zget id pt = family (mm_point_tags mm) id) /\ (forall id, zget id ct = family (mm_cell_tags mm) id).
Proof.
  intros F mm H Hp Hc Hn. destruct (med_roundtrip mm H Hp Hc) as (p & bs & pd & cd & names & pt & ct & E & R).
  exists p, bs, pd, cd, names, pt, ct. split; [|exact R]. rewrite E.
  assert (X : map (fun k => split_ws (nom_text (nom_of mm k))) names = map (nom_of mm) names); [|now rewrite X].
  apply map_ext. intros k. apply names_back. unfold nom_of. destruct (mm_nom mm) as [l|]; [|constructor]. specialize (Hn l eq_refl).
  destruct (dget k (combine (fields_of (mm_mesh mm)) l)) as [x|] eqn:Ex; [|constructor]. apply dget_In, in_combine_r in Ex. rewrite Forall_forall in Hn. now apply Hn.
Qed.
Print Assumptions C64_med_partial.
Example C64_med_example : forall l, mm_nom md = Some l -> Forall (Forall component) l.
Proof. intros l [= <-]. repeat constructor; cbn; lia. Qed.
(** C64 is false: data at integration points are left out without an error ... *)
Theorem C64_gauss_refuted : exists (m : hmesh Z) out, hdf_mesh m /\ distinct_types m /\ hm_cd m <> [] /\
  bind (write_med (MedMesh m None None None)) read_med = Ok out /\ hm_cd (mm_mesh out) = [].
Proof.
  exists (HMesh 3 ex_points [Block "triangle" [[0; 1; 2]]%Z] [] [("s", [HReals (Nda [1; 2; 1] [5; 6]%Z)])]). eexists.
  split; [|split; [|split; [|split; [vm_compute; reflexivity|reflexivity]]]].
  - constructor; cbn [hm_dim hm_points hm_cells hm_pd hm_cd map]; try solve [constructor].
    + repeat constructor.
    + constructor; [one_block 3|constructor].
    + constructor; [split; [repeat split; discriminate|]|constructor]. constructor; [|constructor]. exists [2; 1]. split; reflexivity.
    + repeat constructor; cbn; intuition discriminate.
  - repeat constructor; cbn; intuition discriminate.
  - discriminate.
Qed.
Print Assumptions C64_gauss_refuted.
(** ... component names of 16 characters come back glued together ... *)
Theorem C64_long_refuted : exists mm out : med_mesh Z, med_ok mm /\ bind (write_med mm) read_med = Ok out /\
  mm_nom mm = Some [["displacement_in_x"; "y"]] /\ mm_nom out = Some [["displacement_in_xy"]].
Proof.
  exists (MedMesh (HMesh 3 ex_points [Block "triangle" [[0; 1; 2]]%Z] [("u", HReals (Nda [4; 2] [1; 2; 3; 4; 5; 6; 7; 8]%Z))] [])
            (Some [["displacement_in_x"; "y"]]) None None). eexists. split; [|split; [vm_compute; reflexivity|split; reflexivity]].
  constructor; cbn [mm_mesh mm_nom].
  - constructor; cbn [hm_dim hm_points hm_cells hm_pd hm_cd map]; try solve [constructor].
    + repeat constructor.
    + constructor; [one_block 3|constructor].
    + constructor; [|constructor]. split; [repeat split; discriminate|]. exists [2]. split; reflexivity.
    + repeat constructor; cbn; intuition discriminate.
  - repeat constructor; cbn; intuition discriminate.
  - constructor; [|constructor]. split; [apply smem_In; now vm_compute|discriminate].
  - discriminate.
  - constructor; [right; cbn; lia|constructor].
  - constructor.
  - intros X. now contradiction X.
  - intros l [= <-] _. vm_compute. lia.
Qed.
Print Assumptions C64_long_refuted.
(** ... and writing a mesh that was read does not keep the component names: they were read in the order of the names of the fields, but
    are written as the names of the point data, then of the cell data.  Here those of e and u are exchanged; with a name that is used both
    for point data and cell data, the second writing fails. *)
Theorem C64_names_refuted :
  (exists out2, bind (write_med md_back) read_med = Ok out2 /\ hm_pd (mm_mesh out2) = hm_pd (mm_mesh md_back) /\
     mm_nom md_back = Some [["energy"]; ["ux"; "uy"]; ["v1"; "v2"]] /\ mm_nom out2 = Some [["ux"; "uy"]; ["energy"]; ["v1"; "v2"]]) /\
  (exists m out : med_mesh Z, med_ok m /\ bind (write_med m) read_med = Ok out /\ write_med out = Err IndexError).
Proof.
  split; [eexists; split; [vm_compute; reflexivity|repeat split]|].
  exists (MedMesh (HMesh 3 ex_points [Block "triangle" [[0; 1; 2]]%Z] [("u", HReals (Nda [4] [1; 2; 3; 4]%Z))] [("u", [HReals (Nda [1] [7]%Z)])])
            (Some [["a"]; ["b"]]) None None). eexists. split; [|split; [vm_compute; reflexivity|now vm_compute]].
  constructor; cbn [mm_mesh mm_nom].
  - constructor; cbn [hm_dim hm_points hm_cells hm_pd hm_cd map]; try solve [constructor].
    + repeat constructor.
    + constructor; [one_block 3|constructor].
    + constructor; [|constructor]. split; [repeat split; discriminate|]. exists []. split; reflexivity.
    + repeat constructor; cbn; intuition discriminate.
    + constructor; [split; [repeat split; discriminate|]|constructor]. constructor; [|constructor]. exists []. split; reflexivity.
    + repeat constructor; cbn; intuition discriminate.
  - repeat constructor; cbn; intuition discriminate.
  - constructor; [|constructor]. split; [apply smem_In; now vm_compute|discriminate].
  - discriminate.
  - constructor; [right; cbn; lia|constructor].
  - constructor; [|constructor]. right. constructor; [left; cbn; lia|constructor].
  - discriminate.
  - intros l [= <-] _. vm_compute. lia.
Qed.
Print Assumptions C64_names_refuted.
