(** C35 to C37: TetGen, UGRID and SU2. *)
From Verif.Lib Require Import Base Facts Text Lines LinesFacts Bytes File.
From Verif.Model Require Import Core Tetgen Ugrid Su2.
From Verif.Spec Require Import Core Volume.
From Verif.Proofs Require Import Tetgen Ugrid UgridSpec Su2.
From Coq Require Import Permutation ZifyBool ZifyNat.

(** ** C35 *)

(** Numbers: printing and parsing are inverse, for the format of the coordinates ([ffmt]) and
    for the one of the markers ([mfmt]); a printed integer is read as the number of this
    integer ([ofi]), and zero is the integer zero ([toi]). *)
Definition tetgen_numbers (fl : floats) (mfmt : fl -> string) (ofi : Z -> fl) (toi : fl -> Z) (feqb : fl -> fl -> bool) : Prop :=
  floats_ok fl /\ (forall v, word (mfmt v) = true /\ fparse (mfmt v) = Some v) /\
  (forall k, fparse (str_of_Z k) = Some (ofi k)) /\ toi (ofi 0%Z) = 0%Z /\ (forall v, feqb v v = true).

(** One block of tetrahedra, in front of the other blocks, and data under the names of the reader:
    points, tetrahedra, attributes and markers are read back as they were.  [rest] are cells
    TetGen cannot hold. *)
Theorem C35_roundtrip_partial (fl : floats) mfmt ofi toi feqb version
    (pts : list (list fl)) rows rest attrs marker (cols : list (list Z)) pd :
  tetgen_numbers fl mfmt ofi toi feqb ->
  pts <> [] -> Forall (fun p => length p = 3) pts ->
  Forall (fun c => length c = 4) rows -> Forall (fun b => btype b <> "tetra") rest ->
  (pd = [] \/
   pd = named tetgen_attr attrs ++ [("tetgen:ref", marker)] /\
   Forall (fun c => length c = length pts) attrs /\ length marker = length pts) ->
  Forall (fun c => length c = length rows) cols ->
  exists files,
    write_tetgen mfmt version (TetMesh pts (Block "tetra" rows :: rest) pd (named tetgen_ref (map (fun c => [c]) cols))) = Ok files /\
    read_tetgen ofi toi feqb files =
      Ok (TetMesh pts [Block "tetra" rows] pd (named tetgen_ref (map (fun c => [c]) cols))).
Proof.
  intros (Hf & Hm & Hi & Ht & Hq) Hne Hp Hr Hrest Hpd Hc. 
  now apply (tetgen_roundtrip mfmt ofi toi feqb) with (attrs := attrs) (marker := marker).
Qed.
Print Assumptions C35_roundtrip_partial.

(** Data under any names: every array is read back, one under the name of the marker. *)
Theorem C35_arrays_partial (fl : floats) mfmt ofi toi feqb version
    (pts : list (list fl)) rows rest (pd : dict (list fl)) (cd : dict (list (list Z))) :
  tetgen_numbers fl mfmt ofi toi feqb ->
  pts <> [] -> Forall (fun p => length p = 3) pts ->
  Forall (fun c => length c = 4) rows -> Forall (fun b => btype b <> "tetra") rest ->
  NoDup (map fst pd) -> Forall (fun kv => length (snd kv) = length pts) pd ->
  NoDup (map fst cd) -> Forall (fun kv => exists col more, snd kv = col :: more /\ length col = length rows) cd ->
  exists files pd' cd' attrs markers refs,
    write_tetgen mfmt version (TetMesh pts (Block "tetra" rows :: rest) pd cd) = Ok files /\
    read_tetgen ofi toi feqb files = Ok (TetMesh pts [Block "tetra" rows] pd' cd') /\
    pd' = named tetgen_attr attrs ++ named tetgen_ref markers /\
    Permutation (attrs ++ markers) (map snd pd) /\ length markers = Nat.min 1 (length pd) /\
    cd' = named tetgen_ref refs /\ Permutation refs (map (fun kv => [hd [] (snd kv)]) cd).
Proof.
  intros (Hf & Hm & Hi & Ht & Hq) Hne Hp Hr Hrest Hpd Hl Hcd Hc.
  apply (tetgen_arrays mfmt ofi toi feqb); auto.
Qed.
Print Assumptions C35_arrays_partial.

Definition ex_tet : tet_mesh Z :=
  TetMesh [[0; 0; 0]; [1; 0; 0]; [0; 1; 0]; [0; 0; 1]; [5; -6; 7]]%Z
    [Block "tetra" [[0; 1; 2; 3]; [1; 2; 3; 4]]; Block "line" [[0; 1]]]%Z
    [("tetgen:attr1", [10; 20; 30; 40; 50]); ("tetgen:attr2", [1; 2; 3; 4; 5]); ("tetgen:ref", [0; 0; 1; 1; 7])]%Z
    [("tetgen:ref", [[8; 9]]); ("tetgen:ref2", [[-1; -2]])]%Z.
Example C35_instance :
  tetgen_numbers int_floats str_of_Z (fun z => z) (fun z => z) Z.eqb /\
  (do f <- @write_tetgen int_floats str_of_Z "5" ex_tet; @read_tetgen int_floats (fun z => z) (fun z => z) Z.eqb f) =
    Ok (TetMesh (tm_points ex_tet) [Block "tetra" [[0; 1; 2; 3]; [1; 2; 3; 4]]%Z] (tm_point_data ex_tet) (tm_cell_data ex_tet)) /\
  tm_point_data ex_tet =
    named tetgen_attr [[10; 20; 30; 40; 50]; [1; 2; 3; 4; 5]]%Z ++ [("tetgen:ref", [0; 0; 1; 1; 7]%Z)] /\
  tm_cell_data ex_tet = named tetgen_ref (map (fun c => [c]) [[8; 9]; [-1; -2]]%Z).
Proof.
  assert (P : forall z, @fparse int_floats (str_of_Z z) = Some z) by (intros; apply TextFacts.parse_Z_str_of_Z).
  split; [|repeat split; now vm_compute].
  split; [intros v; split; [apply TextFacts.word_str_of_Z|apply P]|].
  split; [intros v; split; [apply TextFacts.word_str_of_Z|apply P]|]. split; [apply P|]. split; [reflexivity|apply Z.eqb_refl].
Qed.

(** The full claim is false.  Only the first block of tetrahedra is read. *)
Definition tetgen_back (m : tet_mesh Z) : result (tet_mesh Z) :=
  do f <- @write_tetgen int_floats str_of_Z "5" m; @read_tetgen int_floats (fun z => z) (fun z => z) Z.eqb f.
Theorem C35_two_blocks_refuted :
  ~ (forall m r, tetgen_back m = Ok r -> cells_of "tetra" (tm_cells r) = cells_of "tetra" (tm_cells m)).
Proof.
  intros H. specialize (H (TetMesh (tm_points ex_tet) [Block "tetra" [[0; 1; 2; 3]]; Block "tetra" [[1; 2; 3; 4]]]%Z [] [])
    (TetMesh (tm_points ex_tet) [Block "tetra" [[0; 1; 2; 3]]]%Z [] []) ltac:(now vm_compute)).
  vm_compute in H. discriminate.
Qed.
Print Assumptions C35_two_blocks_refuted.
(** With another block in front the tetrahedra get the data of that block. *)
Theorem C35_order_refuted :
  ~ (forall pts rows tri a b r,
       tetgen_back (TetMesh pts [Block "triangle" tri; Block "tetra" rows] [] [("tetgen:ref", [a; b])]) = Ok r ->
       dget "tetgen:ref" (tm_cell_data r) = Some [b]).
Proof.
  intros H. specialize (H (tm_points ex_tet) [[1; 2; 3; 4]]%Z [[0; 1; 2]]%Z [5]%Z [6]%Z
    (TetMesh (tm_points ex_tet) [Block "tetra" [[1; 2; 3; 4]]]%Z [] [("tetgen:ref", [[5]])]%Z) ltac:(now vm_compute)).
  vm_compute in H. discriminate.
Qed.
Print Assumptions C35_order_refuted.
(** A mesh without points is written but cannot be read. *)
Theorem C35_no_points_refuted :
  ~ (forall m f, @write_tetgen int_floats str_of_Z "5" m = Ok f ->
       exists r, @read_tetgen int_floats (fun z => z) (fun z => z) Z.eqb f = Ok r).
Proof.
  intros H. specialize (H (TetMesh [] [Block "tetra" []] [] []) (["# This file was created by meshio v5"; "0 3 0 0"],
    ["# This file was created by meshio v5"; "0 4 0"]) ltac:(now vm_compute)). destruct H as [r H]. vm_compute in H. discriminate.
Qed.
Print Assumptions C35_no_points_refuted.

(** Files with any index base: the points and the tetrahedra, counted from zero. *)
Theorem C35_base (fl : floats) mfmt ofi toi feqb base (pts : list (list fl)) rows :
  tetgen_numbers fl mfmt ofi toi feqb -> toi (ofi base) = base ->
  pts <> [] -> Forall (fun p => length p = 3) pts -> Forall (fun c => length c = 4) rows ->
  read_tetgen ofi toi feqb
    (row_line (map str_of_Z [Z.of_nat (length pts); 3; 0; 0]%Z) ::
       map (fun kp => row_line (str_of_Z (base + Z.of_nat (fst kp)) :: map ffmt (snd kp))) (enumerate pts),
     row_line (map str_of_Z [Z.of_nat (length rows); 4; 0]%Z) ::
       map (fun kc => row_line (map str_of_Z (base + Z.of_nat (fst kc) :: map (fun i => i + base) (snd kc))%Z)) (enumerate rows)) =
  Ok (TetMesh pts [Block "tetra" rows] [] []).
Proof. intros (Hf & Hm & Hi & Ht & Hq) Hb Hne Hp Hr. now apply tetgen_base. Qed.
Print Assumptions C35_base.
Example C35_base_instance :
  @read_tetgen int_floats (fun z => z) (fun z => z) Z.eqb
    (["# one-based"; "4 3 0 0"; "1 0 0 0"; "2 5 0 0"; "3 0 5 0"; "4 0 0 5"], ["1 4 0"; "1 1 2 4 3"]) =
  Ok (TetMesh [[0; 0; 0]; [5; 0; 0]; [0; 5; 0]; [0; 0; 5]]%Z [Block "tetra" [[0; 1; 3; 2]]%Z] [] []).
Proof. now vm_compute. Qed.

(** ** C36 *)

(** The kind of file by its name, x.lb8.ugrid and so on: None is ASCII, Some true has Fortran records;
    then big endian, bytes of an integer, bytes of a float. *)
Theorem C36_file_types pre ext t :
  In (ext, t) [("ascii", (None, false, 4, 4));
    ("b8l", (Some false, true, 8, 8)); ("b8", (Some false, true, 4, 8)); ("b4", (Some false, true, 4, 4));
    ("lb8l", (Some false, false, 8, 8)); ("lb8", (Some false, false, 4, 8)); ("lb4", (Some false, false, 4, 4));
    ("r8", (Some true, true, 4, 8)); ("r4", (Some true, true, 4, 4));
    ("lr8", (Some true, false, 4, 8)); ("lr4", (Some true, false, 4, 4))] ->
  determine_file_type (pre ++ "." ++ ext ++ ".ugrid")%string = t.
Proof. apply file_type. Qed.
Print Assumptions C36_file_types.
(** Every other name means ASCII, like x.ugrid. *)
Theorem C36_file_types_default pre : char_in "." pre = false -> dget pre ugrid_file_types = None ->
  determine_file_type (pre ++ ".ugrid")%string = (None, false, 4, 4).
Proof. apply file_type_default. Qed.
Print Assumptions C36_file_types_default.
Example C36_file_types_instance :
  determine_file_type "some.dir/my.mesh.lb8.ugrid" = (Some false, false, 4, 8) /\ determine_file_type "mesh.ugrid" = (None, false, 4, 4).
Proof. split; reflexivity. Qed.


(** The meshes of the claim: points in space, cells of the right width with valid indices, at
    most one block of every UGRID type. *)
Definition ugrid_mesh_ok {F} (m : ugrid_mesh F) : Prop :=
  Forall (fun p => length p = 3) (ug_points m) /\
  Forall (fun b => btype b <> "points") (ug_cells m) /\
  Forall (fun t => length (filter (fun b => String.eqb (btype b) (fst t)) (ug_cells m)) <= 1 /\
                   Forall (fun c => length c = snd t /\ Forall (fun i => 0 <= i < Z.of_nat (length (ug_points m)))%Z c)
                     (cells_of (fst t) (ug_cells m)))
    (ugrid_surface ++ ugrid_volume).
(** None of the cell data arrays is of integer type, or there are no triangles and quads. *)
Definition ugrid_plain {F} (m : ugrid_mesh F) : Prop :=
  Forall (fun k => snd k = false) (ug_kinds m) \/
  (cells_of "triangle" (ug_cells m) = [] /\ cells_of "quad" (ug_cells m) = []).
(** What is read back: the points, one block per type with cells, in the order of the file, and
    the boundary tag 1 for surface cells, 0 for volume cells. *)
Definition ugrid_result {F} (m : ugrid_mesh F) : list (list F) * list block * list (list Z) :=
  let R t := cells_of t (ug_cells m) in
  (ug_points m, blocks_for ugrid_surface R ++ blocks_for ugrid_volume R,
   labelled 1 (blocks_for ugrid_surface R) ++ labelled 0 (blocks_for ugrid_volume R)).

(** Binary files, C and Fortran style ([fortran]), both byte orders, integers of [w] bytes and floats
    of [fw] bytes.  The counts must fit the integer type. *)
Theorem C36_binary_partial {F} (fortran big : bool) (w fw : nat) (fc : codec F) mem (m : ugrid_mesh F) :
  0 < w -> 0 < fw -> codec_width fc fw -> Forall (Forall (exact fc)) (ug_points m) ->
  ugrid_mesh_ok m -> ugrid_plain m ->
  (Z.of_nat (length (ug_points m)) < 2 ^ (8 * Z.of_nat w - 1))%Z ->
  Forall (fun t => Z.of_nat (length (cells_of (fst t) (ug_cells m))) < 2 ^ (8 * Z.of_nat w - 1))%Z (ugrid_surface ++ ugrid_volume) ->
  exists b, write_ugrid_binary fortran mem big w fc m = Ok b /\
            read_ugrid_binary fortran big w fw fc b = Ok (ugrid_result m).
Proof. intros. now apply ugrid_binary_ok. Qed.
Print Assumptions C36_binary_partial.

(** ASCII files.  The reader has single precision: [reads_back] holds of the coordinates whose
    printed form is read as the same number. *)
Theorem C36_ascii_partial (fl : floats) (m : ugrid_mesh fl) :
  Forall (Forall (fun v => word (ffmt v) = true /\ fparse (ffmt v) = Some v)) (ug_points m) ->
  ugrid_mesh_ok m -> ugrid_plain m ->
  exists ls, write_ugrid_ascii m = Ok ls /\ read_ugrid_ascii ls = Ok (ugrid_result m).
Proof. intros. now apply ugrid_ascii_ok. Qed.
Print Assumptions C36_ascii_partial.

(** The cells per type are the ones written. *)
Theorem C36_same_cells {F} (m : ugrid_mesh F) t :
  In t ["triangle"; "quad"; "tetra"; "pyramid"; "wedge"; "hexahedron"] ->
  cells_of t (snd (fst (ugrid_result m))) = cells_of t (ug_cells m).
Proof. apply ugrid_result_cells. Qed.
Print Assumptions C36_same_cells.

(** More than one block of a type is refused, unless the first one is empty. *)
Theorem C36_repeated_type {F} fortran mem (m : ugrid_mesh F) bs1 b1 bs2 b2 bs3 :
  ug_cells m = bs1 ++ b1 :: bs2 ++ b2 :: bs3 ->
  In (btype b1) ["triangle"; "quad"; "tetra"; "pyramid"; "wedge"; "hexahedron"] ->
  btype b2 = btype b1 -> bdata b1 <> [] -> write_ugrid fortran mem m = Err ValueError.
Proof. apply ugrid_repeated. Qed.
Print Assumptions C36_repeated_type.

Definition ex_ug : ugrid_mesh Z :=
  UgridMesh [[0; 0; 0]; [1; 0; 0]; [0; 1; 0]; [0; 0; 1]; [5; -6; 7]; [2; 2; 2]]%Z
    [Block "pyramid" [[0; 1; 2; 3; 4]; [5; 4; 3; 2; 1]]; Block "triangle" [[3; 4; 5]]; Block "line" [[0; 1]];
     Block "wedge" [[5; 4; 3; 2; 1; 0]]; Block "quad" []]%Z [("a", false)].
Example C36_instance :
  ugrid_mesh_ok ex_ug /\ ugrid_plain ex_ug /\
  (do b <- write_ugrid_binary true (fun _ => 1000%Z) true 4 (int_codec 8) ex_ug;
   read_ugrid_binary true true 4 8 (int_codec 8) b) = Ok (ugrid_result ex_ug) /\
  (do b <- @write_ugrid_ascii int_floats ex_ug; @read_ugrid_ascii int_floats b) = Ok (ugrid_result ex_ug) /\
  ugrid_result ex_ug =
    (ug_points ex_ug,
     [Block "triangle" [[3; 4; 5]]; Block "pyramid" [[0; 1; 2; 3; 4]; [5; 4; 3; 2; 1]]; Block "wedge" [[5; 4; 3; 2; 1; 0]]],
     [[1]; [0; 0]; [0]])%Z.
Proof.
  split; [split; [|split]; repeat constructor; cbn; try discriminate; lia|].
  split; [left; repeat constructor|]. repeat split; now vm_compute.
Qed.

(** The full claim is false: with integer cell data and surface cells nothing can be written. *)
Theorem C36_integer_data_refuted :
  ~ (forall (m : ugrid_mesh Z), ugrid_mesh_ok m ->
       exists ls, @write_ugrid_ascii int_floats m = Ok ls).
Proof.
  intros H. specialize (H (UgridMesh [[0; 0; 0]]%Z [Block "triangle" [[0; 0; 0]]]%Z [("ugrid:ref", true)])).
  destruct H as [ls H]; [|vm_compute in H; discriminate].
  split; [|split]; repeat constructor; cbn; try discriminate; lia.
Qed.
Print Assumptions C36_integer_data_refuted.

(** ** C37 *)

(** Every well-formed SU2 file, with or without running numbers in the element lines: the points are
    read back, every type has its cells with their tags in the order of the file (elements have the
    tag 0), and boundary cells do not share a type with elements or come in several blocks. *)
Theorem C37_read (fl : floats) dim extra (pts : list (list fl)) elems markers :
  floats_ok fl -> dim = 2 \/ dim = 3 -> pts <> [] -> Forall (fun p => length p = dim) pts ->
  Forall su2_cell elems -> elems <> [] -> Forall (fun m => label_ok (fst m) /\ Forall su2_cell (snd m) /\ snd m <> []) markers ->
  exists blocks tags, read_su2 (su2_file dim extra pts elems markers) = Ok (pts, blocks, tags) /\
    Forall2 (fun b tg => length tg = blen b) blocks tags /\
    (forall t, tagged_blocks t blocks tags = tagged_type t (su2_tagged elems markers)) /\
    (Forall (fun tc => ~ In (fst tc) (boundary_types dim)) elems ->
     Forall (fun m => Forall (fun tc => In (fst tc) (boundary_types dim)) (snd m)) markers -> NoDup (map btype blocks)).
Proof. intros fok. now apply su2_read. Qed.
Print Assumptions C37_read.

(** What the writer does on every mesh: the inner cells in their order (other cells are left out),
    or TypeError when there are boundary cells. *)
Theorem C37_write (fl : floats) dim (pts : list (list fl)) cells :
  Forall (fun tc => In (fst tc) (internal_types dim) -> su2_cell tc) (all_cells cells) ->
  write_su2 dim pts cells =
  if existsb (fun tc => smem (fst tc) (boundary_types dim)) (all_cells cells) then Err TypeError
  else Ok (su2_file dim false pts (filter (fun tc => smem (fst tc) (internal_types dim)) (all_cells cells)) []).
Proof. apply su2_write. Qed.
Print Assumptions C37_write.

(** Meshes of inner cells: every type is read back with its cells in their order, tagged 0. *)
Theorem C37_roundtrip_partial (fl : floats) dim (pts : list (list fl)) cells :
  floats_ok fl -> dim = 2 \/ dim = 3 -> pts <> [] -> Forall (fun p => length p = dim) pts ->
  Forall (fun tc => In (fst tc) (internal_types dim) /\ su2_cell tc) (all_cells cells) -> all_cells cells <> [] ->
  exists file blocks tags, write_su2 dim pts cells = Ok file /\ read_su2 file = Ok (pts, blocks, tags) /\
    NoDup (map btype blocks) /\
    forall t, tagged_blocks t blocks tags = map (fun c => (c, 0%Z)) (cells_of t cells).
Proof. intros fok. now apply su2_roundtrip. Qed.
Print Assumptions C37_roundtrip_partial.

Definition ex_su2 : list block :=
  [Block "tetra" [[0; 1; 2; 3]]; Block "wedge" [[0; 1; 2; 3; 4; 5]]; Block "tetra" [[5; 4; 3; 2]; [1; 2; 3; 4]]]%Z.
Example C37_instance :
  (do f <- @write_su2 int_floats 3 [[0; 0; 0]; [1; -2; 3]]%Z ex_su2; @read_su2 int_floats f) =
  Ok ([[0; 0; 0]; [1; -2; 3]], [Block "tetra" [[0; 1; 2; 3]; [5; 4; 3; 2]; [1; 2; 3; 4]]; Block "wedge" [[0; 1; 2; 3; 4; 5]]],
      [[0; 0; 0]; [0]])%Z.
Proof. now vm_compute. Qed.
Example C37_marker_instance :
  @read_su2 int_floats (@su2_file int_floats 2 true [[0; 0]; [1; 0]; [0; 1]; [1; 1]]%Z
     [("quad", [0; 1; 3; 2]); ("triangle", [0; 1; 2]); ("quad", [3; 2; 1; 0])]%Z
     [(Tag 7, [("line", [0; 1])]); (Tag (-2), [("line", [1; 3])]); (Name "wall", [("line", [3; 2])])]%Z) =
  Ok ([[0; 0]; [1; 0]; [0; 1]; [1; 1]],
      [Block "triangle" [[0; 1; 2]]; Block "quad" [[0; 1; 3; 2]; [3; 2; 1; 0]]; Block "line" [[0; 1]; [1; 3]; [3; 2]]],
      [[0]; [0; 0]; [7; -2; -1]])%Z.
Proof. now vm_compute. Qed.

(** The full claim is false: a mesh with boundary cells cannot be written, and one without inner
    cells is written but not read. *)
Theorem C37_boundary_refuted :
  ~ (forall (cells : list block), Forall su2_cell (all_cells cells) -> exists f, @write_su2 int_floats 2 [[0; 0]; [1; 0]]%Z cells = Ok f).
Proof.
  intros H. destruct (H [Block "line" [[0; 1]]]%Z) as [f E]; [|vm_compute in E; discriminate].
  constructor; [|constructor]. exists 3%Z. cbn. auto.
Qed.
Print Assumptions C37_boundary_refuted.
Theorem C37_empty_refuted :
  ~ (forall f, @write_su2 int_floats 2 [[0; 0]; [1; 0]]%Z [] = Ok f -> exists r, @read_su2 int_floats f = Ok r).
Proof.
  intros H. destruct (H _ eq_refl) as [r E]. vm_compute in E. discriminate.
Qed.
Print Assumptions C37_empty_refuted.
