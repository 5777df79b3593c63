(** Whole legacy VTK files (C67, C68, C69). *)
From Coq Require Import ZArith NArith List String Ascii Bool Lia.
From Verif.Lib Require Import Base Text TextFacts Lines LinesFacts Bytes BytesFacts File.
From Verif.Model Require Import Core Vtk VtkFile.
From Verif.Spec Require Import Core Blocks Vtk VtkFile.
From Verif.Proofs Require Import Vtk VtkPort VtkFile VtkGrid.
Import ListNotations.
Import Model.VtkFile Spec.VtkFile.

(** C67: a mesh of cells with a fixed number of nodes survives writing and reading a file of version 4.2.
    [vtk_image true m] has the points and vectors in three dimensions, neighbouring cells of one type in one block, and the
    data of every point and cell.  Partial: names without blanks, scalars and vectors, at least one entry in a data array,
    indices of 32 bits; dtypes of the table; field data is not written. *)
Theorem C67_ascii_partial {V} (nk : nums V) fits m ver :
  ascii_nums nk fits -> vtk_mesh nk fits false m -> Forall fixed_block (vm_cells m) -> one_line ("written by meshio v" ++ ver)%string ->
  exists s, write_vtk nk (vascii nk) false ver m = Ok s /\ read_vtk nk (vascii nk) s = Ok (vtk_image nk true m).
Proof. intros Hn. exact (vtk42_file nk (vascii nk) fits _ _ (vascii_ok nk fits Hn) m ver). Qed.
Print Assumptions C67_ascii_partial.

Theorem C67_binary_partial {V} (nk : nums V) fits m ver :
  binary_nums nk fits -> vtk_mesh nk fits false m -> Forall fixed_block (vm_cells m) -> one_line ("written by meshio v" ++ ver)%string ->
  exists s, write_vtk nk (vbinary nk) false ver m = Ok s /\ read_vtk nk (vbinary nk) s = Ok (vtk_image nk true m).
Proof. intros Hn. exact (vtk42_file nk (vbinary nk) fits _ _ (vbinary_ok nk fits Hn) m ver). Qed.
Print Assumptions C67_binary_partial.

(** If one cell is a polygon, points, cells and point data survive, and all cell data is lost. *)
Theorem C67_polygons_refuted {V} (nk : nums V) fits m ver :
  ascii_nums nk fits -> vtk_mesh nk fits false m -> Forall (fun b => fixed_block b \/ varying_block b) (vm_cells m) ->
  (exists c, In ("polygon", c) (all_cells (vm_cells m))) -> one_line ("written by meshio v" ++ ver)%string ->
  exists s, write_vtk nk (vascii nk) false ver m = Ok s /\ read_vtk nk (vascii nk) s = Ok (vtk_image nk false m).
Proof. intros Hn. exact (vtk42_polygon_file nk (vascii nk) fits _ _ (vascii_ok nk fits Hn) m ver). Qed.
Print Assumptions C67_polygons_refuted.
Theorem C67_binary_polygons_refuted {V} (nk : nums V) fits m ver :
  binary_nums nk fits -> vtk_mesh nk fits false m -> Forall (fun b => fixed_block b \/ varying_block b) (vm_cells m) ->
  (exists c, In ("polygon", c) (all_cells (vm_cells m))) -> one_line ("written by meshio v" ++ ver)%string ->
  exists s, write_vtk nk (vbinary nk) false ver m = Ok s /\ read_vtk nk (vbinary nk) s = Ok (vtk_image nk false m).
Proof. intros Hn. exact (vtk42_polygon_file nk (vbinary nk) fits _ _ (vbinary_ok nk fits Hn) m ver). Qed.
Print Assumptions C67_binary_polygons_refuted.

(** A blank in the name of a data array: nothing is written, in both versions and modes. *)
Theorem C67_blank_name {V} (nk : nums V) p v51 ver m name :
  In name (dkeys (vm_pdata m) ++ dkeys (vm_cdata m)) -> char_in " " name = true ->
  exists e, write_vtk nk p v51 ver m = Err e.
Proof. exact (blank_name_refused nk p v51 ver m name). Qed.
Print Assumptions C67_blank_name.

(** The sizes in bytes of the numbers of a binary file *)
Theorem C67_item_sizes dt w : In (dt, w)
    [("int8", 1); ("uint8", 1); ("int16", 2); ("uint16", 2); ("int32", 4); ("uint32", 4); ("int64", 8); ("uint64", 8);
     ("float32", 4); ("float64", 8)]%string -> width_of dt = w.
Proof. cbn [In]. intros H. repeat (destruct H as [H|H]; [injection H as <- <-; reflexivity|]). destruct H. Qed.
Print Assumptions C67_item_sizes.

(** Numbers that are integers: printed in decimal, stored in two's complement. *)
Definition int_nums : nums Z :=
  Nums Z (fun dt v => if String.eqb dt "bool" then (if Z.eqb v 0 then "False" else "True") else str_of_Z v)%string
    (fun dt t => if String.eqb dt "bool" then None else parse_Z t)
    (fun dt => Codec (sint_bytes true (width_of dt)) (sint_value true)) 0%Z
    (fun o s n => map (fun k => o + s * Z.of_nat k)%Z (seq 0 n)).
Definition int_fits (dt : string) (v : Z) : Prop := dt <> "bool"%string /\ (- 2 ^ 7 <= v < 2 ^ 7)%Z.
Lemma int_ascii : ascii_nums int_nums int_fits.
Proof.
  intros dt v (Hb & _). unfold int_nums. cbn [n_fmt n_parse]. replace (String.eqb dt "bool") with false by (symmetry; now apply String.eqb_neq).
  split; [apply word_str_of_Z|apply parse_Z_str_of_Z].
Qed.
Definition m1 : vmesh Z := VMesh "float64" [[0; 0]; [1; 0]; [0; 1]; [5; 6]]%Z
  [Block "triangle" [[0; 1; 2]]%Z; Block "wedge" [[0; 1; 2; 3; 0; 1]]%Z; Block "wedge" [[0; 1; 2; 3; 3; 3]]%Z]
  [("a", VArr "int32" [] [[1]; [2]; [3]; [4]]%Z); ("v", VArr "float32" [2] [[1; 1]; [2; 1]; [3; 1]; [-4; 1]]%Z)]%string
  [("c", VCd "int64" [1] [[[7]]; [[8]]; [[10]]]%Z)]%string [].
Lemma m1_ok v51 : vtk_mesh int_nums int_fits v51 m1.
Proof.
  assert (N : forall s, word s = true -> String.eqb s "METADATA" = false -> name_ok s) by (intros s A B; split; [exact A|now apply String.eqb_neq]).
  constructor.
  - destruct v51; cbv; tauto.
  - split; [left; repeat constructor|]. repeat (apply Forall_cons || apply Forall_nil); (split; [discriminate|cbn; lia]).
  - intros dt v (A & B). split; [exact A|cbn; lia].
  - repeat (apply Forall_cons || apply Forall_nil); unfold index_fits; destruct v51; cbn; lia.
  - repeat (apply Forall_cons || apply Forall_nil); unfold index_fits; destruct v51; cbn; lia.
  - unfold index_fits; cbn; lia.
  - repeat (apply Forall_cons || apply Forall_nil); (split; [apply N; reflexivity|split; [|reflexivity]]); unfold array_ok; cbn [snd va_dtype va_tail va_rows].
    + split; [destruct v51; cbv; tauto|]. split; [now left|]. repeat (apply Forall_cons || apply Forall_nil); (split; [reflexivity|]); (repeat (apply Forall_cons || apply Forall_nil); (split; [discriminate|cbn; lia])).
    + split; [destruct v51; cbv; tauto|]. split; [right; now exists 1|]. repeat (apply Forall_cons || apply Forall_nil); (split; [reflexivity|]); (repeat (apply Forall_cons || apply Forall_nil); (split; [discriminate|cbn; lia])).
  - cbn. repeat constructor; cbn; intuition discriminate.
  - discriminate.
  - apply Forall_cons; [|apply Forall_nil]. split; [apply N; reflexivity|]. split; [|reflexivity]. split; [destruct v51; cbv; tauto|]. split; [right; now exists 0|].
    cbn [concat app vc_rows vc_tail snd m1]. repeat (apply Forall_cons || apply Forall_nil); (split; [reflexivity|]); (repeat (apply Forall_cons || apply Forall_nil); (split; [discriminate|cbn; lia])).
  - cbn. repeat constructor. cbn. tauto.
  - discriminate.
Qed.
Lemma m1_fixed : Forall fixed_block (vm_cells m1).
Proof.
  apply Forall_cons; [|apply Forall_cons; [|apply Forall_cons; [|apply Forall_nil]]].
  - exists 3. split; [cbv; tauto|repeat constructor].
  - exists 6. split; [cbv; tauto|repeat constructor].
  - exists 6. split; [cbv; tauto|repeat constructor].
Qed.
Example C67_instance : vtk_mesh int_nums int_fits false m1 /\ Forall fixed_block (vm_cells m1) /\ vtk_image int_nums true m1 =
  VMesh "float64" [[0; 0; 0]; [1; 0; 0]; [0; 1; 0]; [5; 6; 0]]%Z
    [Block "triangle" [[0; 1; 2]]%Z; Block "wedge" [[0; 1; 2; 3; 0; 1]; [0; 1; 2; 3; 3; 3]]%Z]
    [("a", VArr "int32" [] [[1]; [2]; [3]; [4]]%Z); ("v", VArr "float32" [3] [[1; 1; 0]; [2; 1; 0]; [3; 1; 0]; [-4; 1; 0]]%Z)]%string
    [("c", VCd "int64" [] [[[7]]; [[8]; [10]]]%Z)]%string [].
Proof. split; [apply m1_ok|]. split; [exact m1_fixed|now vm_compute]. Qed.
Example C67_instance_binary : exists s, write_vtk int_nums (vbinary int_nums) false "5" m1 = Ok s /\
  read_vtk int_nums (vbinary int_nums) s = Ok (vtk_image int_nums true m1).
Proof. eexists. split; [vm_compute; reflexivity|vm_compute; reflexivity]. Qed.
(** A polygon next to a triangle *)
Definition m2 : vmesh Z := VMesh "float64" [[0; 0; 0]; [1; 0; 0]; [0; 1; 0]]%Z
  [Block "triangle" [[0; 1; 2]]%Z; Block "polygon" [[0; 1; 2; 1]]%Z] [] [("c", VCd "int64" [] [[[7]]; [[8]]]%Z)]%string [].
Example C67_polygon_instance : exists s, write_vtk int_nums (vascii int_nums) false "5" m2 = Ok s /\
  read_vtk int_nums (vascii int_nums) s = Ok (VMesh "float64" (vm_points m2) (vm_cells m2) [] [] []).
Proof. eexists. split; [vm_compute; reflexivity|vm_compute; reflexivity]. Qed.
(** Booleans have a name in version 4.2, and ASCII files with them are written but not read. *)
Theorem C67_bool_refuted : exists m s, vm_pdata m = [("b", VArr "bool" [] [[1]; [0]; [1]]%Z)]%string /\
  write_vtk int_nums (vascii int_nums) false "5" m = Ok s /\ forall m', read_vtk int_nums (vascii int_nums) s <> Ok m'.
Proof.
  exists (VMesh "float64" (vm_points m2) (vm_cells m2) [("b", VArr "bool" [] [[1]; [0]; [1]]%Z)]%string [] []). eexists. split; [reflexivity|].
  split; [vm_compute; reflexivity|]. intros m'. vm_compute. discriminate.
Qed.
Print Assumptions C67_bool_refuted.
(** The format name vtk51 writes files of version 4.2. *)
Theorem C67_format_name_refuted {V} (nk : nums V) ver m s v :
  dget "vtk51" registered_vtk = Some v -> write_vtk nk (vascii nk) v ver m = Ok s -> nth_error s 0 = Some "# vtk DataFile Version 4.2"%string.
Proof.
  intros E H. injection E as <-. unfold write_vtk in H.
  destruct (write_points _ _ _ _); cbn [bind] in H; [|discriminate]. destruct (write_cells_section _ _ _); cbn [bind] in H; [|discriminate].
  destruct (write_data_section _ _ "POINT_DATA" _ _); cbn [bind] in H; [|discriminate]. destruct (mapM _ _); cbn [bind] in H; [|discriminate].
  destruct (write_data_section _ _ "CELL_DATA" _ _); cbn [bind] in H; [|discriminate]. injection H as <-. reflexivity.
Qed.
Print Assumptions C67_format_name_refuted.

(** C68: the same for version 5.1, with polygons and Lagrange cells, and the cell data of polygons.
    Partial: additionally at least one block, and no empty block. *)
Theorem C68_ascii_partial {V} (nk : nums V) fits m ver :
  ascii_nums nk fits -> vtk_mesh nk fits true m -> Forall (fun b => fixed_block b \/ varying_block b) (vm_cells m) ->
  Forall nonempty_block (vm_cells m) -> vm_cells m <> [] -> one_line ("written by meshio v" ++ ver)%string ->
  exists s, write_vtk nk (vascii nk) true ver m = Ok s /\ read_vtk nk (vascii nk) s = Ok (vtk_image nk true m).
Proof. intros Hn. exact (vtk51_file nk (vascii nk) fits _ _ (vascii_ok nk fits Hn) m ver). Qed.
Print Assumptions C68_ascii_partial.
Theorem C68_binary_partial {V} (nk : nums V) fits m ver :
  binary_nums nk fits -> vtk_mesh nk fits true m -> Forall (fun b => fixed_block b \/ varying_block b) (vm_cells m) ->
  Forall nonempty_block (vm_cells m) -> vm_cells m <> [] -> one_line ("written by meshio v" ++ ver)%string ->
  exists s, write_vtk nk (vbinary nk) true ver m = Ok s /\ read_vtk nk (vbinary nk) s = Ok (vtk_image nk true m).
Proof. intros Hn. exact (vtk51_file nk (vbinary nk) fits _ _ (vbinary_ok nk fits Hn) m ver). Qed.
Print Assumptions C68_binary_partial.
Example C68_instance : vtk_mesh int_nums int_fits true m1 /\ Forall nonempty_block (vm_cells m1) /\ vm_cells m1 <> [] /\
  exists s, write_vtk int_nums (vbinary int_nums) true "5" m1 = Ok s /\ read_vtk int_nums (vbinary int_nums) s = Ok (vtk_image int_nums true m1).
Proof.
  split; [apply m1_ok|]. split; [repeat (apply Forall_cons || apply Forall_nil); discriminate|]. split; [discriminate|].
  eexists. split; [vm_compute; reflexivity|vm_compute; reflexivity].
Qed.
Example C68_polygon_instance : exists s, write_vtk int_nums (vascii int_nums) true "5" m2 = Ok s /\
  read_vtk int_nums (vascii int_nums) s = Ok m2.
Proof. eexists. split; [vm_compute; reflexivity|vm_compute; reflexivity]. Qed.
(** A mesh of points only is written, and the file cannot be read. *)
Theorem C68_points_only_refuted : exists m s, vm_cells m = [] /\ vtk_mesh int_nums int_fits true m /\
  write_vtk int_nums (vascii int_nums) true "5" m = Ok s /\ forall m', read_vtk int_nums (vascii int_nums) s <> Ok m'.
Proof.
  exists (VMesh "float64" [[1; 2; 3]]%Z [] [] [] []). eexists. split; [reflexivity|]. split.
  - apply VtkMesh; cbn [vm_dtype vm_points vm_cells vm_pdata vm_cdata].
    + cbv; tauto.
    + split; [right; repeat constructor|]. repeat (apply Forall_cons || apply Forall_nil); (split; [discriminate|cbn; lia]).
    + intros dt v (A & B). split; [exact A|cbn; lia].
    + constructor.
    + constructor.
    + unfold index_fits; cbn; lia.
    + constructor.
    + constructor.
    + congruence.
    + constructor.
    + constructor.
    + congruence.
  - split; [vm_compute; reflexivity|]. intros m'. vm_compute. discriminate.
Qed.
Print Assumptions C68_points_only_refuted.

(** C69: a structured grid in a file of an older version is read as its points, one block of lines, quadrilaterals or
    hexahedra, one for every box, and the data of points and cells.  The points are given by dimensions, origin and spacing
    (first theorem), by the coordinates along the axes (rectilinear) or one by one (curvilinear); the first axis runs fastest. *)
Theorem C69_ascii {V} (nk : nums V) fits ver title nx ny nz origin spacing ox oy oz sx sy sz pd cd :
  ascii_nums nk fits -> In ver old_versions -> one_line title -> 1 <= nx -> 1 <= ny -> 1 <= nz -> 1 < nx * ny * nz ->
  forallb word (origin ++ spacing) = true ->
  Forall2 (fun t x => n_parse nk "float64" t = Some x) origin [ox; oy; oz] ->
  Forall2 (fun t x => n_parse nk "float64" t = Some x) spacing [sx; sy; sz] ->
  (forall o s n, length (n_axis nk o s n) = n) ->
  grid_data fits (nx * ny * nz) pd -> grid_data fits (boxes nx * boxes ny * boxes nz) cd ->
  exists pts cells,
    read_vtk nk (vascii nk) (grid_file (vascii nk) ver title (structured_points (vascii nk) nx ny nz origin spacing)
                              (nx * ny * nz) pd (boxes nx * boxes ny * boxes nz) cd) =
      Ok (grid_mesh "float64" pts (box_type (axes nx ny nz)) cells pd cd) /\
    is_grid (n_axis nk ox sx nx) (n_axis nk oy sy ny) (n_axis nk oz sz nz) pts cells.
Proof. intros Hn. apply (structured_points_read nk (vascii nk) fits _ _ (vascii_ok nk fits Hn)). Qed.
Print Assumptions C69_ascii.
Theorem C69_rectilinear_ascii {V} (nk : nums V) fits ver title dt xs ys zs pd cd :
  let nx := length xs in let ny := length ys in let nz := length zs in
  ascii_nums nk fits -> In ver old_versions -> one_line title -> xs <> [] -> ys <> [] -> zs <> [] -> 1 < nx * ny * nz ->
  In dt known_42 -> Forall (fits dt) (xs ++ ys ++ zs) ->
  grid_data fits (nx * ny * nz) pd -> grid_data fits (boxes nx * boxes ny * boxes nz) cd ->
  exists pts cells,
    read_vtk nk (vascii nk) (grid_file (vascii nk) ver title (rectilinear_grid (vascii nk) dt xs ys zs)
                              (nx * ny * nz) pd (boxes nx * boxes ny * boxes nz) cd) =
      Ok (grid_mesh dt pts (box_type (axes nx ny nz)) cells pd cd) /\
    is_grid xs ys zs pts cells.
Proof. intros nx ny nz Hn. apply (rectilinear_read nk (vascii nk) fits _ _ (vascii_ok nk fits Hn)). Qed.
Print Assumptions C69_rectilinear_ascii.
Theorem C69_curvilinear_ascii {V} (nk : nums V) fits ver title nx ny nz dt pts pd cd :
  ascii_nums nk fits -> In ver old_versions -> one_line title -> 1 <= nx -> 1 <= ny -> 1 <= nz -> 1 < nx * ny * nz ->
  In dt known_42 -> length pts = nx * ny * nz -> Forall (fun q => length q = 3) pts -> Forall (Forall (fits dt)) pts ->
  grid_data fits (nx * ny * nz) pd -> grid_data fits (boxes nx * boxes ny * boxes nz) cd ->
  exists cells,
    read_vtk nk (vascii nk) (grid_file (vascii nk) ver title (structured_grid (vascii nk) nx ny nz dt pts)
                              (nx * ny * nz) pd (boxes nx * boxes ny * boxes nz) cd) =
      Ok (grid_mesh dt pts (box_type (axes nx ny nz)) cells pd cd) /\
    is_boxes nx ny nz cells.
Proof. intros Hn. apply (structured_grid_read nk (vascii nk) fits _ _ (vascii_ok nk fits Hn)). Qed.
Print Assumptions C69_curvilinear_ascii.
Theorem C69_binary {V} (nk : nums V) fits ver title nx ny nz origin spacing ox oy oz sx sy sz pd cd :
  binary_nums nk fits -> In ver old_versions -> one_line title -> 1 <= nx -> 1 <= ny -> 1 <= nz -> 1 < nx * ny * nz ->
  forallb word (origin ++ spacing) = true ->
  Forall2 (fun t x => n_parse nk "float64" t = Some x) origin [ox; oy; oz] ->
  Forall2 (fun t x => n_parse nk "float64" t = Some x) spacing [sx; sy; sz] ->
  (forall o s n, length (n_axis nk o s n) = n) ->
  grid_data fits (nx * ny * nz) pd -> grid_data fits (boxes nx * boxes ny * boxes nz) cd ->
  exists pts cells,
    read_vtk nk (vbinary nk) (grid_file (vbinary nk) ver title (structured_points (vbinary nk) nx ny nz origin spacing)
                              (nx * ny * nz) pd (boxes nx * boxes ny * boxes nz) cd) =
      Ok (grid_mesh "float64" pts (box_type (axes nx ny nz)) cells pd cd) /\
    is_grid (n_axis nk ox sx nx) (n_axis nk oy sy ny) (n_axis nk oz sz nz) pts cells.
Proof. intros Hn. apply (structured_points_read nk (vbinary nk) fits _ _ (vbinary_ok nk fits Hn)). Qed.
Print Assumptions C69_binary.
Theorem C69_rectilinear_binary {V} (nk : nums V) fits ver title dt xs ys zs pd cd :
  let nx := length xs in let ny := length ys in let nz := length zs in
  binary_nums nk fits -> In ver old_versions -> one_line title -> xs <> [] -> ys <> [] -> zs <> [] -> 1 < nx * ny * nz ->
  In dt known_42 -> Forall (fits dt) (xs ++ ys ++ zs) ->
  grid_data fits (nx * ny * nz) pd -> grid_data fits (boxes nx * boxes ny * boxes nz) cd ->
  exists pts cells,
    read_vtk nk (vbinary nk) (grid_file (vbinary nk) ver title (rectilinear_grid (vbinary nk) dt xs ys zs)
                              (nx * ny * nz) pd (boxes nx * boxes ny * boxes nz) cd) =
      Ok (grid_mesh dt pts (box_type (axes nx ny nz)) cells pd cd) /\
    is_grid xs ys zs pts cells.
Proof. intros nx ny nz Hn. apply (rectilinear_read nk (vbinary nk) fits _ _ (vbinary_ok nk fits Hn)). Qed.
Print Assumptions C69_rectilinear_binary.
Theorem C69_curvilinear_binary {V} (nk : nums V) fits ver title nx ny nz dt pts pd cd :
  binary_nums nk fits -> In ver old_versions -> one_line title -> 1 <= nx -> 1 <= ny -> 1 <= nz -> 1 < nx * ny * nz ->
  In dt known_42 -> length pts = nx * ny * nz -> Forall (fun q => length q = 3) pts -> Forall (Forall (fits dt)) pts ->
  grid_data fits (nx * ny * nz) pd -> grid_data fits (boxes nx * boxes ny * boxes nz) cd ->
  exists cells,
    read_vtk nk (vbinary nk) (grid_file (vbinary nk) ver title (structured_grid (vbinary nk) nx ny nz dt pts)
                              (nx * ny * nz) pd (boxes nx * boxes ny * boxes nz) cd) =
      Ok (grid_mesh dt pts (box_type (axes nx ny nz)) cells pd cd) /\
    is_boxes nx ny nz cells.
Proof. intros Hn. apply (structured_grid_read nk (vbinary nk) fits _ _ (vbinary_ok nk fits Hn)). Qed.
Print Assumptions C69_curvilinear_binary.
(** The same grids in a file of version 5.1 are an error. *)
Theorem C69_version_51_refuted {V} (nk : nums V) fits title : ascii_nums nk fits -> one_line title ->
  (forall nx ny nz origin spacing ox oy oz sx sy sz,
     1 <= nx -> 1 <= ny -> 1 <= nz -> 1 < nx * ny * nz -> forallb word (origin ++ spacing) = true ->
     Forall2 (fun t x => n_parse nk "float64" t = Some x) origin [ox; oy; oz] ->
     Forall2 (fun t x => n_parse nk "float64" t = Some x) spacing [sx; sy; sz] ->
     (forall o s n, length (n_axis nk o s n) = n) ->
     read_vtk nk (vascii nk) (vtk_header (vascii nk) "5.1" title ++ structured_points (vascii nk) nx ny nz origin spacing) = Err TypeError) /\
  (forall dt xs ys zs,
     xs <> [] -> ys <> [] -> zs <> [] -> 1 < length xs * length ys * length zs ->
     In dt ["float32"; "float64"]%string -> Forall (fits dt) (xs ++ ys ++ zs) ->
     read_vtk nk (vascii nk) (vtk_header (vascii nk) "5.1" title ++ rectilinear_grid (vascii nk) dt xs ys zs) = Err TypeError) /\
  (forall nx ny nz dt pts,
     1 <= nx -> 1 <= ny -> 1 <= nz -> 1 < nx * ny * nz ->
     In dt ["float32"; "float64"]%string -> Forall (fun q => length q = 3) pts -> Forall (Forall (fits dt)) pts ->
     read_vtk nk (vascii nk) (vtk_header (vascii nk) "5.1" title ++ structured_grid (vascii nk) nx ny nz dt pts) = Err TypeError).
Proof.
  intros Hn Ht. split; [|split].
  - intros. eapply (structured_points_51 nk (vascii nk) fits _ _ (vascii_ok nk fits Hn)); eauto.
  - intros. eapply (rectilinear_51 nk (vascii nk) fits _ _ (vascii_ok nk fits Hn)); eauto.
  - intros. eapply (structured_grid_51 nk (vascii nk) fits _ _ (vascii_ok nk fits Hn)); eauto.
Qed.
Print Assumptions C69_version_51_refuted.
Theorem C69_version_51_binary_refuted {V} (nk : nums V) fits title : binary_nums nk fits -> one_line title ->
  (forall nx ny nz origin spacing ox oy oz sx sy sz,
     1 <= nx -> 1 <= ny -> 1 <= nz -> 1 < nx * ny * nz -> forallb word (origin ++ spacing) = true ->
     Forall2 (fun t x => n_parse nk "float64" t = Some x) origin [ox; oy; oz] ->
     Forall2 (fun t x => n_parse nk "float64" t = Some x) spacing [sx; sy; sz] ->
     (forall o s n, length (n_axis nk o s n) = n) ->
     read_vtk nk (vbinary nk) (vtk_header (vbinary nk) "5.1" title ++ structured_points (vbinary nk) nx ny nz origin spacing) = Err TypeError) /\
  (forall dt xs ys zs,
     xs <> [] -> ys <> [] -> zs <> [] -> 1 < length xs * length ys * length zs ->
     In dt ["float32"; "float64"]%string -> Forall (fits dt) (xs ++ ys ++ zs) ->
     read_vtk nk (vbinary nk) (vtk_header (vbinary nk) "5.1" title ++ rectilinear_grid (vbinary nk) dt xs ys zs) = Err TypeError) /\
  (forall nx ny nz dt pts,
     1 <= nx -> 1 <= ny -> 1 <= nz -> 1 < nx * ny * nz ->
     In dt ["float32"; "float64"]%string -> Forall (fun q => length q = 3) pts -> Forall (Forall (fits dt)) pts ->
     read_vtk nk (vbinary nk) (vtk_header (vbinary nk) "5.1" title ++ structured_grid (vbinary nk) nx ny nz dt pts) = Err TypeError).
Proof.
  intros Hn Ht. split; [|split].
  - intros. eapply (structured_points_51 nk (vbinary nk) fits _ _ (vbinary_ok nk fits Hn)); eauto.
  - intros. eapply (rectilinear_51 nk (vbinary nk) fits _ _ (vbinary_ok nk fits Hn)); eauto.
  - intros. eapply (structured_grid_51 nk (vbinary nk) fits _ _ (vbinary_ok nk fits Hn)); eauto.
Qed.
Print Assumptions C69_version_51_binary_refuted.
Example C69_instance : (forall o s n, length (n_axis int_nums o s n) = n) /\
  read_vtk int_nums (vascii int_nums) (vtk_header (vascii int_nums) "3.0" "x" ++ structured_points (vascii int_nums) 2 3 1 ["1"; "1"; "7"]%string ["2"; "3"; "1"]%string) =
  Ok (VMesh "float64" [[1; 1; 7]; [3; 1; 7]; [1; 4; 7]; [3; 4; 7]; [1; 7; 7]; [3; 7; 7]]%Z [Block "quad" [[0; 1; 3; 2]; [2; 3; 5; 4]]%Z] [] [] []).
Proof. split; [intros; cbn; now rewrite map_length, seq_length|vm_compute; reflexivity]. Qed.
Example C69_data_instance :
  grid_data int_fits 6 [("T"%string, VArr "float64" [] [[1]; [2]; [3]; [4]; [5]; [6]]%Z)] /\
  grid_data int_fits 2 [("v"%string, VArr "int32" [3] [[1; 0; 0]; [0; 1; 0]]%Z)] /\
  Forall (int_fits "float32") ([0; 1] ++ [0; 5; 9] ++ [4])%Z /\
  read_vtk int_nums (vbinary int_nums) (grid_file (vbinary int_nums) "3.0" "x" (rectilinear_grid (vbinary int_nums) "float32" [0; 1] [0; 5; 9] [4])%Z
     6 [("T"%string, VArr "float64" [] [[1]; [2]; [3]; [4]; [5]; [6]]%Z)] 2 [("v"%string, VArr "int32" [3] [[1; 0; 0]; [0; 1; 0]]%Z)]) =
  Ok (VMesh "float32" [[0; 0; 4]; [1; 0; 4]; [0; 5; 4]; [1; 5; 4]; [0; 9; 4]; [1; 9; 4]]%Z [Block "quad" [[0; 1; 3; 2]; [2; 3; 5; 4]]%Z]
        [("T"%string, VArr "float64" [] [[1]; [2]; [3]; [4]; [5]; [6]]%Z)] [("v"%string, VCd "int32" [3] [[[1; 0; 0]; [0; 1; 0]]]%Z)] []).
Proof.
  assert (F : forall dt v, dt <> "bool"%string -> (- 128 <= v < 128)%Z -> int_fits dt v) by (intros dt v Hd Hv; split; [exact Hd|exact Hv]).
  split; [|split; [|split]].
  - split; [repeat constructor; intros []|]. repeat constructor; try reflexivity; try discriminate; try (cbn; tauto); try apply F; try discriminate; lia.
  - split; [repeat constructor; intros []|]. constructor; [|constructor]. split; [split; [reflexivity|discriminate]|].
    split; [|split; [discriminate|reflexivity]]. split; [cbn; tauto|]. split; [right; now exists 2|].
    repeat constructor; try discriminate; try lia; apply F; try discriminate; lia.
  - repeat constructor; try discriminate; lia.
  - vm_compute. reflexivity.
Qed.
