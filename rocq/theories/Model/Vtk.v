(** Model of src/meshio/_vtk_common.py and of the cell encodings of
    src/meshio/vtk/_vtk_42.py, src/meshio/vtk/_vtk_51.py and src/meshio/vtu/_vtu.py.
    Integer arrays are lists of [Z]; fixed-width dtypes are not modelled here (values are
    assumed to fit, byte encodings are in Model/Vtu.v). *)
From Verif.Lib Require Import Base Runs.
From Verif.Model Require Import Core.

(** src/meshio/_vtk_common.py:8-67 [vtk_to_meshio_type] *)
Definition vtk_to_meshio_type : zdict string := [
  (0%Z, "empty"); (1%Z, "vertex"); (3%Z, "line"); (5%Z, "triangle"); (7%Z, "polygon");
  (8%Z, "pixel"); (9%Z, "quad"); (10%Z, "tetra"); (12%Z, "hexahedron"); (13%Z, "wedge");
  (14%Z, "pyramid"); (15%Z, "penta_prism"); (16%Z, "hexa_prism"); (21%Z, "line3");
  (22%Z, "triangle6"); (23%Z, "quad8"); (24%Z, "tetra10"); (25%Z, "hexahedron20");
  (26%Z, "wedge15"); (27%Z, "pyramid13"); (28%Z, "quad9"); (29%Z, "hexahedron27");
  (30%Z, "quad6"); (31%Z, "wedge12"); (32%Z, "wedge18"); (33%Z, "hexahedron24");
  (34%Z, "triangle7"); (35%Z, "line4"); (42%Z, "polyhedron");
  (68%Z, "VTK_LAGRANGE_CURVE"); (69%Z, "VTK_LAGRANGE_TRIANGLE");
  (70%Z, "VTK_LAGRANGE_QUADRILATERAL"); (71%Z, "VTK_LAGRANGE_TETRAHEDRON");
  (72%Z, "VTK_LAGRANGE_HEXAHEDRON"); (73%Z, "VTK_LAGRANGE_WEDGE");
  (74%Z, "VTK_LAGRANGE_PYRAMID"); (75%Z, "VTK_BEZIER_CURVE"); (76%Z, "VTK_BEZIER_TRIANGLE");
  (77%Z, "VTK_BEZIER_QUADRILATERAL"); (78%Z, "VTK_BEZIER_TETRAHEDRON");
  (79%Z, "VTK_BEZIER_HEXAHEDRON"); (80%Z, "VTK_BEZIER_WEDGE"); (81%Z, "VTK_BEZIER_PYRAMID")
].

(** src/meshio/_vtk_common.py:68 [meshio_to_vtk_type] *)
Definition meshio_to_vtk_type : dict Z := map (fun kv => (snd kv, fst kv)) vtk_to_meshio_type.

Definition wedge_order : list nat := [0; 2; 1; 3; 5; 4].
(** src/meshio/_vtk_common.py:71-80 [vtk_to_meshio_order] *)
Definition vtk_to_meshio_order (code : Z) : option (list nat) :=
  if Z.eqb code 13 then Some wedge_order else None.
(** src/meshio/_vtk_common.py:83-86 [meshio_to_vtk_order] *)
Definition meshio_to_vtk_order (t : string) : option (list nat) :=
  if String.eqb t "wedge" then Some wedge_order else None.

(** [d[:, new_order]] on one row, or the row itself if there is no reordering; IndexError
    if the row is too short. *)
Definition reorder (o : option (list nat)) (row : cell) : result cell :=
  match o with
  | None => Ok row
  | Some p => of_option IndexError (permute p row)
  end.

(** [base + order] as index array, [order] defaulting to [arange n]. *)
Definition index_row (o : option (list nat)) (n : Z) (base : Z) : list Z :=
  match o with
  | Some p => map (fun i => (base + Z.of_nat i)%Z) p
  | None => map (fun i => (base + Z.of_nat i)%Z) (seq 0 (Z.to_nat n))
  end.

(** ** Legacy VTK 4.2 *)

(** src/meshio/vtk/_vtk_42.py:22-61 *)
Definition vtk_type_to_numnodes : list Z :=
  [0; 1; -1; 2; -1; 3; -1; -1; -1; 4; 4; -1; 8; 6; 5; 10; 12; -1; -1; -1; -1; 3; 6; 8; 10;
   20; 15; 13; 9; 27; 6; 12; 18; 24; 7; 4]%Z.

(** src/meshio/vtk/_vtk_42.py:680-730 [_write_cells]: the CELLS array of one block (rows
    with prepended node count) and its CELL_TYPES entries. *)
Definition write_block_42 (b : block) : result (list Z * list Z) :=
  do rows <- mapM (reorder (meshio_to_vtk_order (btype b))) (bdata b);
  do code <- of_option KeyError (dget (btype b) meshio_to_vtk_type);
  Ok (flat_map (fun r => Z.of_nat (length r) :: r) rows, repeat code (blen b)).

Definition write_cells_42 (bs : list block) : result (list Z * list Z) :=
  do l <- mapM write_block_42 bs;
  Ok (flat_map fst l, flat_map snd l).

(** [np.cumsum(numnodes + 1) - (numnodes + 1)], line 573 *)
Fixpoint starts_42 (acc : Z) (numnodes : list Z) : list Z :=
  match numnodes with
  | [] => []
  | n :: ns => acc :: starts_42 (acc + (n + 1)) ns
  end.

(** src/meshio/vtk/_vtk_42.py:582-597, one block [start:end]; the rows and their bounds *)
Definition read_block_42 (conn types numnodes offsets : list Z) (se : nat * nat)
  : result (block * (nat * nat)) :=
  let '(s, e) := se in
  do code <- of_option IndexError (nth_error types s);
  do t <- of_option KeyError (zget code vtk_to_meshio_type);
  do n <- of_option IndexError (nth_error numnodes s);
  do rows <- mapM (fun off => gather conn (index_row (vtk_to_meshio_order code) n (off + 1)))
                  (slice s e offsets);
  Ok (Block t rows, se).

(** src/meshio/vtk/_vtk_42.py:557-599, the branch without polygons *)
Definition translate_fixed_42 (conn types : list Z) : result (list (block * (nat * nat))) :=
  if existsb (fun c => (Z.of_nat (length vtk_type_to_numnodes) <=? c)%Z) types
  then Err ReadError else
  do numnodes <- gather vtk_type_to_numnodes types;
  if negb (forallb (fun n => (0 <? n)%Z) numnodes) then Err ReadError else
  let offsets := starts_42 0 numnodes in
  do heads <- gather conn offsets;
  if negb (forallb (fun nh => Z.eqb (fst nh) (snd nh)) (combine numnodes heads))
  then Err ReadError else
  mapM (read_block_42 conn types numnodes offsets)
       (filter (fun se => negb (Nat.eqb (fst se) (snd se))) (bounds Z.eqb types)).

(** src/meshio/vtk/_vtk_42.py:518-531, node counts and starts when polygons are present:
    one pass over the CELLS array. *)
Fixpoint scan_42 (conn : list Z) (ncells : nat) (off : Z) : result (list (Z * Z)) :=
  match ncells with
  | O => Ok []
  | S k =>
      do n <- of_option IndexError (znth conn off);
      do rest <- scan_42 conn k (off + n + 1);
      Ok ((n, off) :: rest)
  end.

(** src/meshio/vtk/_vtk_42.py:533-556: append a cell to the last block if type and width
    agree, else open a new block. *)
Definition push_cell (cells : list block) (t : string) (c : cell) : list block :=
  match rev cells with
  | Block t' rows :: older =>
      match rev rows with
      | last :: _ => if String.eqb t' t && Nat.eqb (length c) (length last)
                     then rev older ++ [Block t' (rows ++ [c])]
                     else cells ++ [Block t [c]]
      | [] => cells ++ [Block t [c]]
      end
  | [] => [Block t [c]]
  end.

Fixpoint translate_poly_42 (conn : list Z) (cells : list block) (l : list (Z * (Z * Z)))
  : result (list block) :=
  match l with
  | [] => Ok cells
  | (code, (n, off)) :: l' =>
      do c <- gather conn (index_row (vtk_to_meshio_order code) n (off + 1));
      do t <- of_option KeyError (zget code vtk_to_meshio_type);
      translate_poly_42 conn (push_cell cells t c) l'
  end.

(** src/meshio/vtk/_vtk_42.py:507-599 [translate_cells].  The second component lists, for
    every block, the range of cells whose data it gets; with polygons no cell data is
    returned (the TODO of line 532), which is rendered as None. *)
Definition translate_cells (conn types : list Z)
  : result (list block * option (list (nat * nat))) :=
  if existsb (Z.eqb 7) types then
    do ns <- scan_42 conn (length types) 0;
    do bs <- translate_poly_42 conn [] (combine types ns);
    Ok (bs, None)
  else
    do l <- translate_fixed_42 conn types;
    Ok (map fst l, Some (map snd l)).

(** [cell_data[name].append(d[start:end])] for every block *)
Definition pieces {V} (sp : list (nat * nat)) (d : list V) : list (list V) :=
  map (fun se => slice (fst se) (snd se) d) sp.

(** ** Offset/connectivity encoding (VTK 5.1, VTU) *)

Definition special_cells : list string := [
  "polygon"; "VTK_LAGRANGE_CURVE"; "VTK_LAGRANGE_TRIANGLE"; "VTK_LAGRANGE_QUADRILATERAL";
  "VTK_LAGRANGE_TETRAHEDRON"; "VTK_LAGRANGE_HEXAHEDRON"; "VTK_LAGRANGE_WEDGE";
  "VTK_LAGRANGE_PYRAMID" ].

(** [np.diff] *)
Fixpoint diffs (l : list Z) : list Z :=
  match l with
  | x :: ((y :: _) as l') => (y - x)%Z :: diffs l'
  | _ => []
  end.

(** src/meshio/_vtk_common.py:148-158, one sub-block of a run of special cells *)
Definition read_special_sub (conn : list Z) (code : Z) (t : string) (start : nat)
    (start_cn sizes : list Z) (ab : nat * nat) : result (block * (nat * nat)) :=
  let '(a, b) := ab in
  do sz <- of_option IndexError (nth_error sizes a);
  do rows <- mapM (fun i =>
               do off <- of_option IndexError (nth_error start_cn (i + 1));
               gather conn (index_row (vtk_to_meshio_order code) sz (off - sz)))
             (seq a (b - a));
  do _ <- cellblock_dim t;
  Ok (Block t rows, (start + a, start + b)).

(** src/meshio/_vtk_common.py:130-164 *)
Definition read_special (conn offsets : list Z) (code : Z) (t : string) (se : nat * nat)
  : result (list (block * (nat * nat))) :=
  let '(s, e) := se in
  do first_node <- (if Nat.eqb s 0 then Ok 0%Z
                    else of_option IndexError (nth_error offsets (s - 1)));
  let start_cn := first_node :: slice s e offsets in
  let sizes := diffs start_cn in
  let c := [0] ++ map S (where_ (fun d => negb (Z.eqb d 0)) (diffs sizes)) ++ [length sizes] in
  mapM (read_special_sub conn code t s start_cn sizes) (combine c (tl c)).

(** src/meshio/_vtk_common.py:165-179 *)
Definition read_regular (conn offsets : list Z) (code : Z) (t : string) (se : nat * nat)
  : result (list (block * (nat * nat))) :=
  let '(s, e) := se in
  do n <- of_option KeyError (dget t num_nodes_per_cell);
  do rows <- mapM (fun off =>
               gather conn (index_row (vtk_to_meshio_order code) (Z.of_nat n) (off - Z.of_nat n)))
             (slice s e offsets);
  do _ <- cellblock_dim t;
  Ok [(Block t rows, (s, e))].

(** src/meshio/_vtk_common.py:110-179, the loop body; unknown codes are skipped *)
Definition read_run (conn offsets types : list Z) (se : nat * nat)
  : result (list (block * (nat * nat))) :=
  do code <- of_option IndexError (nth_error types (fst se));
  match zget code vtk_to_meshio_type with
  | None => Ok []
  | Some t => if smem t special_cells then read_special conn offsets code t se
              else read_regular conn offsets code t se
  end.

(** src/meshio/_vtk_common.py:89-181 [vtk_cells_from_data]: blocks and data ranges. *)
Definition vtk_cells_from_data (conn offsets types : list Z)
  : result (list block * list (nat * nat)) :=
  if negb (Nat.eqb (length offsets) (length types)) then Err ReadError else
  do l <- mapM (read_run conn offsets types) (bounds Z.eqb types);
  Ok (map fst (concat l), map snd (concat l)).

(** Connectivity and types of the writers: src/meshio/vtk/_vtk_51.py:593-630 and
    src/meshio/vtu/_vtu.py:843-850,863-886.  np.concatenate([]) raises ValueError (VTU). *)
Definition write_conn (bs : list block) : result (list Z) :=
  do l <- mapM (fun b => do rows <- mapM (reorder (meshio_to_vtk_order (btype b))) (bdata b);
                         Ok (concat rows)) bs;
  Ok (concat l).
Definition write_types (bs : list block) : result (list Z) :=
  do l <- mapM (fun b => do code <- of_option KeyError (dget (btype b) meshio_to_vtk_type);
                         Ok (repeat code (blen b))) bs;
  Ok (concat l).

(** Width of a block, [data.shape[1]].  Rows of a numpy array have equal length. *)
Definition width (b : block) : nat := match bdata b with [] => 0 | r :: _ => length r end.

(** src/meshio/vtk/_vtk_51.py:578-585: [k] is the last offset so far; an empty block makes
    [offsets[-1][-1]] raise IndexError. *)
Fixpoint offsets_51_from (k : Z) (bs : list block) : result (list Z) :=
  match bs with
  | [] => Ok []
  | b :: bs' =>
      let n := Z.of_nat (width b) in
      let l := map (fun i => (k + n + Z.of_nat i * n)%Z) (seq 0 (blen b)) in
      match rev l with
      | [] => Err IndexError
      | last :: _ => do rest <- offsets_51_from last bs'; Ok (l ++ rest)
      end
  end.
(** The OFFSETS section, starting with 0. *)
Definition offsets_51 (bs : list block) : result (list Z) :=
  do l <- offsets_51_from 0 bs; Ok (0%Z :: l).

(** src/meshio/vtk/_vtk_51.py:154-166: the reader drops the leading 0. *)
Definition check_offsets_51 (conn offsets : list Z) : result (list Z) :=
  match offsets with
  | [] => Err IndexError
  | x :: l => if negb (Z.eqb x 0) then Err AssertionError
              else if negb (Z.eqb (last offsets 0%Z) (Z.of_nat (length conn))) then Err AssertionError
              else Ok l
  end.

(** src/meshio/vtu/_vtu.py:853-860: block offsets, shifted by the last offset of the
    previous (already shifted) block; [offsets[k-1][-1]] raises IndexError if that block is
    empty. *)
Definition vtu_block_offsets (b : block) : list Z :=
  map (fun i => (Z.of_nat (width b) * Z.of_nat i)%Z) (seq 1 (blen b)).
Fixpoint offsets_vtu_from (prev : list Z) (bs : list block) : result (list Z) :=
  match bs with
  | [] => Ok []
  | b :: bs' =>
      match rev prev with
      | [] => Err IndexError
      | last :: _ =>
          let l := map (Z.add last) (vtu_block_offsets b) in
          do rest <- offsets_vtu_from l bs'; Ok (l ++ rest)
      end
  end.
Definition offsets_vtu (bs : list block) : result (list Z) :=
  match bs with
  | [] => Err ValueError
  | b :: bs' => do rest <- offsets_vtu_from (vtu_block_offsets b) bs';
                Ok (vtu_block_offsets b ++ rest)
  end.

(** ** Structured grids *)

(** src/meshio/vtk/_vtk_42.py:293-335 [_generate_cells]: the CELLS rows and the cell type.
    With no dimension greater than 1, [ele_dim[0]] raises IndexError. *)
Definition generate_cells (dim : list nat) : result (list (list Z) * Z) :=
  let ele_dim := map (fun d => Z.of_nat d - 1)%Z (filter (fun d => Nat.ltb 1 d) dim) in
  let ele_no := Z.to_nat (fold_right Z.mul 1%Z ele_dim) in
  let idx := map Z.of_nat (seq 0 ele_no) in
  (match ele_dim with
   | [] => Err IndexError
   | [_] => Ok (map (fun i => [2; i; i + 1]) idx, 3)
   | [ex; _] =>
       Ok (map (fun i =>
             let c1 := i + i / ex in
             let c3 := c1 + 2 + ex in
             [4; c1; c1 + 1; c3; c3 - 1]) idx, 9)
   | ex :: ey :: _ =>
       Ok (map (fun i =>
             let c1 := i + (ex + ey + 1) * (i / (ex * ey)) + (i mod (ex * ey)) / ex in
             let c3 := c1 + 2 + ex in
             let c5 := c1 + (1 + ex) * (1 + ey) in
             let c7 := c5 + 2 + ex in
             [8; c1; c1 + 1; c3; c3 - 1; c5; c5 + 1; c7; c7 - 1]) idx, 12)
   end)%Z.

(** src/meshio/vtk/_vtk_42.py:338-349 [_generate_points]: np.mgrid flattened in Fortran
    order has the first index fastest. *)
Definition generate_points {F} (xs ys zs : list F) : list (option F * option F * option F) :=
  let nx := length xs in let ny := length ys in let nz := length zs in
  map (fun p => (nth_error xs (p mod nx), nth_error ys ((p / nx) mod ny),
                 nth_error zs (p / (nx * ny))))
      (seq 0 (nx * ny * nz)).
