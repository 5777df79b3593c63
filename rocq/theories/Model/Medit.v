(** Model of src/meshio/medit/_medit.py. *)
From Verif.Lib Require Import Base Text Lines Bytes File.
From Verif.Model Require Import Core.
From Coq Require Import NArith.

(** An array of data, of integers or of floating point numbers. *)
Inductive darr (F : Type) : Type := IntArr (l : list Z) | RealArr (l : list F).
Arguments IntArr {F} _.
Arguments RealArr {F} _.
Definition is_int {F} (a : darr F) : bool := match a with IntArr _ => true | RealArr _ => false end.
Definition dlen {F} (a : darr F) : nat := match a with IntArr l => length l | RealArr l => length l end.

(** The mesh as the writers see it. *)
Inductive pdtype : Type := F4 | F8 | OtherType.
Record medit_in (F : Type) : Type := MeditIn {
  mi_dtype : pdtype; mi_dim : nat; mi_points : list (list F); mi_cells : list block;
  mi_point_data : dict (darr F); mi_cell_data : dict (list (darr F)) }.
Arguments MeditIn {F} _ _ _ _ _ _.
Arguments mi_dtype {F} _.
Arguments mi_dim {F} _.
Arguments mi_points {F} _.
Arguments mi_cells {F} _.
Arguments mi_point_data {F} _.
Arguments mi_cell_data {F} _.

(** What the readers return: points, cells, and the entries "medit:ref" of point_data and cell_data. *)
Record medit_out (F : Type) : Type := MeditOut {
  mo_points : list (list F); mo_cells : list block; mo_point_ref : option (list Z); mo_cell_ref : list (list Z) }.
Arguments MeditOut {F} _ _ _ _.
Arguments mo_points {F} _.
Arguments mo_cells {F} _.
Arguments mo_point_ref {F} _.
Arguments mo_cell_ref {F} _.

(** _common.py:104-122 [_pick_first_int_data].  [int0] tells whether [data[key][0]] is of integer type.  The
    callers test [if labels_key], so that an empty name counts as none. *)
Definition pick_first_int {A} (int0 : A -> result bool) (d : dict A) : result (option string) :=
  do l <- mapM (fun kv => do b <- int0 (snd kv); Ok (fst kv, b)) d;
  Ok (match find snd l with Some ("", _) => None | o => option_map fst o end).
Definition point_int0 {F} (a : darr F) : result bool := if Nat.eqb (dlen a) 0 then Err IndexError else Ok (is_int a).
Definition cell_int0 {F} (a : list (darr F)) : result bool := match a with [] => Err IndexError | x :: _ => Ok (is_int x) end.
(** The labels of the points; real numbers do not occur here. *)
Definition point_labels {F} (m : medit_in F) : result (list Z) :=
  do k <- pick_first_int point_int0 (mi_point_data m);
  match k with
  | None => Ok (repeat 1%Z (length (mi_points m)))
  | Some k => match dget k (mi_point_data m) with Some (IntArr l) => Ok l | _ => Err KeyError end
  end.
(** The labels of block [i], of [n] cells.  Simplification: if the array is of integer type for the first
    block but not for this one, the result is ValueError (true for ASCII files; binary ones round). *)
Definition cell_labels {F} (m : medit_in F) (key : option string) (i n : nat) : result (list Z) :=
  match key with
  | None => Ok (repeat 1%Z n)
  | Some k => do v <- of_option KeyError (dget k (mi_cell_data m));
              do a <- of_option IndexError (nth_error v i);
              match a with IntArr l => Ok l | RealArr _ => Err ValueError end
  end.

(** ** Binary files *)

(** _medit_internal.py:8-...: name, whether there is a counter, format *)
Definition medit_codes : zdict (string * bool * string) := Eval cbv in map (fun x => (Z.of_nat (fst x), snd x))
  [(0, ("GmfReserved", false, ""));
   (1, ("GmfMeshVersionFormatted", false, "i"));
   (2, ("GmfReserved", false, ""));
   (3, ("GmfDimension", false, "i"));
   (4, ("GmfVertices", true, "dri"));
   (5, ("GmfEdges", true, "iii"));
   (6, ("GmfTriangles", true, "iiii"));
   (7, ("GmfQuadrilaterals", true, "iiiii"));
   (8, ("GmfTetrahedra", true, "iiiii"));
   (9, ("GmfPrisms", true, "iiiiiii"));
   (10, ("GmfHexahedra", true, "iiiiiiiii"));
   (11, ("GmfReserved", false, ""));
   (12, ("GmfReserved", false, ""));
   (13, ("GmfCorners", true, "i"));
   (14, ("GmfRidges", true, "i"));
   (15, ("GmfRequiredVertices", true, "i"));
   (16, ("GmfRequiredEdges", true, "i"));
   (17, ("GmfRequiredTriangles", true, "i"));
   (18, ("GmfRequiredQuadrilaterals", true, "i"));
   (19, ("GmfTangentAtEdgeVertices", true, "iii"));
   (20, ("GmfNormalAtVertices", true, "ii"));
   (21, ("GmfNormalAtTriangleVertices", true, "iii"));
   (22, ("GmfNormalAtQuadrilateralVertices", true, "iiii"));
   (23, ("GmfAngleOfCornerBound", false, "r"));
   (24, ("GmfTrianglesP2", true, "iiiiiii"));
   (25, ("GmfEdgesP2", true, "iiii"));
   (26, ("GmfSolAtPyramids", true, "sr"));
   (27, ("GmfQuadrilateralsQ2", true, "iiiiiiiiii"));
   (28, ("GmfISolAtPyramids", true, "iiiii"));
   (29, ("GmfSubDomainFromGeom", true, "iii"));
   (30, ("GmfTetrahedraP2", true, "iiiiiiiiiii"));
   (31, ("GmfFault_NearTri", true, "i"));
   (32, ("GmfFault_Inter", true, "i"));
   (33, ("GmfHexahedraQ2", true, "iiiiiiiiiiiiiiiiiiiiiiiiiiii"));
   (34, ("GmfExtraVerticesAtEdges", true, "in"));
   (35, ("GmfExtraVerticesAtTriangles", true, "in"));
   (36, ("GmfExtraVerticesAtQuadrilaterals", true, "in"));
   (37, ("GmfExtraVerticesAtTetrahedra", true, "in"));
   (38, ("GmfExtraVerticesAtPrisms", true, "in"));
   (39, ("GmfExtraVerticesAtHexahedra", true, "in"));
   (40, ("GmfVerticesOnGeometricVertices", true, "ii"));
   (41, ("GmfVerticesOnGeometricEdges", true, "iirr"));
   (42, ("GmfVerticesOnGeometricTriangles", true, "iirrr"));
   (43, ("GmfVerticesOnGeometricQuadrilaterals", true, "iirrr"));
   (44, ("GmfEdgesOnGeometricEdges", true, "ii"));
   (45, ("GmfFault_FreeEdge", true, "i"));
   (46, ("GmfPolyhedra", true, "iiiiiiiiiiiiiiiiiiiiiiiiiiiiiiiii"));
   (47, ("GmfPolygons", false, "iiiiiiiii"));
   (48, ("GmfFault_Overlap", true, "i"));
   (49, ("GmfPyramids", true, "iiiiii"));
   (50, ("GmfBoundingBox", false, "drdr"));
   (51, ("GmfReserved", false, ""));
   (52, ("GmfPrivateTable", true, "i"));
   (53, ("GmfFault_BadShape", true, "i"));
   (54, ("GmfEnd", false, ""));
   (55, ("GmfTrianglesOnGeometricTriangles", true, "ii"));
   (56, ("GmfTrianglesOnGeometricQuadrilaterals", true, "ii"));
   (57, ("GmfQuadrilateralsOnGeometricTriangles", true, "ii"));
   (58, ("GmfQuadrilateralsOnGeometricQuadrilaterals", true, "ii"));
   (59, ("GmfTangents", true, "dr"));
   (60, ("GmfNormals", true, "dr"));
   (61, ("GmfTangentAtVertices", true, "ii"));
   (62, ("GmfSolAtVertices", true, "sr"));
   (63, ("GmfSolAtEdges", true, "sr"));
   (64, ("GmfSolAtTriangles", true, "sr"));
   (65, ("GmfSolAtQuadrilaterals", true, "sr"));
   (66, ("GmfSolAtTetrahedra", true, "sr"));
   (67, ("GmfSolAtPrisms", true, "sr"));
   (68, ("GmfSolAtHexahedra", true, "sr"));
   (69, ("GmfDSolAtVertices", true, "sr"));
   (70, ("GmfISolAtVertices", true, "i"));
   (71, ("GmfISolAtEdges", true, "ii"));
   (72, ("GmfISolAtTriangles", true, "iii"));
   (73, ("GmfISolAtQuadrilaterals", true, "iiii"));
   (74, ("GmfISolAtTetrahedra", true, "iiii"));
   (75, ("GmfISolAtPrisms", true, "iiiiii"));
   (76, ("GmfISolAtHexahedra", true, "iiiiiiii"));
   (77, ("GmfIterations", false, "i"));
   (78, ("GmfTime", false, "r"));
   (79, ("GmfFault_SmallTri", true, "i"));
   (80, ("GmfCoarseHexahedra", true, "i"));
   (81, ("GmfComments", true, "c"));
   (82, ("GmfPeriodicVertices", true, "ii"));
   (83, ("GmfPeriodicEdges", true, "ii"));
   (84, ("GmfPeriodicTriangles", true, "ii"));
   (85, ("GmfPeriodicQuadrilaterals", true, "ii"));
   (86, ("GmfPrismsP2", true, "iiiiiiiiiiiiiiiiiii"));
   (87, ("GmfPyramidsP2", true, "iiiiiiiiiiiiiii"));
   (88, ("GmfQuadrilateralsQ3", true, "iiiiiiiiiiiiiiiii"));
   (89, ("GmfQuadrilateralsQ4", true, "iiiiiiiiiiiiiiiiiiiiiiiiii"));
   (90, ("GmfTrianglesP3", true, "iiiiiiiiiii"));
   (91, ("GmfTrianglesP4", true, "iiiiiiiiiiiiiiii"));
   (92, ("GmfEdgesP3", true, "iiiii"));
   (93, ("GmfEdgesP4", true, "iiiiii"));
   (94, ("GmfIRefGroups", true, "ciii"));
   (95, ("GmfDRefGroups", true, "iii"));
   (96, ("GmfTetrahedraP3", true, "iiiiiiiiiiiiiiiiiiiii"));
   (97, ("GmfTetrahedraP4", true, "iiiiiiiiiiiiiiiiiiiiiiiiiiiiiiiiiiii"));
   (98, ("GmfHexahedraQ3", true, "iiiiiiiiiiiiiiiiiiiiiiiiiiiiiiiiiiiiiiiiiiiiiiiiiiiiiiiiiiiiiiiii"));
   (99, ("GmfHexahedraQ4", true, "iiiiiiiiiiiiiiiiiiiiiiiiiiiiiiiiiiiiiiiiiiiiiiiiiiiiiiiiiiiiiiiiiiiiiiiiiiiiiiiiiiiiiiiiiiiiiiiiiiiiiiiiiiiiiiiiiiiiiiiiiiiiii"));
   (100, ("GmfPyramidsP3", true, "iiiiiiiiiiiiiiiiiiiiiiiiiiiiiii"));
   (101, ("GmfPyramidsP4", true, "iiiiiiiiiiiiiiiiiiiiiiiiiiiiiiiiiiiiiiiiiiiiiiiiiiiiiiii"));
   (102, ("GmfPrismsP3", true, "iiiiiiiiiiiiiiiiiiiiiiiiiiiiiiiiiiiiiiiii"));
   (103, ("GmfPrismsP4", true, "iiiiiiiiiiiiiiiiiiiiiiiiiiiiiiiiiiiiiiiiiiiiiiiiiiiiiiiiiiiiiiiiiiiiiiiiiiii"));
   (104, ("GmfHOSolAtEdgesP1", true, "hr"));
   (105, ("GmfHOSolAtEdgesP2", true, "hr"));
   (106, ("GmfHOSolAtEdgesP3", true, "hr"));
   (107, ("GmfHOSolAtTrianglesP1", true, "hr"));
   (108, ("GmfHOSolAtTrianglesP2", true, "hr"));
   (109, ("GmfHOSolAtTrianglesP3", true, "hr"));
   (110, ("GmfHOSolAtQuadrilateralsQ1", true, "hr"));
   (111, ("GmfHOSolAtQuadrilateralsQ2", true, "hr"));
   (112, ("GmfHOSolAtQuadrilateralsQ3", true, "hr"));
   (113, ("GmfHOSolAtTetrahedraP1", true, "hr"));
   (114, ("GmfHOSolAtTetrahedraP2", true, "hr"));
   (115, ("GmfHOSolAtTetrahedraP3", true, "hr"));
   (116, ("GmfHOSolAtPyramidsP1", true, "hr"));
   (117, ("GmfHOSolAtPyramidsP2", true, "hr"));
   (118, ("GmfHOSolAtPyramidsP3", true, "hr"));
   (119, ("GmfHOSolAtPrismsP1", true, "hr"));
   (120, ("GmfHOSolAtPrismsP2", true, "hr"));
   (121, ("GmfHOSolAtPrismsP3", true, "hr"));
   (122, ("GmfHOSolAtHexahedraQ1", true, "hr"));
   (123, ("GmfHOSolAtHexahedraQ2", true, "hr"));
   (124, ("GmfHOSolAtHexahedraQ3", true, "hr"));
   (125, ("GmfBezierBasis", false, "i"));
   (126, ("GmfByteFlow", true, "i"));
   (127, ("GmfEdgesP2Ordering", true, "i"));
   (128, ("GmfEdgesP3Ordering", true, "i"));
   (129, ("GmfTrianglesP2Ordering", true, "iii"));
   (130, ("GmfTrianglesP3Ordering", true, "iii"));
   (131, ("GmfQuadrilateralsQ2Ordering", true, "ii"));
   (132, ("GmfQuadrilateralsQ3Ordering", true, "ii"));
   (133, ("GmfTetrahedraP2Ordering", true, "iiii"));
   (134, ("GmfTetrahedraP3Ordering", true, "iiii"));
   (135, ("GmfPyramidsP2Ordering", true, "iii"));
   (136, ("GmfPyramidsP3Ordering", true, "iii"));
   (137, ("GmfPrismsP2Ordering", true, "iiii"));
   (138, ("GmfPrismsP3Ordering", true, "iiii"));
   (139, ("GmfHexahedraQ2Ordering", true, "iii"));
   (140, ("GmfHexahedraQ3Ordering", true, "iii"));
   (141, ("GmfEdgesP1Ordering", true, "i"));
   (142, ("GmfEdgesP4Ordering", true, "i"));
   (143, ("GmfTrianglesP1Ordering", true, "iii"));
   (144, ("GmfTrianglesP4Ordering", true, "iii"));
   (145, ("GmfQuadrilateralsQ1Ordering", true, "ii"));
   (146, ("GmfQuadrilateralsQ4Ordering", true, "ii"));
   (147, ("GmfTetrahedraP1Ordering", true, "iiii"));
   (148, ("GmfTetrahedraP4Ordering", true, "iiii"));
   (149, ("GmfPyramidsP1Ordering", true, "iii"));
   (150, ("GmfPyramidsP4Ordering", true, "iii"));
   (151, ("GmfPrismsP1Ordering", true, "iiii"));
   (152, ("GmfPrismsP4Ordering", true, "iiii"));
   (153, ("GmfHexahedraQ1Ordering", true, "iii"));
   (154, ("GmfHexahedraQ4Ordering", true, "iii"));
   (155, ("GmfFloatingPointPrecision", false, "i"));
   (156, ("GmfHOSolAtEdgesP4", true, "hr"));
   (157, ("GmfHOSolAtTrianglesP4", true, "hr"));
   (158, ("GmfHOSolAtQuadrilateralsQ4", true, "hr"));
   (159, ("GmfHOSolAtTetrahedraP4", true, "hr"));
   (160, ("GmfHOSolAtPyramidsP4", true, "hr"));
   (161, ("GmfHOSolAtPrismsP4", true, "hr"));
   (162, ("GmfHOSolAtHexahedraQ4", true, "hr"));
   (163, ("GmfHOSolAtEdgesP1NodesPositions", true, "rr"));
   (164, ("GmfHOSolAtEdgesP2NodesPositions", true, "rr"));
   (165, ("GmfHOSolAtEdgesP3NodesPositions", true, "rr"));
   (166, ("GmfHOSolAtEdgesP4NodesPositions", true, "rr"));
   (167, ("GmfHOSolAtTrianglesP1NodesPositions", true, "rrr"));
   (168, ("GmfHOSolAtTrianglesP2NodesPositions", true, "rrr"));
   (169, ("GmfHOSolAtTrianglesP3NodesPositions", true, "rrr"));
   (170, ("GmfHOSolAtTrianglesP4NodesPositions", true, "rrr"));
   (171, ("GmfHOSolAtQuadrilateralsQ1NodesPositions", true, "rr"));
   (172, ("GmfHOSolAtQuadrilateralsQ2NodesPositions", true, "rr"));
   (173, ("GmfHOSolAtQuadrilateralsQ3NodesPositions", true, "rr"));
   (174, ("GmfHOSolAtQuadrilateralsQ4NodesPositions", true, "rr"));
   (175, ("GmfHOSolAtTetrahedraP1NodesPositions", true, "rrrr"));
   (176, ("GmfHOSolAtTetrahedraP2NodesPositions", true, "rrrr"));
   (177, ("GmfHOSolAtTetrahedraP3NodesPositions", true, "rrrr"));
   (178, ("GmfHOSolAtTetrahedraP4NodesPositions", true, "rrrr"));
   (179, ("GmfHOSolAtPyramidsP1NodesPositions", true, "rrr"));
   (180, ("GmfHOSolAtPyramidsP2NodesPositions", true, "rrr"));
   (181, ("GmfHOSolAtPyramidsP3NodesPositions", true, "rrr"));
   (182, ("GmfHOSolAtPyramidsP4NodesPositions", true, "rrr"));
   (183, ("GmfHOSolAtPrismsP1NodesPositions", true, "rrrr"));
   (184, ("GmfHOSolAtPrismsP2NodesPositions", true, "rrrr"));
   (185, ("GmfHOSolAtPrismsP3NodesPositions", true, "rrrr"));
   (186, ("GmfHOSolAtPrismsP4NodesPositions", true, "rrrr"));
   (187, ("GmfHOSolAtHexahedraQ1NodesPositions", true, "rrr"));
   (188, ("GmfHOSolAtHexahedraQ2NodesPositions", true, "rrr"));
   (189, ("GmfHOSolAtHexahedraQ3NodesPositions", true, "rrr"));
   (190, ("GmfHOSolAtHexahedraQ4NodesPositions", true, "rrr"));
   (191, ("GmfEdgesReferenceElement", false, "rr"));
   (192, ("GmfTriangleReferenceElement", false, "rrrrrr"));
   (193, ("GmfQuadrilateralReferenceElement", false, "rrrrrrrr"));
   (194, ("GmfTetrahedronReferenceElement", false, "rrrrrrrrrrrr"));
   (195, ("GmfPyramidReferenceElement", false, "rrrrrrrrrrrrrrr"));
   (196, ("GmfPrismReferenceElement", false, "rrrrrrrrrrrrrrrrrr"));
   (197, ("GmfHexahedronReferenceElement", false, "rrrrrrrrrrrrrrrrrrrrrrrr"));
   (198, ("GmfBoundaryLayers", true, "iii"))].

(** _medit.py:29-50 [_produce_dtype]: the size of an item in bytes *)
Fixpoint item_size (template : string) (dim isize fsize : nat) (times : nat) : result nat :=
  match template with
  | EmptyString => Ok 0
  | String c t =>
      if Ascii.eqb c "i" then do r <- item_size t dim isize fsize 1; Ok (times * isize + r)
      else if Ascii.eqb c "r" then do r <- item_size t dim isize fsize 1; Ok (times * fsize + r)
      else if Ascii.eqb c "d" then item_size t dim isize fsize dim
      else Err ReadError
  end.

(** _medit.py:55-64: GmfVertices is not in this table here *)
Definition meshio_from_medit : dict (string * nat) :=
  [("GmfEdges", ("line", 2)); ("GmfTriangles", ("triangle", 3)); ("GmfQuadrilaterals", ("quad", 4));
   ("GmfTetrahedra", ("tetra", 4)); ("GmfPrisms", ("wedge", 6)); ("GmfPyramids", ("pyramid", 5)); ("GmfHexahedra", ("hexahedron", 8))].

(** [np.fromfile(f, count=1, dtype).item()]: ValueError at the end of the file *)
Definition take_int (big : bool) (w : nat) (b : bytes) : result (Z * bytes) :=
  if Nat.ltb (length b) w then Err ValueError else Ok (sint_value big (firstn w b), skipn w b).
(** [np.fromfile(f, count=n)] for items of [w] bytes: as many as there are.  Simplification: a negative count
    is refused (numpy reads the rest of the file); bytes after the last whole item are dropped. *)
Definition take_bytes (n w : nat) (b : bytes) : list bytes * bytes :=
  let k := Nat.min n (length b / w) in (chunks w (firstn (k * w) b), skipn (n * w) b).

Section Binary.
Variable F : Type.
(** Floating point numbers of 4 or 8 bytes, in the given byte order. *)
Variable fcodec : bool -> nat -> codec F.

(** _medit.py:88-112: sizes of integers, floats and positions for each version *)
Definition medit_sizes (version : Z) : result (nat * nat * nat) :=
  if (version =? 1)%Z then Ok (4, 4, 4) else if (version =? 2)%Z then Ok (4, 8, 4)
  else if (version =? 3)%Z then Ok (4, 8, 8) else if (version =? 4)%Z then Ok (8, 8, 8) else Err ReadError.

Record bin_state : Type := BinState { bs_points : option (list (list F) * list Z); bs_cells : list block; bs_refs : list (list Z) }.

(** _medit.py:127-166: the loop; warnings are not modelled.  The item of the vertices is [dim] floats and one integer. *)
Definition vertex_of (big : bool) (dim isize fsize : nat) (item : bytes) : list F * Z :=
  (map (dec (fcodec big fsize)) (chunks fsize (firstn (dim * fsize) item)), sint_value big (skipn (dim * fsize) item)).
Fixpoint bin_loop (fuel : nat) (big : bool) (dim isize fsize psize : nat) (st : bin_state) (b : bytes) : result bin_state :=
  match fuel with
  | O => Err OutOfFuel
  | S fuel' =>
      if Nat.ltb (length b) 4 then Ok st else
      let field := sint_value big (firstn 4 b) in
      let b := skipn 4 b in
      do fc <- of_option ReadError (zget field medit_codes);
      let '(name, counter, template) := fc in
      if String.eqb name "GmfEnd" then Ok st else
      if String.eqb name "GmfReserved" then bin_loop fuel' big dim isize fsize psize st b else
      let b := skipn psize b in
      do n <- (if counter : bool then take_int big isize b else Ok (1%Z, b));
      do size <- item_size template dim isize fsize 1;
      if (fst n <? 0)%Z then Err ValueError else
      let t := take_bytes (Z.to_nat (fst n)) size (snd n) in
      if String.eqb name "GmfVertices" then
        let vs := map (vertex_of big dim isize fsize) (fst t) in
        bin_loop fuel' big dim isize fsize psize (BinState (Some (map fst vs, map snd vs)) (bs_cells st) (bs_refs st)) (snd t)
      else match dget name meshio_from_medit with
      | None => bin_loop fuel' big dim isize fsize psize st (snd t)
      | Some (ct, ncols) =>
          let rows := map (fun it => map (sint_value big) (chunks isize it)) (fst t) in
          if negb (Nat.eqb (length rows) (Z.to_nat (fst n))) then Err ValueError else
          bin_loop fuel' big dim isize fsize psize
            (BinState (bs_points st) (bs_cells st ++ [Block ct (map (fun r => map (fun i => i - 1)%Z (firstn ncols r)) rows)])
                      (bs_refs st ++ [map (fun r => last r 0%Z) rows])) (snd t)
      end
  end.

(** _medit.py:53-168 [read_binary_buffer], on a machine with little-endian numbers.  (Without vertices the
    points are None, which the constructor of the mesh refuses.) *)
Definition read_medit_binary (b : bytes) : result (medit_out F) :=
  do c <- take_int false 4 b;
  if negb ((fst c =? 1) || (fst c =? 16777216))%Z then Err ReadError else
  let big := (fst c =? 16777216)%Z in
  do v <- take_int big 4 (snd c);
  do sz <- medit_sizes (fst v);
  let '(isize, fsize, psize) := sz in
  do f <- take_int big 4 (snd v);
  if negb (fst f =? 3)%Z then Err ReadError else
  do d <- take_int big 4 (skipn psize (snd f));
  if negb ((fst d =? 2) || (fst d =? 3))%Z then Err ReadError else
  do st <- bin_loop (S (length b)) big (Z.to_nat (fst d)) isize fsize psize (BinState None [] []) (snd d);
  match bs_points st with
  | None => Err TypeError
  | Some (pts, refs) => Ok (MeditOut pts (bs_cells st) (Some refs) (bs_refs st))
  end.

(** _medit.py:468-476 *)
Definition medit_keys : dict Z :=
  [("line", 5); ("triangle", 6); ("quad", 7); ("tetra", 8); ("wedge", 9); ("pyramid", 49); ("hexahedron", 10)]%Z.

(** _medit.py:477-523: the blocks from number [i], the position before them is [pos]; also the final keyword.
    [w] bytes for an integer.  Simplification: the widths of the blocks are those of their types.  *)
Fixpoint bin_blocks (m : medit_in F) (key : option string) (w i : nat) (pos : Z) (bs : list block) : result bytes :=
  match bs with
  | [] => Ok (sint_bytes false 4 54 ++ sint_bytes false 8 0)
  | b :: bs' =>
      match dget (btype b) medit_keys with
      | None => bin_blocks m key w (S i) pos bs'
      | Some k =>
          let ncols := length (hd [] (bdata b)) in
          let pos := (pos + Z.of_nat (blen b * (ncols + 1) * w) + Z.of_nat (4 + 8 + w))%Z in
          do labels <- cell_labels m key i (blen b);
          do r <- bin_blocks m key w (S i) pos bs';
          Ok (sint_bytes false 4 k ++ sint_bytes false 8 pos ++ sint_bytes false w (Z.of_nat (blen b)) ++
              flat_map (fun cl => flat_map (fun i => sint_bytes false w (i + 1)) (fst cl) ++ sint_bytes false w (snd cl)) (combine (bdata b) labels) ++ r)
      end
  end.

(** _medit.py:382-523 [write_binary_file].  [big_ints]: some block has 64 bit integers. *)
Definition write_medit_binary (big_ints : bool) (m : medit_in F) : result bytes :=
  let w := if big_ints then 8 else 4 in
  let version := (if big_ints then 4 else 3)%Z in
  let n := length (mi_points m) in
  let pos := 24%Z in
  let pos' := (pos + Z.of_nat (n * mi_dim m * 8) + Z.of_nat (n * w) + Z.of_nat (4 + 8 + w))%Z in
  do labels <- point_labels m;
  do key <- pick_first_int cell_int0 (mi_cell_data m);
  do r <- bin_blocks m key w 0 pos' (mi_cells m);
  Ok (sint_bytes false 4 1 ++ sint_bytes false 4 version ++ sint_bytes false 4 3 ++ sint_bytes false 8 pos ++ sint_bytes false 4 (Z.of_nat (mi_dim m)) ++
      sint_bytes false 4 4 ++ sint_bytes false 8 pos' ++ sint_bytes false w (Z.of_nat n) ++
      flat_map (fun pl => flat_map (enc (fcodec false 8)) (fst pl) ++ sint_bytes false w (snd pl)) (combine (mi_points m) labels) ++ r).
End Binary.

(** ** ASCII files *)
Section Ascii.
Context {fl : floats}.
(** [.astype(int)] *)
Variable to_int : fl -> Z.

Definition isalpha (s : string) : bool :=
  negb (String.eqb s "") && forallb (fun a => let n := nat_of_ascii a in (Nat.leb 65 n && Nat.leb n 90) || (Nat.leb 97 n && Nat.leb n 122)) (list_ascii_of_string s).

(** _medit.py:177-186 *)
Definition medit_names : dict (string * nat) :=
  [("Edges", ("line", 2)); ("Triangles", ("triangle", 3)); ("Quadrilaterals", ("quad", 4)); ("Tetrahedra", ("tetra", 4));
   ("Prisms", ("wedge", 6)); ("Pyramids", ("pyramid", 5)); ("Hexahedra", ("hexahedron", 8)); ("Hexaedra", ("hexahedron", 8))].

Record asc_state : Type := AscState {
  ac_dim : Z; ac_dtype : bool; ac_points : option (list (list fl) * list Z); ac_cells : list block; ac_refs : list (list Z) }.

(** [int(f.readline())] and then [np.fromfile(f, count=n * k, sep=" ").reshape(n, k)].  Simplification: numbers
    that cannot be parsed are errors also where numpy only stops.  A negative count is refused. *)
Definition counted {A} (parse : list string -> result (list A)) (k : nat) (ls : list string) : result (list (list A) * list string) :=
  do n <- int_line (line1 ls);
  if (n <? 0)%Z then Err ValueError else
  do t <- of_option ValueError (take_tokens (Z.to_nat n * k) (tl ls));
  do v <- parse (fst t);
  Ok (chunks k v, snd t).

(** _medit.py:190-291: a line that is neither blank nor a comment, and what follows it *)
Definition asc_step (st : asc_state) (items : list string) (ls : list string) : result (asc_state * list string) :=
  let key := hd "" items in
  if negb (isalpha key) then Err ReadError else
  if String.eqb key "MeshVersionFormatted" then
    match items with
    | _ :: v :: _ => if smem v ["0"; "1"; "2"] then Ok (AscState (ac_dim st) true (ac_points st) (ac_cells st) (ac_refs st), ls) else Err KeyError
    | _ => Err IndexError
    end
  else if String.eqb key "Dimension" then
    match items with
    | _ :: v :: _ => do d <- of_option ValueError (parse_Z v); Ok (AscState d (ac_dtype st) (ac_points st) (ac_cells st) (ac_refs st), ls)
    | _ => do d <- int_line (line1 ls); Ok (AscState d (ac_dtype st) (ac_points st) (ac_cells st) (ac_refs st), tl ls)
    end
  else if String.eqb key "Vertices" then
    if (ac_dim st <=? 0)%Z then Err ReadError else
    if negb (ac_dtype st) then Err ReadError else
    let dim := Z.to_nat (ac_dim st) in
    do r <- counted (parse_floats (fl := fl)) (dim + 1) ls;
    Ok (AscState (ac_dim st) (ac_dtype st) (Some (map (firstn dim) (fst r), map (fun v => to_int (nth dim v fzero)) (fst r))) (ac_cells st) (ac_refs st), snd r)
  else match dget key medit_names with
  | Some (ct, n) =>
      do r <- counted parse_ints (n + 1) ls;
      Ok (AscState (ac_dim st) (ac_dtype st) (ac_points st)
            (ac_cells st ++ [Block ct (map (fun v => map (fun i => i - 1)%Z (firstn n v)) (fst r))])
            (ac_refs st ++ [map (fun v => last v 0%Z) (fst r)]), snd r)
  | None =>
      if String.eqb key "Corners" then do r <- counted (parse_floats (fl := fl)) 1 ls; Ok (st, snd r)
      else if String.eqb key "Normals" then
        if (ac_dim st <? 0)%Z then Err ValueError else do r <- counted (parse_floats (fl := fl)) (Z.to_nat (ac_dim st)) ls; Ok (st, snd r)
      else if smem key ["NormalAtVertices"; "VertexOnGeometricVertex"; "EdgeOnGeometricEdge"] then do r <- counted parse_ints 2 ls; Ok (st, snd r)
      else if String.eqb key "SubDomainFromMesh" then do r <- counted parse_ints 4 ls; Ok (st, snd r)
      else if String.eqb key "VertexOnGeometricEdge" then do r <- counted (parse_floats (fl := fl)) 3 ls; Ok (st, snd r)
      else if smem key ["Identifier"; "Geometry"] then Ok (st, tl ls)
      else if smem key ["RequiredVertices"; "TangentAtVertices"; "Tangents"; "Ridges"] then
        do n <- int_line (line1 ls); Ok (st, skipn (Z.to_nat n) (tl ls))
      else if String.eqb key "End" then Ok (st, ls) else Err ReadError
  end.
Fixpoint asc_loop (fuel : nat) (st : asc_state) (ls : list string) : result asc_state :=
  match ls with
  | [] => Ok st
  | line :: ls' =>
      match fuel with
      | O => Err OutOfFuel
      | S fuel' =>
          if blank line || startswith (strip line) "#" then asc_loop fuel' st ls' else
          do r <- asc_step st (split_ws line) ls'; asc_loop fuel' (fst r) (snd r)
      end
  end.
(** _medit.py:171-297 [read_ascii_buffer] *)
Definition read_medit_ascii (ls : list string) : result (medit_out fl) :=
  do st <- asc_loop (length ls) (AscState 0 false None [] []) ls;
  match ac_points st with
  | None => Err ReadError
  | Some (pts, refs) => Ok (MeditOut pts (ac_cells st) (Some refs) (ac_refs st))
  end.

(** _medit.py:334-342 *)
Definition names_from_meshio : dict string :=
  [("line", "Edges"); ("triangle", "Triangles"); ("quad", "Quadrilaterals"); ("tetra", "Tetrahedra");
   ("wedge", "Prisms"); ("pyramid", "Pyramids"); ("hexahedron", "Hexahedra")].
(** _medit.py:353-377 *)
Fixpoint asc_blocks (m : medit_in fl) (key : option string) (i : nat) (bs : list block) : result (list string) :=
  match bs with
  | [] => Ok [""; "End"]
  | b :: bs' =>
      match dget (btype b) names_from_meshio with
      | None => asc_blocks m key (S i) bs'
      | Some name =>
          do labels <- cell_labels m key i (blen b);
          do r <- asc_blocks m key (S i) bs';
          Ok (["" ; name; str_of_nat (blen b)] ++
              map (fun cl => row_line (map str_of_Z (map (fun i => i + 1)%Z (fst cl) ++ [snd cl]))) (combine (bdata b) labels) ++ r)
      end
  end.
(** _medit.py:307-379 [write_ascii_file] *)
Definition write_medit_ascii (m : medit_in fl) : result (list string) :=
  do version <- (match mi_dtype m with F4 => Ok "1" | F8 => Ok "2" | OtherType => Err KeyError end);
  do labels <- point_labels m;
  do key <- pick_first_int cell_int0 (mi_cell_data m);
  do r <- asc_blocks m key 0 (mi_cells m);
  Ok ([row_line ["MeshVersionFormatted"; version]; row_line ["Dimension"; str_of_nat (mi_dim m)]; ""; "Vertices"; str_of_nat (length (mi_points m))] ++
      map (fun pl => row_line (map ffmt (fst pl) ++ [str_of_Z (snd pl)])) (combine (mi_points m) labels) ++ r).
End Ascii.
