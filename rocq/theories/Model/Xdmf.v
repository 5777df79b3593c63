(** Model of src/meshio/xdmf/common.py, src/meshio/xdmf/main.py and
    src/meshio/xdmf/time_series.py.

    The XML tree is a list of elements; that ElementTree writes and parses a tree without change is
    trusted, with one exception that matters: an empty text is parsed as None.  The HDF5 file is a
    map from data set names to arrays, a binary file a byte string.  Arrays have at least one dimension
    and are kept as lists of rows (the first dimension), every row flat.  XDMF 2 files, the elements
    Information and the attribute Reference are not modelled. *)
From Verif.Lib Require Import Base Text Lines Runs Bytes File.
From Verif.Model Require Import Core.

(** ** common.py *)

(** common.py:6-18 *)
Definition numpy_to_xdmf_dtype : dict (string * string) := [
  ("int8", ("Int", "1")); ("int16", ("Int", "2")); ("int32", ("Int", "4")); ("int64", ("Int", "8"));
  ("uint8", ("UInt", "1")); ("uint16", ("UInt", "2")); ("uint32", ("UInt", "4")); ("uint64", ("UInt", "8"));
  ("float32", ("Float", "4")); ("float64", ("Float", "8")) ].
Definition xdmf_to_numpy_type (dp : string * string) : option string :=
  option_map fst (find (fun kv => String.eqb (fst (snd kv)) (fst dp) && String.eqb (snd (snd kv)) (snd dp)) numpy_to_xdmf_dtype).
(** The item size of the dtypes. *)
Definition dtype_width : dict nat := [
  ("int8", 1); ("int16", 2); ("int32", 4); ("int64", 8); ("uint8", 1); ("uint16", 2); ("uint32", 4); ("uint64", 8);
  ("float32", 4); ("float64", 8) ].
(** common.py:20-27: the keys; the formats are [x_fmt] below *)
Definition text_dtypes : list string := ["int32"; "int64"; "uint32"; "uint64"; "float32"; "float64"].

(** common.py:36-64 *)
Definition meshio_to_xdmf_type : dict (list string) := [
  ("vertex", ["Polyvertex"]); ("line", ["Polyline"]); ("line3", ["Edge_3"]); ("quad", ["Quadrilateral"]);
  ("quad8", ["Quadrilateral_8"; "Quad_8"]); ("quad9", ["Quadrilateral_9"; "Quad_9"]); ("pyramid", ["Pyramid"]);
  ("pyramid13", ["Pyramid_13"]); ("tetra", ["Tetrahedron"]); ("triangle", ["Triangle"]);
  ("triangle6", ["Triangle_6"; "Tri_6"]); ("tetra10", ["Tetrahedron_10"; "Tet_10"]); ("wedge", ["Wedge"]);
  ("wedge15", ["Wedge_15"]); ("wedge18", ["Wedge_18"]); ("hexahedron", ["Hexahedron"]);
  ("hexahedron20", ["Hexahedron_20"; "Hex_20"]); ("hexahedron24", ["Hexahedron_24"; "Hex_24"]);
  ("hexahedron27", ["Hexahedron_27"; "Hex_27"]); ("hexahedron64", ["Hexahedron_64"; "Hex_64"]);
  ("hexahedron125", ["Hexahedron_125"; "Hex_125"]); ("hexahedron216", ["Hexahedron_216"; "Hex_216"]);
  ("hexahedron343", ["Hexahedron_343"; "Hex_343"]); ("hexahedron512", ["Hexahedron_512"; "Hex_512"]);
  ("hexahedron729", ["Hexahedron_729"; "Hex_729"]); ("hexahedron1000", ["Hexahedron_1000"; "Hex_100"]);
  ("hexahedron1331", ["Hexahedron_1331"; "Hex_1331"]) ].
Definition xdmf_to_meshio_type : dict string :=
  flat_map (fun kv => map (fun v => (v, fst kv)) (snd kv)) meshio_to_xdmf_type.

(** common.py:72-108 *)
Definition xdmf_idx_to_meshio_type : zdict string := [
  (1%Z, "vertex"); (2%Z, "line"); (4%Z, "triangle"); (5%Z, "quad"); (6%Z, "tetra"); (7%Z, "pyramid"); (8%Z, "wedge");
  (9%Z, "hexahedron"); (34%Z, "line3"); (35%Z, "quad9"); (36%Z, "triangle6"); (37%Z, "quad8"); (38%Z, "tetra10");
  (39%Z, "pyramid13"); (40%Z, "wedge15"); (41%Z, "wedge18"); (48%Z, "hexahedron20"); (49%Z, "hexahedron24");
  (50%Z, "hexahedron27"); (51%Z, "hexahedron64"); (52%Z, "hexahedron125"); (53%Z, "hexahedron216");
  (54%Z, "hexahedron343"); (55%Z, "hexahedron512"); (56%Z, "hexahedron729"); (57%Z, "hexahedron1000");
  (64%Z, "hexahedron1331") ].
Definition meshio_type_to_xdmf_index : dict Z := map (fun kv => (snd kv, fst kv)) xdmf_idx_to_meshio_type.

(** common.py:118-128 *)
Definition xdmf_idx_to_num_nodes : zdict nat :=
  [(1%Z, 1); (2%Z, 2); (4%Z, 3); (5%Z, 4); (6%Z, 4); (7%Z, 5); (8%Z, 6); (9%Z, 8); (11%Z, 6)].

(** common.py:130-143: types and offsets; [data] is the array from position [r] on *)
Fixpoint mixed_scan (fuel : nat) (data : list Z) (r : nat) : result (list (Z * nat)) :=
  match data with
  | [] => Ok []
  | t :: data' =>
      match fuel with
      | O => Err OutOfFuel
      | S fuel' =>
          do skip <- (if Z.eqb t 2 then
                        match data' with
                        | [] => Err IndexError
                        | n :: _ => if Z.eqb n 2 then Ok 1 else Err ReadError
                        end
                      else Ok 0);
          do n <- of_option KeyError (zget t xdmf_idx_to_num_nodes);
          let w := skip + 1 + n in
          do rest <- mixed_scan fuel' (skipn w data) (r + w);
          Ok ((t, r) :: rest)
      end
  end.
(** common.py:149-155: the block of the cells [start, end) *)
Definition mixed_block (data types : list Z) (offsets : list nat) (se : nat * nat) : result block :=
  do code <- of_option IndexError (nth_error types (fst se));
  do t <- of_option KeyError (zget code xdmf_idx_to_meshio_type);
  do n <- of_option KeyError (zget code xdmf_idx_to_num_nodes);
  do rows <- mapM (fun o => gather data (map (fun i => Z.of_nat (o + (if Z.eqb code 2 then 2 else 1) + i)) (seq 0 n)))
                  (slice (fst se) (snd se) offsets);
  Ok (Block t rows).
(** common.py:111-157 *)
Definition translate_mixed_cells (data : list Z) : result (list block) :=
  do s <- mixed_scan (length data) data 0;
  let types := map fst s in
  mapM (mixed_block data types (map snd s)) (bounds Z.eqb types).

(** common.py:160-176; [tail] is the shape without its first entry *)
Definition attribute_type (tail : list nat) : result string :=
  match tail with
  | [] | [1] => Ok "Scalar"
  | [2] | [3] => Ok "Vector"
  | [9] | [3; 3] => Ok "Tensor"
  | [6] => Ok "Tensor6"
  | [_; _] => Ok "Matrix"
  | _ => Err ReadError
  end.

(** ** Arrays and files *)
Inductive xnum (F : Type) : Type := Int (z : Z) | Real (f : F).
Arguments Int {F} _.
Arguments Real {F} _.
(** Printing and parsing of floats per dtype, [str] of a time, and the bytes of numbers per dtype. *)
Record xnums (F : Type) : Type := XNums {
  x_fmt : string -> F -> string; x_parse : string -> string -> option F;
  x_str : F -> string; x_codec : string -> codec (xnum F) }.
Arguments x_fmt {F} _ _ _.
Arguments x_parse {F} _ _ _.
Arguments x_str {F} _ _.
Arguments x_codec {F} _ _.
Record xarr (F : Type) : Type := XArr { xa_dtype : string; xa_tail : list nat; xa_rows : list (list (xnum F)) }.
Arguments XArr {F} _ _ _.
Arguments xa_dtype {F} _.
Arguments xa_tail {F} _.
Arguments xa_rows {F} _.
Definition xa_shape {F} (a : xarr F) : list nat := length (xa_rows a) :: xa_tail a.

(** A DataItem; the text as lines. *)
Record ditem : Type := DItem { d_type : string; d_prec : string; d_dims : string; d_format : string; d_text : list string }.
(** The elements below a Grid. *)
Inductive xel (F : Type) : Type :=
| Geometry (gtype : string) (d : ditem)
| Topology (ttype : string) (d : ditem)
| Attribute (name center : string) (d : ditem)
| Time (value : string)
| Include.
Arguments Geometry {F} _ _.
Arguments Topology {F} _ _.
Arguments Attribute {F} _ _ _.
Arguments Time {F} _.
Arguments Include {F}.
(** What a writer has stored outside of the XML file so far. *)
Record store (F : Type) : Type := Store { st_count : nat; st_bins : dict bytes; st_h5 : dict (xarr F) }.
Arguments Store {F} _ _ _.
Arguments st_count {F} _.
Arguments st_bins {F} _.
Arguments st_h5 {F} _.

Section Xdmf.
Context {F : Type} (N : xnums F).

Definition num_fmt (dt : string) (v : xnum F) : string :=
  match v with Int z => str_of_Z z | Real f => x_fmt N dt f end.
Definition num_parse (dt tok : string) : option (xnum F) :=
  if startswith dt "float" then option_map Real (x_parse N dt tok) else option_map Int (parse_Z tok).

(** [numpy_to_xml_string]: main.py:376-402; with [ts], time_series.py:340-360 (flattened, and no line
    feed in front).  [base] is the name of binary files without number, [h5name] the name of the HDF5
    file.  (np.savetxt takes one- and two-dimensional arrays.) *)
Definition xml_string (ts : bool) (format base h5name : string) (st : store F) (a : xarr F) : result (list string * store F) :=
  if String.eqb format "XML" then
    if negb (smem (xa_dtype a) text_dtypes) then Err KeyError else
    if ts then Ok (map (num_fmt (xa_dtype a)) (concat (xa_rows a)), st)
    else if Nat.ltb 1 (length (xa_tail a)) then Err ValueError
    else Ok ("" :: map (fun r => row_line (map (num_fmt (xa_dtype a)) r)) (xa_rows a), st)
  else if String.eqb format "Binary" then
    let name := (base ++ str_of_nat (st_count st) ++ ".bin")%string in
    Ok ([name], Store (S (st_count st)) (dset name (concat (map (enc (x_codec N (xa_dtype a))) (concat (xa_rows a)))) (st_bins st)) (st_h5 st))
  else
    let name := ("data" ++ str_of_nat (st_count st))%string in
    if dmem name (st_h5 st) then Err ValueError else
    Ok ([(h5name ++ ":/" ++ name)%string], Store (S (st_count st)) (st_bins st) (dset name a (st_h5 st))).

(** The DataItem of an array with the given Dimensions, as in main.py:410-420 and the other places. *)
Definition data_item (ts : bool) (format base h5name : string) (st : store F) (dims : list nat) (a : xarr F) : result (ditem * store F) :=
  do dp <- of_option KeyError (dget (xa_dtype a) numpy_to_xdmf_dtype);
  do tx <- xml_string ts format base h5name st a;
  Ok (DItem (fst dp) (snd dp) (row_line (map str_of_nat dims)) format (fst tx), snd tx).

(** [reshape(dims)] *)
Definition reshape (dt : string) (dims : list nat) (vals : list (xnum F)) : result (xarr F) :=
  match dims with
  | [] => Err ValueError
  | n :: tail =>
      let k := fold_right Nat.mul 1 tail in
      if Nat.eqb (n * k) (length vals)
      then Ok (XArr dt tail (if Nat.eqb k 0 then repeat [] n else chunks k vals))
      else Err ValueError
  end.

(** [_read_data_item]: main.py:55-120; with [ts], time_series.py:175-231.  [h5s] maps paths to HDF5 files,
    [dir] is the directory of the XML file.  In the time series reader an empty text is None, and
    np.fromstring(None) is a TypeError. *)
Definition read_item (ts : bool) (bins : dict bytes) (h5s : dict (dict (xarr F))) (dir : string) (d : ditem) : result (xarr F) :=
  do dims <- mapM (fun t => of_option ValueError (parse_Z t)) (split_ws (d_dims d));
  if String.eqb (d_format d) "XML" then
    do dt <- of_option KeyError (xdmf_to_numpy_type (d_type d, d_prec d));
    if ts && (match d_text d with [] => true | _ => false end) then Err TypeError else
    do vals <- mapM (fun t => of_option ValueError (num_parse dt t)) (flat_map split_ws (d_text d));
    reshape dt (map Z.to_nat dims) vals
  else if String.eqb (d_format d) "Binary" then
    do dt <- of_option KeyError (xdmf_to_numpy_type (d_type d, d_prec d));
    do w <- of_option KeyError (dget dt dtype_width);
    do b <- of_option OSError (dget (strip (hd "" (d_text d))) bins);
    do items <- frombuffer w b;
    reshape dt (map Z.to_nat dims) (map (dec (x_codec N dt)) items)
  else if String.eqb (d_format d) "HDF" then
    match split_char ":" (strip (hd "" (d_text d))) with
    | [file; String c path] =>
        do path <- (if Ascii.eqb c "/" then Ok path else if ts then Err ReadError else Ok (String c path));
        do h5 <- of_option OSError (dget (dir ++ "/" ++ file)%string h5s);
        of_option KeyError (dget path h5)
    | [_; EmptyString] => Err IndexError
    | _ => Err ValueError
    end
  else Err ReadError.

(** ** Meshes *)

(** Cell data: all blocks of an entry have the same dtype and trailing shape (otherwise numpy promotes
    or raises); the rows per block. *)
Record xcd : Type := XCd { cd_dtype : string; cd_tail : list nat; cd_rows : list (list (list (xnum F))) }.
(** [xm_ctype] is the dtype of the cell arrays. *)
Record xmesh : Type := XMesh { xm_points : xarr F; xm_ctype : string; xm_cells : list block;
  xm_pd : dict (xarr F); xm_cd : dict xcd }.

(** A two-dimensional integer array.  (The width of an empty block is taken as 0.) *)
Definition int_rows (dt : string) (rows : list cell) : xarr F :=
  XArr dt [length (hd [] rows)] (map (map Int) rows).
Definition int_vector (dt : string) (v : list Z) : xarr F := XArr dt [] (map (fun z => [Int z]) v).
(** An integer array (read as cells); floating point numbers are not modelled here. *)
Definition to_ints (rows : list (list (xnum F))) : result (list (list Z)) :=
  mapM (mapM (fun v => match v with Int z => Ok z | Real _ => Err TypeError end)) rows.

(** main.py:448-472: the array of a mixed topology (a concatenation with np.full is int64), and its
    dimension.  (uint64 cells become float64 in the concatenation and are read as floating point
    cells; in [topology] that is an error here.) *)
Definition mixed_block_data (b : block) : result (list Z) :=
  do code <- of_option KeyError (dget (btype b) meshio_type_to_xdmf_index);
  Ok (flat_map (fun c => repeat code (if smem (btype b) ["vertex"; "line"] then 2 else 1) ++ c) (bdata b)).
Definition mixed_dim (bs : list block) : nat :=
  sum_nat (map (fun b => sum_nat (map (@length Z) (bdata b))) bs) + sum_nat (map blen bs) +
  sum_nat (map blen (filter (fun b => smem (btype b) ["vertex"; "line"]) bs)).
(** time_series.py:418-444.  [c.data[:] = np.insert(c.data, 0, 2, axis=1)] is a ValueError, because
    the array has one more column. *)
Definition ts_mixed_block_data (b : block) : result (list Z) :=
  do code <- of_option KeyError (dget (btype b) meshio_type_to_xdmf_index);
  Ok (flat_map (fun c => code :: c) (bdata b)).
Definition ts_mixed_dim (bs : list block) : nat :=
  sum_nat (map (fun b => sum_nat (map (@length Z) (bdata b))) bs) + sum_nat (map blen bs).

(** main.py:421-487 / time_series.py:382-457: what goes into the element Topology *)
Definition topology (ts : bool) (ctype : string) (bs : list block) : result (option (string * list nat * xarr F)) :=
  match bs with
  | [] => Ok None
  | [b] =>
      do xs <- of_option KeyError (dget (btype b) meshio_to_xdmf_type);
      let a := int_rows ctype (bdata b) in
      Ok (Some (hd "" xs, xa_shape a, a))
  | _ =>
      if ts then
        if existsb (fun b => String.eqb (btype b) "line") bs then Err ValueError else
        do l <- mapM ts_mixed_block_data bs;
        Ok (Some ("Mixed", [ts_mixed_dim bs], int_vector ctype (concat l)))
      else if String.eqb ctype "uint64" then Err TypeError
      else
        do l <- mapM mixed_block_data bs;
        Ok (Some ("Mixed", [mixed_dim bs], int_vector "int64" (concat l)))
  end.

(** Elements with their arrays, before the arrays are stored. *)
Definition request : Type := (ditem -> xel F) * (list nat * xarr F).
Fixpoint put_all (ts : bool) (format base h5name : string) (st : store F) (l : list request) : result (list (xel F) * store F) :=
  match l with
  | [] => Ok ([], st)
  | (el, (dims, a)) :: l' =>
      do d <- data_item ts format base h5name st dims a;
      do r <- put_all ts format base h5name (snd d) l';
      Ok (el (fst d) :: fst r, snd r)
  end.

(** main.py:489-506 and time_series.py:459-477 *)
Definition attribute_request (center : string) (na : string * xarr F) : result request :=
  do _ <- attribute_type (xa_tail (snd na));
  Ok (Attribute (fst na) center, (xa_shape (snd na), snd na)).
(** main.py:508-526 and time_series.py:479-499, with [raw_from_cell_data] *)
Definition raw_arrays (cd : dict xcd) : result (dict (xarr F)) :=
  mapM (fun kv => match cd_rows (snd kv) with
                  | [] => Err ValueError
                  | l => Ok (fst kv, XArr (cd_dtype (snd kv)) (cd_tail (snd kv)) (concat l))
                  end) cd.
(** [cell_data_from_raw] *)
Definition split_array (cells : list block) (a : xarr F) : xcd :=
  XCd (xa_dtype a) (xa_tail a) (cell_data_from_raw1 (map blen cells) (xa_rows a)).

(** main.py:404-420 / time_series.py:362-380: GeometryType *)
Definition geometry_type (ts : bool) (tail : list nat) : result string :=
  match tail with
  | [0] => if ts then Err WriteError else Ok ""
  | [1] => if ts then Err WriteError else Ok "X"
  | [2] => Ok "XY"
  | [3] => Ok "XYZ"
  | [_] => Err WriteError
  | _ => Err IndexError
  end.

(** ** main.py *)

(** main.py:334-374.  All requests are made before the first array is stored; when something is wrong the
    kind of the error can differ from the code's. *)
Definition write_xdmf (format base h5name : string) (m : xmesh) : result (list (xel F) * store F) :=
  if negb (smem format ["XML"; "Binary"; "HDF"]) then Err WriteError else
  do gt <- geometry_type false (xa_tail (xm_points m));
  do topo <- topology false (xm_ctype m) (xm_cells m);
  do pd <- mapM (attribute_request "Node") (xm_pd m);
  do raw <- raw_arrays (xm_cd m);
  do cd <- mapM (attribute_request "Cell") raw;
  put_all false format base h5name (Store 0 [] [])
    ([(Geometry gt, (xa_shape (xm_points m), xm_points m))] ++
     (match topo with None => [] | Some (t, dims, a) => [(Topology t, (dims, a))] end) ++ pd ++ cd).

(** The variables of [read_xdmf3]. *)
Record xread : Type := XRead { r_points : option (xarr F); r_cells : list block; r_pd : dict (xarr F); r_raw : dict (xarr F) }.
(** main.py:258-305 (and with [ts] time_series.py:93-127): one element *)
Definition read_topology (rd : ditem -> result (xarr F)) (cells : list block) (t : string) (d : ditem) : result (list block) :=
  do a <- rd d;
  do rows <- to_ints (xa_rows a);
  if String.eqb t "Mixed" then translate_mixed_cells (concat rows)
  else do n <- of_option KeyError (dget t xdmf_to_meshio_type); Ok (cells ++ [Block n rows]).
Definition read_element (rd : ditem -> result (xarr F)) (s : xread) (e : xel F) : result xread :=
  match e with
  | Topology t d => do cs <- read_topology rd (r_cells s) t d; Ok (XRead (r_points s) cs (r_pd s) (r_raw s))
  | Geometry g d =>
      if negb (smem g ["XY"; "XYZ"]) then Err ReadError else
      do a <- rd d; Ok (XRead (Some a) (r_cells s) (r_pd s) (r_raw s))
  | Attribute name center d =>
      do a <- rd d;
      if String.eqb center "Node" then Ok (XRead (r_points s) (r_cells s) (dset name a (r_pd s)) (r_raw s))
      else if String.eqb center "Cell" then Ok (XRead (r_points s) (r_cells s) (r_pd s) (dset name a (r_raw s)))
      else Err ReadError
  | _ => Err ReadError
  end.
Fixpoint foldM {A B} (f : A -> B -> result A) (a : A) (l : list B) : result A :=
  match l with [] => Ok a | x :: l' => do a' <- f a x; foldM f a' l' end.
(** main.py:238-327 [read_xdmf3]: points, cells, point and cell data.  (The Mesh constructor is
    Model/Core.v.) *)
Definition read_xdmf (bins : dict bytes) (h5s : dict (dict (xarr F))) (dir : string) (grid : list (xel F))
  : result (option (xarr F) * list block * dict (xarr F) * dict xcd) :=
  do s <- foldM (read_element (read_item false bins h5s dir)) (XRead None [] [] []) grid;
  Ok (r_points s, r_cells s, r_pd s, map (fun kv => (fst kv, split_array (r_cells s) (snd kv))) (r_raw s)).

(** main.py:352-354, 402: the HDF5 file lies beside the XML file. *)
Definition xdmf_h5_files (dir h5name : string) (st : store F) : dict (dict (xarr F)) := [((dir ++ "/" ++ h5name)%string, st_h5 st)].

(** ** time_series.py *)

(** time_series.py:272-273: the HDF5 file is created in the working directory. *)
Definition ts_h5_files (cwd h5name : string) (st : store F) : dict (dict (xarr F)) := [((cwd ++ "/" ++ h5name)%string, st_h5 st)].

(** The writer's state: the mesh grid, the grids of the collection, the files. *)
Record tsw : Type := Tsw { w_mesh : option (list (xel F)); w_steps : list (list (xel F)); w_store : store F }.
Definition ts_init : tsw := Tsw None [] (Store 0 [] []).
(** time_series.py:281-303 [write_points_cells].  (A second call adds a second Uniform grid; the
    reader takes the last one.) *)
Definition ts_write_mesh (format base h5name : string) (points : xarr F) (ctype : string) (cells : list block) (w : tsw) : result tsw :=
  do gt <- geometry_type true (xa_tail points);
  do topo <- topology true ctype cells;
  do r <- put_all true format base h5name (w_store w)
    ([(Geometry gt, (xa_shape points, points))] ++
     (match topo with None => [] | Some (t, dims, a) => [(Topology t, (dims, a))] end));
  Ok (Tsw (Some (fst r)) (w_steps w) (snd r)).
(** One time step. *)
Record step : Type := Step { sp_time : F; sp_pd : dict (xarr F); sp_cd : dict xcd }.
(** time_series.py:305-338 [write_data]: the new state and the outcome.  The grid is added to the collection
    before it is checked that there is a mesh.  (When an array cannot be written, the code leaves part of
    the step behind; here only its Time.) *)
Definition ts_write_data (format base h5name : string) (s : step) (w : tsw) : tsw * result unit :=
  match w_mesh w with
  | None => (Tsw None (w_steps w ++ [[]]) (w_store w), Err WriteError)
  | Some _ =>
      let head := [Include; Time (x_str N (sp_time s))] in
      match (do pd <- mapM (attribute_request "Node") (sp_pd s);
             do raw <- raw_arrays (sp_cd s);
             do cd <- mapM (attribute_request "Cell") raw;
             put_all true format base h5name (w_store w) (pd ++ cd)) with
      | Ok r => (Tsw (w_mesh w) (w_steps w ++ [head ++ fst r]) (snd r), Ok tt)
      | Err e => (Tsw (w_mesh w) (w_steps w ++ [head]) (w_store w), Err e)
      end
  end.

(** time_series.py:89-130 [read_points_cells] *)
Definition ts_read_mesh (bins : dict bytes) (h5s : dict (dict (xarr F))) (dir : string) (w : tsw) : result (option (xarr F) * list block) :=
  do grid <- of_option ReadError (w_mesh w);
  do s <- foldM (fun s e => match e with Topology _ _ | Geometry _ _ => read_element (read_item true bins h5s dir) s e | _ => Ok s end)
            (XRead None [] [] []) grid;
  Ok (r_points s, r_cells s).
(** time_series.py:132-173 [read_data]; [cells] are the ones of [read_points_cells] *)
Definition ts_read_element (rd : ditem -> result (xarr F)) (s : option F * xread) (e : xel F) : result (option F * xread) :=
  match e with
  | Time v => do t <- of_option ValueError (x_parse N "float64" v); Ok (Some t, snd s)
  | Attribute _ _ _ => do r <- read_element rd (snd s) e; Ok (fst s, r)
  | _ => Ok s
  end.
Definition ts_read_data (bins : dict bytes) (h5s : dict (dict (xarr F))) (dir : string) (cells : list block) (w : tsw) (k : nat)
  : result (F * dict (xarr F) * dict xcd) :=
  do grid <- of_option IndexError (nth_error (w_steps w) k);
  do s <- foldM (ts_read_element (read_item true bins h5s dir)) (None, XRead None [] [] []) grid;
  do t <- of_option ReadError (fst s);
  Ok (t, r_pd (snd s), map (fun kv => (fst kv, split_array cells (snd kv))) (r_raw (snd s))).
End Xdmf.
Arguments XCd {F} _ _ _.
Arguments cd_dtype {F} _.
Arguments cd_tail {F} _.
Arguments cd_rows {F} _.
Arguments XMesh {F} _ _ _ _ _.
Arguments xm_points {F} _.
Arguments xm_ctype {F} _.
Arguments xm_cells {F} _.
Arguments xm_pd {F} _.
Arguments xm_cd {F} _.
Arguments XRead {F} _ _ _ _.
Arguments r_points {F} _.
Arguments r_cells {F} _.
Arguments r_pd {F} _.
Arguments r_raw {F} _.
Arguments Tsw {F} _ _ _.
Arguments w_mesh {F} _.
Arguments w_steps {F} _.
Arguments w_store {F} _.
Arguments ts_init {F}.
Arguments Step {F} _ _ _.
Arguments sp_time {F} _.
Arguments sp_pd {F} _.
Arguments sp_cd {F} _.
