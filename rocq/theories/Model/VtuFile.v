(** Model of whole VTU files, src/meshio/vtu/_vtu.py, as character strings.  The encodings of single arrays are those of
    Model/Vtu.v, XML is that of Model/Cxml.v.  Not modelled here: polyhedra (see Model/Vtu.v for their arrays), and the
    conversion of point sets and cell sets to data before writing (see Model/Effects.v). *)
From Coq Require Import ZArith NArith List String Ascii Bool.
From Verif.Lib Require Import Base Text Lines Bytes File.
From Verif.Model Require Import Core Helpers Vtk Vtu VtkFile Numpy Cxml.
Import ListNotations.

(** Numbers of an array, for each dtype: printing ([{:.11e}] or [{:d}]), parsing ([np.fromstring]), bytes in the given byte
    order (true: big endian). *)
Record unums (V : Type) : Type := UNums {
  u_fmt : string -> V -> string;
  u_parse : string -> string -> option V;
  u_codec : bool -> string -> codec V;
  u_zero : V }.
Arguments u_fmt {V} _ _ _.
Arguments u_parse {V} _ _ _.
Arguments u_codec {V} _ _ _.
Arguments u_zero {V} _.

(** zlib and lzma, under the names they have in the file *)
Record packers : Type := Packers { pack : string -> bytes -> bytes; unpack : string -> bytes -> result bytes }.

(** src/meshio/vtu/_vtu.py:268-280 [vtu_to_numpy_type], [numpy_to_vtu_type] *)
Definition vtu_dtypes : dict string := [
  ("Float32", "float32"); ("Float64", "float64"); ("Int8", "int8"); ("Int16", "int16"); ("Int32", "int32"); ("Int64", "int64");
  ("UInt8", "uint8"); ("UInt16", "uint16"); ("UInt32", "uint32"); ("UInt64", "uint64") ].
Definition vtu_names : dict string := map (fun kv => (snd kv, fst kv)) vtu_dtypes.

(** Bytes of the header items.  Simplification: header types other than unsigned integers raise KeyError. *)
Definition header_widths : dict nat := [("UInt8", 1); ("UInt16", 2); ("UInt32", 4); ("UInt64", 8)].

(** A loop that may raise an exception *)
Fixpoint foldM {A B} (f : B -> A -> result B) (b : B) (l : list A) : result B :=
  match l with [] => Ok b | x :: l' => do b' <- f b x; foldM f b' l' end.

Definition str (c : chars) : string := string_of_list_ascii c.
Definition int_attr (s : string) : result Z := of_option ValueError (parse_Z (strip s)).

(** ** Writer *)
(** How arrays are written: as text, as plain bytes, or compressed (_vtu.py:747-755) *)
Inductive umode : Type := UAscii | UPlain | UPacked (compressor : string).

Section Write.
Context {V : Type} (nk : unums V) (pk : packers).
(** [sys.byteorder]; the size of the blocks that are compressed, 32768 in the code *)
Variable big : bool.
Variable block_size : nat.
Variable mode : umode.
Variable header_type : string.

(** _vtu.py:747-749 [text_writer_ascii] *)
Definition ascii_text (toks : list string) : chars := concat (map (fun t => ch t ++ [lf]) toks).
(** _vtu.py:702-756 [numpy_to_xml_array] for an array with the given dtype, dimensions after the first one, printed items and
    bytes *)
Definition xml_array (name dt : string) (tail : list nat) (toks : list string) (data : bytes) : result xelem :=
  do vt <- of_option KeyError (dget dt vtu_names);
  let nc := match tail with [k] => [("NumberOfComponents", str_of_nat k)] | _ => [] end in
  do text <- match mode with
             | UAscii => Ok (ascii_text toks)
             | UPlain => do w <- of_option KeyError (dget header_type header_widths); write_uncompressed big w data
             | UPacked c => do w <- of_option KeyError (dget header_type header_widths);
                            write_compressed (pack pk c) big w block_size data
             end;
  let fmt := match mode with UAscii => "ascii" | _ => "binary" end in
  Ok (XElem "DataArray" ([("type", vt); ("Name", name)] ++ nc ++ [("format", fmt)]) (Some text) []).
Definition num_array (name : string) (a : varr V) : result xelem :=
  let l := concat (va_rows a) in
  xml_array name (va_dtype a) (va_tail a) (map (u_fmt nk (va_dtype a)) l) (concat (map (enc (u_codec nk big (va_dtype a))) l)).
Definition int_array (name dt : string) (l : list Z) : result xelem :=
  xml_array name dt [] (map str_of_Z l) (concat (map (sint_bytes big (width_of dt)) l)).

(** _vtu.py:619-626: a zero column for two-dimensional points *)
Definition upad_points (pts : list (list V)) : list (list V) :=
  match pts with [_; _] :: _ => map (fun r => r ++ [u_zero nk]) pts | _ => pts end.

(** _vtu.py:897-905: [raw_from_cell_data] is np.concatenate, ValueError if there are no blocks *)
Definition raw_cell_data (c : vcd V) : result (varr V) :=
  match vc_rows c with [] => Err ValueError | l => Ok (VArr (vc_dtype c) (vc_tail c) (concat l)) end.

(** _vtu.py:809-895: [idt] is the dtype of the connectivity.  The types are made by np.full and have dtype int64. *)
Definition cells_elem (idt : string) (bs : list block) : result (list xelem) :=
  match bs with
  | [] => Ok []
  | _ =>
      do conn <- write_conn bs;
      do offs <- offsets_vtu bs;
      do types <- write_types bs;
      do c <- int_array "connectivity" idt conn;
      do o <- int_array "offsets" idt offs;
      do t <- int_array "types" "int64" types;
      Ok [XElem "Cells" [] None [c; o; t]]
  end.
Definition data_elem (tag : string) (d : dict (varr V)) : result (list xelem) :=
  match d with
  | [] => Ok []
  | _ => do l <- mapM (fun na => num_array (fst na) (snd na)) d; Ok [XElem tag [] None l]
  end.

(** The attribute compressor (_vtu.py:664-671) *)
Definition compressor_attr : list (string * string) := match mode with UPacked c => [("compressor", c)] | _ => [] end.
(** The attribute header_type is only written if the caller gives it (_vtu.py:658-661) *)
Definition header_attr (given : bool) : list (string * string) := if given then [("header_type", header_type)] else [].

(** _vtu.py:594-912 [write]: the root element; [ver] is the version of meshio. *)
Definition vtu_tree (given : bool) (ver idt : string) (m : vmesh V) : result xelem :=
  if existsb (fun b => startswith (btype b) "polyhedron") (vm_cells m) then Err RuntimeError (* not modelled *) else
  let pts := upad_points (vm_points m) in
  let cols := match pts with [] => 3 | r :: _ => length r end in
  do p <- num_array "Points" (VArr (vm_dtype m) [cols] pts);
  do c <- cells_elem idt (vm_cells m);
  do pd <- data_elem "PointData" (vm_pdata m);
  do raw <- mapM (fun nc => do a <- raw_cell_data (snd nc); Ok (fst nc, a)) (vm_cdata m);
  do cd <- data_elem "CellData" raw;
  let piece := XElem "Piece" [("NumberOfPoints", str_of_nat (length (vm_points m)));
                              ("NumberOfCells", str_of_nat (total_cells (vm_cells m)))] None
                 (XElem "Points" [] None [p] :: c ++ pd ++ cd) in
  Ok (XElem "VTKFile"
        ([("type", "UnstructuredGrid"); ("version", "0.1"); ("byte_order", if big then "BigEndian" else "LittleEndian")] ++
         header_attr given ++ compressor_attr) None
        [XComment ("This file was created by meshio v" ++ ver); XElem "UnstructuredGrid" [] None [piece]]).
End Write.

(** The arguments of [write]: binary, compression, header_type (_vtu.py:594,658-671); AssertionError for an unknown
    compression.  "" is the compression None. *)
Definition compressions : dict string := [("lzma", "vtkLZMADataCompressor"); ("zlib", "vtkZLibDataCompressor")].
Definition mode_of (binary : bool) (compression : string) : result umode :=
  if negb binary then Ok UAscii else
  if String.eqb compression "" then Ok UPlain else
  do c <- of_option AssertionError (dget compression compressions); Ok (UPacked c).
Definition write_vtu {V} (nk : unums V) (pk : packers) (big : bool) (block_size : nat) (ver : string)
    (binary : bool) (compression : string) (header_type : option string) (idt : string) (m : vmesh V) : result chars :=
  do mode <- mode_of binary compression;
  let ht := match header_type with Some t => t | None => "UInt32" end in
  do t <- vtu_tree nk pk big block_size mode ht (match header_type with Some _ => true | None => false end) ver idt m;
  Ok (print_doc t).

(** ** Reader *)
(** An array in the file: dtype, number of components, items as text or as bytes *)
Inductive uitem : Type := UTok (t : string) | UBytes (b : bytes).
Record uraw : Type := URaw { ur_dtype : string; ur_nc : option nat; ur_items : list uitem }.
(** [len(data)] *)
Definition ur_len (a : uraw) : nat := match ur_nc a with None => length (ur_items a) | Some k => length (ur_items a) / k end.

(** _vtu.py:319-345, what the root element says: compressor, header type, byte order, appended data *)
Record uhead : Type := UHead { h_comp : option string; h_type : string; h_big : bool; h_app : option chars }.

(** Python's strip on a list of characters *)
Definition cstrip (s : chars) : chars := ch (strip (str s)).

Section Read.
Context {V : Type} (nk : unums V) (pk : packers).
(** [sys.byteorder], for files without the attribute byte_order *)
Variable native_big : bool.

(** _vtu.py:146-169 [get_grid] *)
Fixpoint get_grid (cs : list xnode) (grid : option xnode) (app : option chars) : result (xnode * option chars) :=
  match cs with
  | [] => match grid with Some g => Ok (g, app) | None => Err ReadError end
  | c :: cs' =>
      if String.eqb (xtag c) "UnstructuredGrid" then
        match grid with Some _ => Err ReadError | None => get_grid cs' (Some c) app end
      else if negb (String.eqb (xtag c) "AppendedData") then Err ReadError
      else match app with
           | Some _ => Err ReadError
           | None =>
               do e <- of_option KeyError (dget "encoding" (xattrs c));
               if negb (String.eqb e "base64") then Err ReadError else
               match xtext c with
               | [] => Err AttributeError
               | _ => match cstrip (xtext c) with
                      | [] => Err IndexError
                      | u :: r => if Ascii.eqb u "_" then get_grid cs' grid (Some r) else Err ReadError
                      end
               end
           end
  end.

(** _vtu.py:447-525: the reader for the items of a binary array, [k] bytes each *)
Definition read_binary (h : uhead) (k : nat) (text : chars) : result (list bytes) :=
  do w <- of_option KeyError (dget (h_type h) header_widths);
  match h_comp h with
  | None => read_uncompressed (h_big h) w k text
  | Some c => read_compressed (unpack pk c) (h_big h) w k text
  end.

(** The attribute NumberOfComponents; an empty one has been removed (_vtu.py:315-317) *)
Definition nc_attr (c : xnode) : option string :=
  match dget "NumberOfComponents" (xattrs c) with Some "" => None | x => x end.

(** _vtu.py:527-571 [read_data]; None stands for CorruptionError. *)
Definition read_data (h : uhead) (c : xnode) : result (option uraw) :=
  let fmt := match dget "format" (xattrs c) with Some f => f | None => "ascii" end in
  do vt <- of_option KeyError (dget "type" (xattrs c));
  do dt <- of_option ReadError (dget vt vtu_dtypes);
  do items <-
    (if String.eqb fmt "ascii" then
       match xtext c with [] => Err AttributeError | t => Ok (map UTok (split_ws (str t))) end
     else if String.eqb fmt "binary" then
       match xtext c with [] => Err AttributeError | t => do l <- read_binary h (width_of dt) (cstrip t); Ok (map UBytes l) end
     else if String.eqb fmt "appended" then
       do o <- of_option KeyError (dget "offset" (xattrs c));
       do off <- int_attr o;
       do a <- of_option AssertionError (h_app h);
       (* Python counts negative offsets from the end; here they are errors *)
       if (off <? 0)%Z then Err ValueError else
       do l <- read_binary h (width_of dt) (skipn (Z.to_nat off) a); Ok (map UBytes l)
     else Err ReadError);
  match nc_attr c with
  | None => Ok (Some (URaw dt None items))
  | Some s =>
      do nc <- int_attr s;
      if (nc <=? 0)%Z then Ok None else
      if Nat.eqb (length items mod Z.to_nat nc) 0 then Ok (Some (URaw dt (Some (Z.to_nat nc)) items)) else Ok None
  end.
(** Outside PointData a CorruptionError is not caught; here it is a ReadError. *)
Definition read_sound (h : uhead) (c : xnode) : result uraw := do r <- read_data h c; of_option ReadError r.

(** The numbers of an array.  np.fromstring stops at text that is not a number; here this is a ValueError.  Index arrays of
    a floating point type are TypeErrors. *)
Definition item_num (big : bool) (dt : string) (i : uitem) : result V :=
  match i with UTok t => of_option ValueError (u_parse nk dt t) | UBytes b => Ok (dec (u_codec nk big dt) b) end.
Definition item_int (big : bool) (dt : string) (i : uitem) : result Z :=
  match i with
  | UTok t => of_option ValueError (parse_Z t)
  | UBytes b => if startswith dt "float" then Err TypeError else
                Ok (if startswith dt "uint" then Z.of_N (uint_value big b) else sint_value big b)
  end.
Definition num_rows (h : uhead) (a : uraw) : result (varr V) :=
  do l <- mapM (item_num (h_big h) (ur_dtype a)) (ur_items a);
  match ur_nc a with
  | None => Ok (VArr (ur_dtype a) [] (map (fun x => [x]) l))
  | Some k => Ok (VArr (ur_dtype a) [k] (rows_of (length l / k) k l))
  end.

(** One piece: points, cells (connectivity, offsets, types and their lengths), data *)
Record upiece : Type := UPiece {
  up_points : list (varr V); up_cells : list (list Z * list Z * list Z);
  up_pdata : list (dict (varr V)); up_craw : list (dict (varr V)) }.
Definition piece0 : upiece := UPiece [] [] [] [].

(** _vtu.py:371-382: the element Points *)
Definition read_points_elem (h : uhead) (num_points : Z) (e : xnode) : result (varr V) :=
  match xchildren e with
  | [a] =>
      if negb (String.eqb (xtag a) "DataArray") then Err ReadError else
      do r <- read_sound h a;
      do s <- of_option KeyError (nc_attr a);
      do nc <- int_attr s;
      do v <- num_rows h r;
      if (num_points <? 0)%Z || (nc <? 0)%Z then Err ValueError else
      if Nat.eqb (length (ur_items r)) (Z.to_nat num_points * Z.to_nat nc)
      then Ok (VArr (va_dtype v) [Z.to_nat nc] (rows_of (Z.to_nat num_points) (Z.to_nat nc) (concat (va_rows v))))
      else Err ValueError
  | _ => Err ReadError
  end.
(** _vtu.py:384-399: the element Cells; other arrays than the three are read and ignored. *)
Definition read_int_arrays (h : uhead) (cs : list xnode) : result (dict (nat * list Z)) :=
  foldM (fun d a =>
    if negb (String.eqb (xtag a) "DataArray") then Err ReadError else
    do r <- read_sound h a;
    do n <- of_option KeyError (dget "Name" (xattrs a));
    do l <- mapM (item_int (h_big h) (ur_dtype r)) (ur_items r);
    Ok (dset n (ur_len r, l) d)) [] cs.
Definition read_cells_elem (h : uhead) (num_cells : Z) (e : xnode) : result (list Z * list Z * list Z) :=
  do d <- read_int_arrays h (xchildren e);
  do o <- of_option KeyError (dget "offsets" d);
  if negb (Z.eqb (Z.of_nat (fst o)) num_cells) then Err ReadError else
  do t <- of_option KeyError (dget "types" d);
  if negb (Z.eqb (Z.of_nat (fst t)) num_cells) then Err ReadError else
  do c <- of_option KeyError (dget "connectivity" d);
  Ok (snd c, snd o, snd t).
(** _vtu.py:401-418: the elements PointData (corrupt arrays are skipped) and CellData *)
Definition read_point_data (h : uhead) (cs : list xnode) : result (dict (varr V)) :=
  foldM (fun d a =>
    if negb (String.eqb (xtag a) "DataArray") then Err ReadError else
    do r <- read_data h a;
    do n <- of_option KeyError (dget "Name" (xattrs a));
    match r with None => Ok d | Some r => do v <- num_rows h r; Ok (dset n v d) end) [] cs.
Definition read_named (h : uhead) (cs : list xnode) : result (dict (varr V)) :=
  foldM (fun d a =>
    do r <- read_sound h a;
    do n <- of_option KeyError (dget "Name" (xattrs a));
    do v <- num_rows h r; Ok (dset n v d)) [] cs.
Definition read_cell_data (h : uhead) (cs : list xnode) : result (dict (varr V)) :=
  if forallb (fun a => String.eqb (xtag a) "DataArray") cs then read_named h cs else Err ReadError.

(** _vtu.py:362-418: one piece.  (Several elements PointData of one piece share a dictionary in the code; here each has its
    own.) *)
Definition read_piece (h : uhead) (acc : upiece) (e : xnode) : result upiece :=
  do np <- of_option KeyError (dget "NumberOfPoints" (xattrs e));
  do np <- int_attr np;
  do nc <- of_option KeyError (dget "NumberOfCells" (xattrs e));
  do nc <- int_attr nc;
  foldM (fun u c =>
    if String.eqb (xtag c) "Points" then
      do p <- read_points_elem h np c; Ok (UPiece (up_points u ++ [p]) (up_cells u) (up_pdata u) (up_craw u))
    else if String.eqb (xtag c) "Cells" then
      do x <- read_cells_elem h nc c; Ok (UPiece (up_points u) (up_cells u ++ [x]) (up_pdata u) (up_craw u))
    else if String.eqb (xtag c) "PointData" then
      do d <- read_point_data h (xchildren c); Ok (UPiece (up_points u) (up_cells u) (up_pdata u ++ [d]) (up_craw u))
    else if String.eqb (xtag c) "CellData" then
      do d <- read_cell_data h (xchildren c); Ok (UPiece (up_points u) (up_cells u) (up_pdata u) (up_craw u ++ [d]))
    else Err ReadError) acc (xchildren e).

(** [np.concatenate] of arrays; ValueError for different dimensions.  Simplification: the dtype is that of the first array. *)
Definition tails_equal (a b : list nat) : bool := if list_eq_dec Nat.eq_dec a b then true else false.
Definition concat_arrays (l : list (varr V)) : result (varr V) :=
  match l with
  | [] => Err ValueError
  | a :: _ => if forallb (fun b => tails_equal (va_tail a) (va_tail b)) l
              then Ok (VArr (va_dtype a) (va_tail a) (flat_map va_rows l)) else Err ValueError
  end.
(** _vtu.py:434-440: the keys of the first piece *)
Definition merge_point_data (l : list (dict (varr V))) : result (dict (varr V)) :=
  match l with
  | [] => Ok []
  | d0 :: _ => mapM (fun k => do vs <- mapM (fun d => of_option KeyError (dget k d)) l;
                              do v <- concat_arrays vs; Ok (k, v)) (dkeys d0)
  end.

(** _vtu.py:425: [np.cumsum([0] + sizes[:-1])] *)
Fixpoint point_offsets (acc : nat) (l : list nat) : list nat :=
  match l with [] => [] | n :: l' => acc :: point_offsets (acc + n) l' end.

(** _vtu.py:98-143 [_organize_cells].  The loop over the pieces leaves in [cls], [cell_data] and [offset] what belongs to
    the last piece; the blocks are appended after the loop. *)
Definition organize_cells (offsets : list nat) (cells : list (list Z * list Z * list Z)) (raws : list (dict (varr V)))
  : result (list block * dict (vcd V)) :=
  if negb (Nat.eqb (length offsets) (length cells)) then Err ReadError else
  if existsb (fun c => existsb (Z.eqb 42) (snd c)) cells then Err RuntimeError (* polyhedra: not modelled *) else
  do r <- foldM (fun _ x =>
             let '(off, ((conn, offs, types), raw)) := x in
             do b <- vtk_cells_from_data conn offs types;
             Ok (Some (off, fst b, split_data (Some (snd b)) raw)))
           None (combine offsets (combine cells raws));
  match r with
  | None => Err UnboundLocalError
  | Some (off, bs, cd) => Ok (map (fun b => Block (btype b) (map (map (Z.add (Z.of_nat off))) (bdata b))) bs, cd)
  end.

(** _vtu.py:299-345: the root element *)
Definition read_head (root : xnode) : result uhead :=
  if negb (String.eqb (xtag root) "VTKFile") then Err ReadError else
  do ty <- of_option KeyError (dget "type" (xattrs root));
  if negb (String.eqb ty "UnstructuredGrid") then Err ReadError else
  if match dget "version" (xattrs root) with Some v => negb (smem v ["0.1"; "1.0"]) | None => false end then Err ReadError else
  let comp := dget "compressor" (xattrs root) in
  if match comp with Some c => negb (smem c ["vtkLZMADataCompressor"; "vtkZLibDataCompressor"]) | None => false end
  then Err AssertionError else
  let ht := match dget "header_type" (xattrs root) with Some t => t | None => "UInt32" end in
  match dget "byte_order" (xattrs root) with
  | Some o => if negb (smem o ["LittleEndian"; "BigEndian"]) then Err ReadError
              else Ok (UHead comp ht (String.eqb o "BigEndian") None)
  | None => Ok (UHead comp ht native_big None)
  end.

(** _vtu.py:347-445,574-584: the mesh of a document *)
Definition read_root (root : xnode) : result (vmesh V) :=
  do h0 <- read_head root;
  do g <- get_grid (xchildren root) None None;
  let h := UHead (h_comp h0) (h_type h0) (h_big h0) (snd g) in
  let cs := xchildren (fst g) in
  if negb (forallb (fun c => smem (xtag c) ["Piece"; "FieldData"]) cs) then Err ReadError else
  do fd <- read_named h (flat_map (fun c => if String.eqb (xtag c) "FieldData" then xchildren c else []) cs);
  match filter (fun c => String.eqb (xtag c) "Piece") cs with
  | [] => Err ReadError
  | ps =>
      do u <- foldM (read_piece h) piece0 ps;
      let raws := match up_craw u with [] => repeat [] (length (up_cells u)) | l => l end in
      if negb (Nat.eqb (length raws) (length (up_cells u))) then Err ReadError else
      match up_points u with
      | [] => Err ReadError
      | pts =>
          do p <- concat_arrays pts;
          do pd <- merge_point_data (up_pdata u);
          do c <- organize_cells (point_offsets 0 (map (fun a => length (va_rows a)) pts)) (up_cells u) raws;
          build_mesh (Some (va_dtype p, va_rows p)) (fst c) pd (snd c) fd
      end
  end.
End Read.

(** ** Appended raw data *)
(** _vtu.py:172-265 [_parse_raw_binary], used if the file is not XML.  Simplifications: characters are bytes; a header and
    footer that are not XML (ParseError in the code) give ReadError. *)

(** _vtu.py:179: the search for the tag AppendedData, ending with a double quote and a greater-than sign: what precedes the
    end of the match, and what follows *)
Fixpoint find_appended (s : chars) : option (chars * chars) :=
  let here :=
    match strip_prefix (ch "<AppendedData") s with
    | Some r =>
        let '(body, r2) := span (fun c => negb (Ascii.eqb c ">")) r in
        match r2, rev body with
        | _ :: rest, q :: _ :: _ => if Ascii.eqb q quote then Some (ch "<AppendedData" ++ body ++ [">"%char], rest) else None
        | _, _ => None
        end
    | None => None
    end in
  match here with
  | Some x => Some x
  | None => match s with
            | [] => None
            | c :: s' => match find_appended s' with Some (a, b) => Some (c :: a, b) | None => None end
            end
  end.
(** [raw.find(p)] *)
Fixpoint find_sub (p s : chars) : option nat :=
  match strip_prefix p s with
  | Some _ => Some 0
  | None => match s with [] => None | _ :: s' => option_map S (find_sub p s') end
  end.
(** [s.split(c, 1)[1]], [s.rsplit(c, 1)[0]] *)
Definition after_char (c : ascii) (s : chars) : option chars :=
  match snd (span (fun x => negb (Ascii.eqb x c)) s) with [] => None | _ :: r => Some r end.
Definition before_last (c : ascii) (s : chars) : chars :=
  match after_char c (rev s) with Some r => rev r | None => s end.

(** [root.find] and [set]: the first element DataArray with offset [old], in document order, gets the offset [new] *)
Definition set_attr (k v : string) (n : xnode) : xnode := let 'XNode t a x cs := n in XNode t (dset k v a) x cs.
Definition has_offset (old : string) (n : xnode) : bool :=
  String.eqb (xtag n) "DataArray" && match dget "offset" (xattrs n) with Some o => String.eqb o old | None => false end.
Fixpoint relabel (old new : string) (n : xnode) : option xnode :=
  match n with
  | XNode t a x cs =>
      option_map (XNode t a x)
        ((fix go (l : list xnode) : option (list xnode) :=
            match l with
            | [] => None
            | c :: l' =>
                if has_offset old c then Some (set_attr "offset" new c :: l')
                else match relabel old new c with
                     | Some c' => Some (c' :: l')
                     | None => option_map (cons c) (go l')
                     end
            end) cs)
  end.

Definition char_bytes (s : chars) : bytes := map N_of_ascii s.

(** _vtu.py:203-222: without compression; [i] is the position in the data, [arrays] the text so far *)
Fixpoint raw_loop (fuel : nat) (big : bool) (w i : nat) (data : bytes) (arrays : chars) (root : xnode) : result (xnode * chars) :=
  match data with
  | [] => Ok (root, arrays)
  | _ =>
      match fuel with
      | O => Err OutOfFuel
      | S k =>
          do root' <- of_option RuntimeError (relabel (str_of_nat i) (str_of_nat (length arrays)) root);
          do n <- first_item big w (firstn w data);
          let size := w + N.to_nat n in
          raw_loop k big w (i + size) (skipn size data) (arrays ++ b64encode (firstn size data)) root'
      end
  end.
(** _vtu.py:224-262: the blocks are decompressed and written without compression *)
Fixpoint raw_loop_packed (unpack : bytes -> result bytes) (fuel : nat) (big : bool) (w i : nat) (data : bytes) (arrays : chars)
    (root : xnode) : result (xnode * chars) :=
  match data with
  | [] => Ok (root, arrays)
  | _ =>
      match fuel with
      | O => Err OutOfFuel
      | S k =>
          do root' <- of_option AssertionError (relabel (str_of_nat i) (str_of_nat (length arrays)) root);
          do n <- first_item big w (firstn w data);
          let head := (3 + N.to_nat n) * w in
          do header <- frombuffer w (firstn head data);
          do sizes <- mapM (fun j => do b <- of_option IndexError (nth_error header (j + 3)); Ok (N.to_nat (uint_value big b)))
                        (seq 0 (N.to_nat n));
          do blocks <- mapM (fun ab => unpack (slice (head + fst ab) (head + fst ab + snd ab) data))
                        (combine (point_offsets 0 sizes) sizes);
          let block_data := concat blocks in
          let size := head + fold_right Nat.add 0 sizes in
          raw_loop_packed unpack k big w (i + size) (skipn size data)
            (arrays ++ b64encode (uint_bytes big w (N.of_nat (length block_data)) ++ block_data)) root'
      end
  end.

(** The first child AppendedData: its encoding and its text *)
Fixpoint set_appended (text : chars) (cs : list xnode) : option (list xnode) :=
  match cs with
  | [] => None
  | XNode t a x l :: cs' =>
      if String.eqb t "AppendedData" then Some (XNode t (dset "encoding" "base64" a) text l :: cs')
      else option_map (cons (XNode t a x l)) (set_appended text cs')
  end.
Definition remove_attr (k : string) (d : dict string) : dict string := filter (fun kv => negb (String.eqb k (fst kv))) d.

Definition parse_raw (pk : packers) (native_big : bool) (s : chars) : result xnode :=
  do f <- of_option ReadError (find_appended s);
  let '(header, _) := f in
  do i_stop <- of_option ReadError (find_sub (ch "</AppendedData>") s);
  let footer := skipn i_stop s in
  do d <- of_option IndexError (after_char "_" (firstn (i_stop - length header) (skipn (length header) s)));
  let data := char_bytes (before_last lf d) in
  do root <- of_option ReadError (parse_doc (header ++ footer));
  do w <- of_option KeyError
            (dget (match dget "header_type" (xattrs root) with Some t => t | None => "UInt32" end) header_widths);
  let big := match dget "byte_order" (xattrs root) with Some o => negb (String.eqb o "LittleEndian") | None => native_big end in
  do _ <- of_option AssertionError (set_appended [] (xchildren root));
  do r <- match dget "compressor" (xattrs root) with
          | None => raw_loop (S (length data)) big w 0 data [] root
          | Some c =>
              if negb (smem c ["vtkLZMADataCompressor"; "vtkZLibDataCompressor"]) then Err KeyError else
              do x <- raw_loop_packed (unpack pk c) (S (length data)) big w 0 data [] root;
              let 'XNode t a x' cs := fst x in Ok (XNode t (remove_attr "compressor" a) x' cs, snd x)
          end;
  let 'XNode t a x cs := fst r in
  do cs' <- of_option AssertionError (set_appended ("_"%char :: snd r) cs);
  Ok (XNode t a x cs').

(** _vtu.py:288-297,574-584 [read] *)
Definition read_vtu {V} (nk : unums V) (pk : packers) (native_big : bool) (s : chars) : result (vmesh V) :=
  match parse_doc s with
  | Some root => read_root nk pk native_big root
  | None => do root <- parse_raw pk native_big s; read_root nk pk native_big root
  end.
