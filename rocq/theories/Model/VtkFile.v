(** Model of whole legacy VTK files: src/meshio/vtk/_main.py, src/meshio/vtk/_vtk_42.py, src/meshio/vtk/_vtk_51.py.  The
    cell encodings and the grids are those of Model/Vtk.v.  ASCII files are lists of lines, binary files lists of bytes. *)
From Coq Require Import ZArith NArith List String Ascii Bool.
From Verif.Lib Require Import Base Text Lines Bytes File.
From Verif.Model Require Import Core Helpers Vtk Port Numpy.
From Verif.Model Require Abaqus.
Import ListNotations.

(** ** Numbers *)
(** What numpy does with the numbers of an array, for each dtype: [tofile] and [fromfile] with a separator, big endian
    bytes, and the points of an axis, [np.linspace(o, o + (n - 1.0) * s, n)]. *)
Record nums (V : Type) : Type := Nums {
  n_fmt : string -> V -> string;
  n_parse : string -> string -> option V;
  n_codec : string -> codec V;
  n_zero : V;
  n_axis : V -> V -> nat -> list V }.
Arguments n_fmt {V} _ _ _.
Arguments n_parse {V} _ _ _.
Arguments n_codec {V} _ _.
Arguments n_zero {V} _.
Arguments n_axis {V} _ _ _ _.

(** Widths of the dtypes in bytes ([int] is an alias of [int64]) *)
Definition dtype_widths : dict nat := [
  ("bool", 1); ("uint8", 1); ("int8", 1); ("uint16", 2); ("int16", 2); ("uint32", 4); ("int32", 4); ("uint64", 8); ("int64", 8);
  ("int", 8); ("float32", 4); ("float64", 8) ].
Definition width_of (dt : string) : nat := match dget dt dtype_widths with Some w => w | None => 8 end.

(** src/meshio/vtk/_vtk_42.py:65-77, _vtk_51.py:19-31 [vtk_to_numpy_dtype_name] *)
Definition dtypes_42 : dict string := [
  ("bit", "bool"); ("unsigned_char", "uint8"); ("char", "int8"); ("unsigned_short", "uint16"); ("short", "int16");
  ("unsigned_int", "uint32"); ("int", "int32"); ("unsigned_long", "uint64"); ("long", "int64"); ("float", "float32");
  ("double", "float64") ].
Definition dtypes_51 : dict string := [
  ("float", "float32"); ("double", "float64"); ("int", "int"); ("vtktypeint8", "int8"); ("vtktypeint16", "int16");
  ("vtktypeint32", "int32"); ("vtktypeint64", "int64"); ("vtktypeuint8", "uint8"); ("vtktypeuint16", "uint16");
  ("vtktypeuint32", "uint32"); ("vtktypeuint64", "uint64") ].
Definition dtypes (v51 : bool) : dict string := if v51 then dtypes_51 else dtypes_42.
(** _vtk_42.py:78, _vtk_51.py:32 [numpy_to_vtk_dtype] *)
Definition dtype_names (v51 : bool) : dict string := map (fun kv => (snd kv, fst kv)) (dtypes v51).

(** ** Arrays and meshes *)
(** An array: dtype, dimensions after the first one, rows (each as a flat list) *)
Record varr (V : Type) : Type := VArr { va_dtype : string; va_tail : list nat; va_rows : list (list V) }.
Arguments VArr {V} _ _ _.
Arguments va_dtype {V} _.
Arguments va_tail {V} _.
Arguments va_rows {V} _.
(** Cell data: one list of rows for each block.  Simplification: all blocks have the same dtype and dimensions. *)
Record vcd (V : Type) : Type := VCd { vc_dtype : string; vc_tail : list nat; vc_rows : list (list (list V)) }.
Arguments VCd {V} _ _ _.
Arguments vc_dtype {V} _.
Arguments vc_tail {V} _.
Arguments vc_rows {V} _.
(** Simplification: no point sets and cell sets (the 5.1 writer converts them to data first, see Model/Effects.v). *)
Record vmesh (V : Type) : Type := VMesh {
  vm_dtype : string; vm_points : list (list V); vm_cells : list block;
  vm_pdata : dict (varr V); vm_cdata : dict (vcd V); vm_fdata : dict (varr V) }.
Arguments VMesh {V} _ _ _ _ _ _.
Arguments vm_dtype {V} _.
Arguments vm_points {V} _.
Arguments vm_cells {V} _.
Arguments vm_pdata {V} _.
Arguments vm_cdata {V} _.
Arguments vm_fdata {V} _.

(** ** Files *)
Record vport (V : Type) : Type := VPort {
  vunt : Type;
  (** the third line *)
  v_mode : string;
  (** a line of text; the next line, None at the end of the file *)
  v_line : string -> list vunt;
  v_next : list vunt -> option (string * list vunt);
  (** numbers of a dtype, followed by a line feed *)
  v_put : string -> list V -> list vunt;
  v_get : string -> nat -> list vunt -> result (list V * list vunt);
  (** integers of a dtype; the numbers of every block are followed by a line feed (ASCII), or all of them (binary) *)
  v_put_ints : string -> list (list Z) -> list vunt;
  v_get_ints : string -> nat -> list vunt -> result (list Z * list vunt);
  (** _read_cell_types: int32, a blank line or the end of the file after them *)
  v_get_types : nat -> list vunt -> result (list Z * list vunt)
}.
Arguments vunt {V} _.
Arguments v_mode {V} _.
Arguments v_line {V} _ _.
Arguments v_next {V} _ _.
Arguments v_put {V} _ _ _.
Arguments v_get {V} _ _ _ _.
Arguments v_put_ints {V} _ _ _.
Arguments v_get_ints {V} _ _ _ _.
Arguments v_get_types {V} _ _ _.

Section Ports.
Context {V : Type} (nk : nums V).

(** *** ASCII *)
Definition next_ascii (ls : list string) : option (string * list string) :=
  match ls with [] => None | l :: rest => Some (l, rest) end.
(** [tofile(f, sep=" ")] and a line feed *)
Definition vput_ascii (dt : string) (l : list V) : list string := [row_line (map (n_fmt nk dt) l)].
(** Simplification: a file that is too short and a token that is not a number are errors (numpy returns what it has read). *)
Definition vget_ascii (dt : string) (n : nat) (ls : list string) : result (list V * list string) :=
  do tk <- of_option ValueError (take_tokens n ls);
  do xs <- mapM (fun t => of_option ValueError (n_parse nk dt t)) (fst tk);
  Ok (xs, snd tk).
(** [tofile(f, sep="\n")] and a line feed for every block: one number in each line, one empty line for an empty block *)
Definition vput_ints_ascii (dt : string) (blocks : list (list Z)) : list string :=
  flat_map (fun b => match b with [] => [""] | _ => map str_of_Z b end) blocks.
(** Simplification: no overflow of the integer type. *)
Definition vget_ints_ascii (n : nat) (ls : list string) : result (list Z * list string) :=
  do tk <- of_option ValueError (take_tokens n ls);
  do zs <- parse_ints (fst tk);
  Ok (zs, snd tk).
Definition vascii : vport V := VPort V string "ASCII" (fun l => [l]) next_ascii vput_ascii vget_ascii
  vput_ints_ascii (fun _ => vget_ints_ascii) vget_ints_ascii.

(** *** Binary *)
(** [f.readline()]: the empty string only at the end of the file.  Simplification: no UnicodeDecodeError. *)
Definition next_bytes (s : bytes) : option (string * bytes) :=
  match s with
  | [] => None
  | _ => match to_lines s with l :: rest => Some (l, of_lines rest) | [] => None end
  end.
(** [line != "\n"] raises ReadError *)
Definition line_feed (s : bytes) : result bytes :=
  match s with b :: rest => if N.eqb b 10 then Ok rest else Err ReadError | [] => Err ReadError end.
Definition vput_bytes (dt : string) (l : list V) : bytes := concat (map (enc (n_codec nk dt)) l) ++ [10%N].
Definition vget_bytes (dt : string) (n : nat) (s : bytes) : result (list V * bytes) :=
  let r := take_items (width_of dt) n s in
  do rest <- line_feed (snd r);
  Ok (map (dec (n_codec nk dt)) (fst r), rest).
Definition vput_ints_bytes (dt : string) (blocks : list (list Z)) : bytes :=
  concat (map (sint_bytes true (width_of dt)) (concat blocks)) ++ [10%N].
(** Simplification: only integer dtypes; the dtypes of indices and offsets in a file are arbitrary otherwise *)
Definition vint_value (dt : string) (b : bytes) : Z :=
  if startswith dt "u" then Z.of_N (uint_value true b) else sint_value true b.
Definition vget_ints_bytes (dt : string) (n : nat) (s : bytes) : result (list Z * bytes) :=
  let r := take_items (width_of dt) n s in
  do rest <- line_feed (snd r);
  Ok (map (vint_value dt) (fst r), rest).
(** _vtk_42.py:397-408, _vtk_51.py:405-416 *)
Definition vget_types_bytes (n : nat) (s : bytes) : result (list Z * bytes) :=
  let r := take_items 4 n s in
  let zs := map (sint_value true) (fst r) in
  match next_bytes (snd r) with
  | None => Ok (zs, [])
  | Some (l, rest) => if blank l then Ok (zs, rest) else Err ReadError
  end.
Definition vbinary : vport V := VPort V N "BINARY" (fun l => text_bytes [l]) next_bytes vput_bytes vget_bytes
  vput_ints_bytes vget_ints_bytes vget_types_bytes.
End Ports.

(** ** Writers *)
Section Write.
Context {V : Type} (nk : nums V) (p : vport V).

(** _vtk_42.py:602-631, _vtk_51.py:517-543: a zero column for two-dimensional points and vectors *)
Definition pad_row (r : list V) : list V := r ++ [n_zero nk].
Definition pad_points (pts : list (list V)) : list (list V) :=
  match pts with [_; _] :: _ => map pad_row pts | _ => pts end.
Definition is_2d (tail : list nat) : bool := match tail with [2] => true | _ => false end.
Definition pad_arr (a : varr V) : varr V :=
  if is_2d (va_tail a) then VArr (va_dtype a) [3] (map pad_row (va_rows a)) else a.
(** [np.concatenate] of the padded blocks; ValueError if there are none *)
Definition pad_cd (c : vcd V) : result (varr V) :=
  match vc_rows c with
  | [] => Err ValueError
  | l => Ok (pad_arr (VArr (vc_dtype c) (vc_tail c) (concat l)))
  end.

(** _vtk_42.py:658-677, _vtk_51.py:593-609 [_write_points] *)
Definition write_points (v51 : bool) (dt : string) (pts : list (list V)) : result (list (vunt p)) :=
  do vt <- of_option KeyError (dget dt (dtype_names v51));
  Ok (v_line p (row_line ["POINTS"; str_of_nat (length pts); vt]) ++ v_put p dt (concat pts)).

Definition total_cells (bs : list block) : nat := sum_nat (map blen bs).
(** [sum(c.data.size for c in cells)] *)
Definition total_size (bs : list block) : nat := sum_nat (map (fun b => blen b * width b) bs).

(** _vtk_42.py:680-736 [_write_cells] *)
Definition write_cells_section_42 (bs : list block) : result (list (vunt p)) :=
  do l <- mapM write_block_42 bs;
  Ok (v_line p (row_line ["CELLS"; str_of_nat (total_cells bs); str_of_nat (total_size bs + total_cells bs)])
      ++ v_put_ints p "int32" (map fst l)
      ++ v_line p (row_line ["CELL_TYPES"; str_of_nat (total_cells bs)])
      ++ v_put_ints p "int32" (map snd l)).
(** _vtk_51.py:612-670 [_write_cells] *)
Definition conn_blocks (bs : list block) : result (list (list Z)) :=
  mapM (fun b => do rows <- mapM (reorder (meshio_to_vtk_order (btype b))) (bdata b); Ok (concat rows)) bs.
Definition type_blocks (bs : list block) : result (list (list Z)) :=
  mapM (fun b => do code <- of_option KeyError (dget (btype b) meshio_to_vtk_type); Ok (repeat code (blen b))) bs.
Definition write_cells_section_51 (bs : list block) : result (list (vunt p)) :=
  do offs <- offsets_51 bs;
  do conn <- conn_blocks bs;
  do types <- type_blocks bs;
  Ok (v_line p (row_line ["CELLS"; str_of_nat (total_cells bs + 1); str_of_nat (total_size bs)])
      ++ v_line p "OFFSETS vtktypeint64" ++ v_put_ints p "int64" [offs]
      ++ v_line p "CONNECTIVITY vtktypeint64" ++ v_put_ints p "int64" conn
      ++ v_line p (row_line ["CELL_TYPES"; str_of_nat (total_cells bs)])
      ++ v_put_ints p "int32" types).
Definition write_cells_section (v51 : bool) : list block -> result (list (vunt p)) :=
  if v51 then write_cells_section_51 else write_cells_section_42.

(** _vtk_42.py:739-773, _vtk_51.py:673-704 [_write_field_data]: [num_components] is the second dimension, also for arrays
    with more dimensions *)
Definition components (a : varr V) : nat := match va_tail a with [] => 1 | k :: _ => k end.
Definition write_field (v51 : bool) (na : string * varr V) : result (list (vunt p)) :=
  let '(name, a) := na in
  if char_in " " name then Err WriteError else
  do vt <- of_option KeyError (dget (va_dtype a) (dtype_names v51));
  Ok (v_line p (row_line [name; str_of_nat (components a); str_of_nat (length (va_rows a)); vt])
      ++ v_put p (va_dtype a) (concat (va_rows a))).
Definition write_fields (v51 : bool) (d : dict (varr V)) : result (list (vunt p)) :=
  do l <- mapM (write_field v51) d;
  Ok (v_line p (row_line ["FIELD"; "FieldData"; str_of_nat (length d)]) ++ concat l).
(** POINT_DATA and CELL_DATA are written if there are data. *)
Definition write_data_section (v51 : bool) (title : string) (n : nat) (d : dict (varr V)) : result (list (vunt p)) :=
  match d with
  | [] => Ok []
  | _ => do fs <- write_fields v51 d; Ok (v_line p (row_line [title; str_of_nat n]) ++ fs)
  end.

(** _vtk_42.py:602-655, _vtk_51.py:517-590 [write]; [ver] is the version of meshio.  [mesh.field_data] is not written. *)
Definition first_line (v51 : bool) : string := if v51 then "# vtk DataFile Version 5.1" else "# vtk DataFile Version 4.2".
Definition write_vtk (v51 : bool) (ver : string) (m : vmesh V) : result (list (vunt p)) :=
  do pts <- write_points v51 (vm_dtype m) (pad_points (vm_points m));
  do cells <- write_cells_section v51 (vm_cells m);
  do pd <- write_data_section v51 "POINT_DATA" (length (vm_points m)) (map (fun na => (fst na, pad_arr (snd na))) (vm_pdata m));
  do cdata <- mapM (fun nc => do a <- pad_cd (snd nc); Ok (fst nc, a)) (vm_cdata m);
  do cd <- write_data_section v51 "CELL_DATA" (total_cells (vm_cells m)) cdata;
  Ok (v_line p (first_line v51) ++ v_line p ("written by meshio v" ++ ver)%string ++ v_line p (v_mode p)
      ++ v_line p "DATASET UNSTRUCTURED_GRID" ++ pts ++ cells ++ pd ++ cd).
(** _main.py:30-48: [write(..., fmt_version)] and the registered formats; the name vtk51 is bound to the 4.2 writer. *)
Definition registered_vtk : dict bool := [("vtk42", false); ("vtk51", false); ("vtk", true)].
End Write.

(** ** Readers *)
(** [d[info.section]] for the infos of a dataset *)
Record vinfo (V : Type) : Type := VInfo {
  i_active : string;
  i_items : option Z;
  i_type : option string;
  i_dims : option (list Z);
  i_nums : dict (string * list V);
  i_points : option (string * list (list V));
  i_conn : option (list Z);
  i_offs : option (list Z);
  i_types : option (list Z);
  i_pdata : dict (varr V);
  i_craw : dict (varr V);
  i_fdata : dict (varr V) }.
Arguments VInfo {V} _ _ _ _ _ _ _ _ _ _ _ _.
Arguments i_active {V} _.
Arguments i_items {V} _.
Arguments i_type {V} _.
Arguments i_dims {V} _.
Arguments i_nums {V} _.
Arguments i_points {V} _.
Arguments i_conn {V} _.
Arguments i_offs {V} _.
Arguments i_types {V} _.
Arguments i_pdata {V} _.
Arguments i_craw {V} _.
Arguments i_fdata {V} _.

Section Read.
Context {V : Type} (nk : nums V) (p : vport V) (v51 : bool).
Notation U := (list (vunt p)).

(** src/meshio/_vtk_common.py:184-203 [Info] *)
Definition info0 : vinfo V := VInfo "" None None None [] None None None None [] [] [].

Definition tok (k : nat) (sp : list string) : result string := of_option IndexError (nth_error sp k).
Definition tok_int (k : nat) (sp : list string) : result Z := do t <- tok k sp; of_option ValueError (parse_Z t).
Definition dtype_of (t : string) : result string := of_option KeyError (dget t (dtypes v51)).

(** [_skip_meta]: to the next blank line or the end of the file *)
Fixpoint skip_meta (fuel : nat) (s : U) : U :=
  match fuel with
  | O => s
  | S k => match v_next p s with None => [] | Some (l, rest) => if blank l then rest else skip_meta k rest end
  end.

(** [_read_points] *)
Definition read_points (dt : string) (n : nat) (s : U) : result (list (list V) * U) :=
  do d <- v_get p dt (n * 3) s;
  if Nat.eqb (length (fst d)) (n * 3) then Ok (rows_of n 3 (fst d), snd d) else Err ValueError.

(** [data.reshape(-1, ...)] with [k] numbers in a row *)
Definition reshape_rows (k : nat) (l : list V) : result (list (list V)) :=
  if Nat.eqb (length l mod k) 0 then Ok (rows_of (length l / k) k l) else Err ValueError.
(** [_read_scalar_field] *)
Definition read_scalars (items : Z) (sp : list string) (s : U) : result (dict (varr V) * U) :=
  do name <- tok 1 sp;
  do t <- tok 2 sp;
  do nc <- match nth_error sp 3 with None => Ok 1%Z | Some x => of_option ValueError (parse_Z x) end;
  if negb ((0 <? nc) && (nc <? 5))%Z then Err ReadError else
  do dt <- dtype_of (lower t);
  let '(l, rest) := match v_next p s with Some x => x | None => ("", []) end in
  match split_ws l with
  | [lt; _] =>
      if negb (String.eqb (Abaqus.upper lt) "LOOKUP_TABLE") then Err ReadError else
      do d <- v_get p dt (Z.to_nat (items * nc)) rest;
      do rows <- reshape_rows (Z.to_nat nc) (fst d);
      Ok ([(name, VArr dt [Z.to_nat nc] rows)], snd d)
  | _ => Err ValueError
  end.
(** [_read_field]; [tail] is [3] or [3, 3] *)
Definition read_field (items : Z) (sp : list string) (tail : list nat) (s : U) : result (dict (varr V) * U) :=
  do name <- tok 1 sp;
  do t <- tok 2 sp;
  do dt <- dtype_of (lower t);
  let k := fold_right Nat.mul 1 tail in
  do d <- v_get p dt (k * Z.to_nat items) s;
  do rows <- reshape_rows k (fst d);
  Ok ([(name, VArr dt tail rows)], snd d).
(** [_read_fields] *)
Definition field_head (sp : list string) : result (string * nat * nat * string) :=
  match sp with
  | [name; s0; s1; t] =>
      do k <- of_option ValueError (parse_Z s0);
      do n <- of_option ValueError (parse_Z s1);
      do dt <- dtype_of (lower t);
      Ok (name, Z.to_nat k, Z.to_nat n, dt)
  | _ => Err ValueError
  end.
Definition next_line (s : U) : string * U := match v_next p s with Some x => x | None => ("", []) end.
Fixpoint read_fields (n : nat) (acc : dict (varr V)) (s : U) : result (dict (varr V) * U) :=
  match n with
  | O => Ok (acc, s)
  | S n' =>
      let '(l, rest) := next_line s in
      do h <- tok 0 (split_ws l);
      do hr <- (if String.eqb h "METADATA" then
                  let '(l2, rest2) := next_line (skip_meta (length rest) rest) in
                  do x <- field_head (split_ws l2); Ok (x, rest2)
                else do x <- field_head (split_ws l); Ok (x, rest));
      let '((name, k, m, dt), rest3) := hr in
      do d <- v_get p dt (k * m) rest3;
      do a <- (if Nat.eqb k 1 then Ok (VArr dt [] (map (fun x => [x]) (fst d)))
               else if Nat.eqb (length (fst d)) (k * m) then Ok (VArr dt [k] (rows_of m k (fst d))) else Err ValueError);
      read_fields n' (dset name a acc) (snd d)
  end.

Definition vtk_sections : list string :=
  ["METADATA"; "DATASET"; "POINTS"; "CELLS"; "CELL_TYPES"; "POINT_DATA"; "CELL_DATA"; "LOOKUP_TABLE"; "COLOR_SCALARS"].
Definition vtk_dataset_infos : dict (list string) := [
  ("UNSTRUCTURED_GRID", []); ("STRUCTURED_POINTS", ["DIMENSIONS"; "ORIGIN"; "SPACING"; "ASPECT_RATIO"]);
  ("STRUCTURED_GRID", ["DIMENSIONS"]); ("RECTILINEAR_GRID", ["DIMENSIONS"; "X_COORDINATES"; "Y_COORDINATES"; "Z_COORDINATES"]) ].

(** _vtk_42.py:164-173 (CELLS), _vtk_51.py:134-167 *)
Definition read_cells_section (i : vinfo V) (sp : list string) (s : U) : result (vinfo V * U) :=
  if v51 then
    let '(l, rest) := next_line s in
    if negb (startswith l "OFFSETS") then Err AssertionError else
    do no <- tok_int 1 sp;
    do ni <- tok_int 2 sp;
    do t <- tok 1 (split_ws l);
    do dt <- dtype_of t;
    do offs <- v_get_ints p dt (Z.to_nat no) rest;
    let '(l2, rest2) := next_line (snd offs) in
    if negb (startswith l2 "CONNECTIVITY") then Err AssertionError else
    do t2 <- tok 1 (split_ws l2);
    do dt2 <- dtype_of t2;
    do conn <- v_get_ints p dt2 (Z.to_nat ni) rest2;
    do o <- check_offsets_51 (fst conn) (fst offs);
    Ok (VInfo "CELLS" (Some ni) (i_type i) (i_dims i) (i_nums i) (i_points i) (Some (fst conn)) (Some o) (i_types i)
          (i_pdata i) (i_craw i) (i_fdata i), snd conn)
  else
    do ni <- tok_int 2 sp;
    do conn <- v_get_ints p "int32" (Z.to_nat ni) s;
    Ok (VInfo "CELLS" (Some ni) (i_type i) (i_dims i) (i_nums i) (i_points i) (Some (fst conn)) (i_offs i) (i_types i)
          (i_pdata i) (i_craw i) (i_fdata i), snd conn).

(** _vtk_42.py:140-205, _vtk_51.py:109-197 [_read_section].  LOOKUP_TABLE: the colours are skipped, but their number
    replaces the number of points or cells; in binary files, where the colours are parsed as text, an error here.
    COLOR_SCALARS is not modelled (an error). *)
Definition read_section (i : vinfo V) (sec : string) (sp : list string) (s : U) : result (vinfo V * U) :=
  if String.eqb sec "METADATA" then Ok (i, skip_meta (length s) s)
  else if String.eqb sec "DATASET" then
    do t <- tok 1 sp;
    let t := Abaqus.upper t in
    if negb (dmem t vtk_dataset_infos) then Err ReadError else
    Ok (VInfo "DATASET" (i_items i) (Some t) (i_dims i) (i_nums i) (i_points i) (i_conn i) (i_offs i) (i_types i)
          (i_pdata i) (i_craw i) (i_fdata i), s)
  else if String.eqb sec "POINTS" then
    do n <- tok_int 1 sp;
    do t <- tok 2 sp;
    do dt <- dtype_of (lower t);
    do d <- read_points dt (Z.to_nat n) s;
    Ok (VInfo "POINTS" (i_items i) (i_type i) (i_dims i) (i_nums i) (Some (dt, fst d)) (i_conn i) (i_offs i) (i_types i)
          (i_pdata i) (i_craw i) (i_fdata i), snd d)
  else if String.eqb sec "CELLS" then read_cells_section i sp s
  else if String.eqb sec "CELL_TYPES" then
    do n <- tok_int 1 sp;
    do d <- v_get_types p (Z.to_nat n) s;
    Ok (VInfo "CELL_TYPES" (Some n) (i_type i) (i_dims i) (i_nums i) (i_points i) (i_conn i) (i_offs i) (Some (fst d))
          (i_pdata i) (i_craw i) (i_fdata i), snd d)
  else if String.eqb sec "POINT_DATA" || String.eqb sec "CELL_DATA" then
    do n <- tok_int 1 sp;
    Ok (VInfo sec (Some n) (i_type i) (i_dims i) (i_nums i) (i_points i) (i_conn i) (i_offs i) (i_types i)
          (i_pdata i) (i_craw i) (i_fdata i), s)
  else if String.eqb sec "LOOKUP_TABLE" && String.eqb (v_mode p) "ASCII" then
    do n <- tok_int 2 sp;
    do d <- v_get p "float64" (Z.to_nat n * 4) s;
    Ok (VInfo (i_active i) (Some n) (i_type i) (i_dims i) (i_nums i) (i_points i) (i_conn i) (i_offs i) (i_types i)
          (i_pdata i) (i_craw i) (i_fdata i), snd d)
  else Err ReadError.

(** The dictionary [d] of _vtk_42.py:209-216.  Simplification: arrays that are put into [info.dataset] are dropped (there,
    a name like type would replace the dataset type). *)
Definition update_data (i : vinfo V) (d : dict (varr V)) : vinfo V :=
  let a := i_active i in
  VInfo a (i_items i) (i_type i) (i_dims i) (i_nums i) (i_points i) (i_conn i) (i_offs i) (i_types i)
    (if String.eqb a "POINT_DATA" then dupdate (i_pdata i) d else i_pdata i)
    (if String.eqb a "CELL_DATA" then dupdate (i_craw i) d else i_craw i)
    (if String.eqb a "POINT_DATA" || String.eqb a "CELL_DATA" || String.eqb a "DATASET" then i_fdata i
     else dupdate (i_fdata i) d).
(** _vtk_42.py:208-247, _vtk_51.py:200-239 [_read_subsection].  Simplification: the infos of a dataset are kept wherever
    they stand (in the code they are lost if they come after POINTS). *)
Definition read_subsection (i : vinfo V) (sec : string) (sp : list string) (s : U) : result (vinfo V * U) :=
  do t <- of_option KeyError (i_type i);
  do infos <- of_option KeyError (dget t vtk_dataset_infos);
  if smem sec infos then
    if String.eqb sec "DIMENSIONS" then
      do zs <- parse_ints (tl sp);
      if negb (Nat.eqb (length zs) 3) then Err ReadError else
      Ok (VInfo (i_active i) (i_items i) (i_type i) (Some zs) (i_nums i) (i_points i) (i_conn i) (i_offs i) (i_types i)
            (i_pdata i) (i_craw i) (i_fdata i), s)
    else if smem sec ["X_COORDINATES"; "Y_COORDINATES"; "Z_COORDINATES"] then
      do n <- tok_int 1 sp;
      do t <- tok 2 sp;
      do dt <- dtype_of (lower t);
      do d <- v_get p dt (Z.to_nat n) s;
      Ok (VInfo (i_active i) (i_items i) (i_type i) (i_dims i) (dset sec (dt, fst d) (i_nums i)) (i_points i) (i_conn i)
            (i_offs i) (i_types i) (i_pdata i) (i_craw i) (i_fdata i), snd d)
    else
      do xs <- mapM (fun t => of_option ValueError (n_parse nk "float64" t)) (tl sp);
      if negb (Nat.eqb (length xs) 3) then Err ReadError else
      Ok (VInfo (i_active i) (i_items i) (i_type i) (i_dims i) (dset sec ("float64", xs) (i_nums i)) (i_points i) (i_conn i)
            (i_offs i) (i_types i) (i_pdata i) (i_craw i) (i_fdata i), s)
  else if String.eqb sec "SCALARS" then
    do n <- of_option TypeError (i_items i);
    do d <- read_scalars n sp s; Ok (update_data i (fst d), snd d)
  else if String.eqb sec "VECTORS" then
    do n <- of_option TypeError (i_items i);
    do d <- read_field n sp [3] s; Ok (update_data i (fst d), snd d)
  else if String.eqb sec "TENSORS" then
    do n <- of_option TypeError (i_items i);
    do d <- read_field n sp [3; 3] s; Ok (update_data i (fst d), snd d)
  else if String.eqb sec "FIELD" then
    do k <- tok_int 2 sp;
    do d <- read_fields (Z.to_nat k) [] s; Ok (update_data i (fst d), snd d)
  else Err ReadError.

(** _vtk_42.py:108-124, _vtk_51.py:82-98: the loop over the lines.  The fuel is the length of the file. *)
Fixpoint read_loop (fuel : nat) (i : vinfo V) (s : U) : result (vinfo V) :=
  match fuel with
  | O => Ok i
  | S k =>
      match v_next p s with
      | None => Ok i
      | Some (l, rest) =>
          match split_ws l with
          | [] => read_loop k i rest
          | h :: _ =>
              let sec := Abaqus.upper h in
              do r <- (if smem sec vtk_sections then read_section i sec (split_ws l) rest
                       else read_subsection i sec (split_ws l) rest);
              read_loop k (fst r) (snd r)
          end
      end
  end.

(** _vtk_42.py:250-281, _vtk_51.py:242-273 [_check_mesh]: points, connectivity and types.  [generate_points] and
    [generate_cells] are in Model/Vtk.v.  Simplification: the coordinates are not converted to the dtype of the x axis. *)
Definition grid_points (dt : string) (xs ys zs : list V) : result (string * list (list V)) :=
  do pts <- mapM (fun q => let '(ox, oy, oz) := q in
                           do x <- of_option IndexError ox; do y <- of_option IndexError oy; do z <- of_option IndexError oz;
                           Ok [x; y; z]) (generate_points xs ys zs);
  Ok (dt, pts).
Definition grid_cells (dims : list Z) : result (list Z * list Z) :=
  do g <- generate_cells (map Z.to_nat dims);
  Ok (concat (fst g), repeat (snd g) (length (fst g))).
Definition check_mesh (i : vinfo V) : result (option (string * list (list V)) * list Z * list Z) :=
  do t <- of_option KeyError (i_type i);
  if String.eqb t "UNSTRUCTURED_GRID" then
    do conn <- of_option ReadError (i_conn i);
    do types <- of_option ReadError (i_types i);
    Ok (i_points i, conn, types)
  else if String.eqb t "STRUCTURED_POINTS" then
    do dims <- of_option KeyError (i_dims i);
    do ori <- of_option KeyError (dget "ORIGIN" (i_nums i));
    do spa <- (match dget "SPACING" (i_nums i) with
               | Some x => Ok x
               | None => of_option KeyError (dget "ASPECT_RATIO" (i_nums i))
               end);
    match snd ori, snd spa, dims with
    | [ox; oy; oz], [sx; sy; sz], [nx; ny; nz] =>
        do pts <- grid_points "float64" (n_axis nk ox sx (Z.to_nat nx)) (n_axis nk oy sy (Z.to_nat ny)) (n_axis nk oz sz (Z.to_nat nz));
        do c <- grid_cells dims;
        Ok (Some pts, fst c, snd c)
    | _, _, _ => Err IndexError
    end
  else if String.eqb t "RECTILINEAR_GRID" then
    do xs <- of_option KeyError (dget "X_COORDINATES" (i_nums i));
    do ys <- of_option KeyError (dget "Y_COORDINATES" (i_nums i));
    do zs <- of_option KeyError (dget "Z_COORDINATES" (i_nums i));
    do pts <- grid_points (fst xs) (snd xs) (snd ys) (snd zs);
    do dims <- of_option KeyError (i_dims i);
    do c <- grid_cells dims;
    Ok (Some pts, fst c, snd c)
  else
    do dims <- of_option KeyError (i_dims i);
    do c <- grid_cells dims;
    Ok (i_points i, fst c, snd c).

(** The parts of the cell data for the blocks: none for a mesh without blocks; None if there are polygons (4.2) *)
Definition split_data (sp : option (list (nat * nat))) (raw : dict (varr V)) : dict (vcd V) :=
  match sp with
  | None | Some [] => []
  | Some sp => map (fun na => (fst na, VCd (va_dtype (snd na)) (va_tail (snd na)) (pieces sp (va_rows (snd na))))) raw
  end.
(** src/meshio/_mesh.py:130-180, the checks of [Mesh.__init__]; [info.points] may be missing *)
Definition build_mesh (pts : option (string * list (list V))) (cells : list block) (pd : dict (varr V)) (cd : dict (vcd V))
    (fd : dict (varr V)) : result (vmesh V) :=
  do q <- of_option TypeError pts;
  do _ <- mapM (fun b => cellblock_dim (btype b)) cells;
  if negb (forallb (fun na => Nat.eqb (length (va_rows (snd na))) (length (snd q))) pd) then Err ValueError else
  if negb (forallb (fun nc => Nat.eqb (length (vc_rows (snd nc))) (length cells)
                              && forallb (fun rb => Nat.eqb (length (fst rb)) (blen (snd rb))) (combine (vc_rows (snd nc)) cells)) cd)
  then Err ValueError else
  Ok (VMesh (fst q) (snd q) cells pd cd fd).

(** _vtk_42.py:96-137, _vtk_51.py:70-111 [read_buffer].  In 5.1 [len(info.offsets)] raises TypeError if there is no CELLS
    section (structured grids). *)
Definition read_body (s : U) : result (vmesh V) :=
  let '(_, s1) := next_line s in
  let '(l, s2) := next_line s1 in
  let mode := Abaqus.upper (strip l) in
  if negb (smem mode ["ASCII"; "BINARY"]) then Err ReadError else
  (* the mode of the file decides how it is read; here it must be the mode of the port *)
  if negb (String.eqb mode (v_mode p)) then Err ReadError else
  do i <- read_loop (S (length s2)) info0 s2;
  do c <- check_mesh i;
  let '(pts, conn, types) := c in
  if v51 then
    do offs <- of_option TypeError (i_offs i);
    do r <- vtk_cells_from_data conn offs types;
    build_mesh pts (fst r) (i_pdata i) (split_data (Some (snd r)) (i_craw i)) (i_fdata i)
  else
    do r <- translate_cells conn types;
    build_mesh pts (fst r) (i_pdata i) (split_data (snd r) (i_craw i)) (i_fdata i).
End Read.

(** _main.py:15-27 [read_buffer] *)
Definition read_vtk {V} (nk : nums V) (p : vport V) (s : list (vunt p)) : result (vmesh V) :=
  let '(l, rest) := next_line p s in
  let l := strip l in
  if negb (startswith l "# vtk DataFile Version") then Err ReadError else
  if String.eqb (substring 23 (String.length l - 23) l) "5.1" then read_body nk p true rest else read_body nk p false rest.
