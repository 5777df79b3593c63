(** Model of src/meshio/ply/_ply.py: type tables, property lines and face lists.
    Number types are written as numpy does: "i4" is a signed integer of four bytes. *)
From Verif.Lib Require Import Base Text Lines Runs Bytes.
From Verif.Model Require Import Core.
From Coq Require Import NArith.

(** ** Tables *)

(** _ply.py:22-43 [ply_to_numpy_dtype], used by the ASCII reader *)
Definition ply_to_numpy : dict string :=
  [("char", "i1"); ("uchar", "u1"); ("short", "i2"); ("ushort", "u2"); ("int", "i4"); ("int8", "i1");
   ("int32", "i4"); ("int64", "i8"); ("uint", "u4"); ("uint8", "u1"); ("uint16", "u2"); ("uint32", "u4");
   ("uint64", "u8"); ("float", "f4"); ("float32", "f4"); ("float64", "f8"); ("double", "f8")].
(** _ply.py:44 [{np.dtype(v): k for k, v in ...}], used by the writer for cells *)
Definition numpy_to_ply : dict string :=
  fold_left (fun d kv => dset (snd kv) (fst kv) d) ply_to_numpy [].
(** _ply.py:266-280 [ply_to_numpy_dtype_string], used by the binary reader *)
Definition ply_binary_table : dict string :=
  [("uchar", "i1"); ("uint", "u4"); ("uint8", "u1"); ("uint16", "u2"); ("uint32", "u4"); ("uint64", "u8");
   ("int", "i4"); ("int8", "i1"); ("int32", "i4"); ("int64", "i8"); ("float", "f4"); ("float32", "f4");
   ("double", "f8")].
(** _ply.py:418-429 [type_name_table], used by the writer for points and point data *)
Definition type_name_table : dict string :=
  [("i1", "int8"); ("i2", "int16"); ("i4", "int32"); ("i8", "int64"); ("u1", "uint8"); ("u2", "uint16");
   ("u4", "uint32"); ("u8", "uint64"); ("f4", "float"); ("f8", "double")].

(** Signedness and width of an integer type. *)
Definition int_type (code : string) : option (bool * nat) :=
  dget code [("i1", (true, 1)); ("i2", (true, 2)); ("i4", (true, 4)); ("i8", (true, 8));
             ("u1", (false, 1)); ("u2", (false, 2)); ("u4", (false, 4)); ("u8", (false, 8))].
Definition int_enc (big : bool) (t : bool * nat) (z : Z) : bytes := sint_bytes big (snd t) z.
Definition int_dec (big : bool) (t : bool * nat) (b : bytes) : Z :=
  if fst t then sint_value big b else Z.of_N (uint_value big b).

(** _ply.py:47-57 [cell_type_from_count] *)
Definition cell_type_from_count (n : nat) : string :=
  if Nat.eqb n 1 then "vertex" else if Nat.eqb n 2 then "line" else if Nat.eqb n 3 then "triangle"
  else if Nat.eqb n 4 then "quad" else "polygon".

(** ** Property lines *)

(** _ply.py:430-446 *)
Definition property_line (type_name key : string) : string := ("property " ++ type_name ++ " " ++ key)%string.
Definition write_property (code key : string) : result string :=
  do n <- of_option KeyError (dget code type_name_table); Ok (property_line n key).
(** _ply.py:481-482 *)
Definition list_property_line (ply_type : string) : string :=
  ("property list uint8 " ++ ply_type ++ " vertex_indices")%string.

(** _ply.py:114-118: [re.match("property (.+) (.+)", line)]: the first group is greedy, the
    second one is the last word.  Simplification: words are separated by one blank. *)
Definition read_property (line : string) : result (string * string) :=
  match split_char " " line with
  | "property" :: w =>
      match rev w with
      | name :: (t :: ts) => Ok (join " " (rev (t :: ts)), name)
      | _ => Err AssertionError
      end
  | _ => Err AssertionError
  end.
(** _ply.py:129-132: [re.match("property list (.+) (.+) (.+)", line)] *)
Definition read_list_property (line : string) : result (string * string * string) :=
  match split_char " " line with
  | "property" :: "list" :: w =>
      match rev w with
      | name :: vt :: (t :: ts) => Ok (join " " (rev (t :: ts)), vt, name)
      | _ => Err AssertionError
      end
  | _ => Err AssertionError
  end.

(** ** Writing the faces *)

(** _ply.py:449 *)
Definition ply_cells : list string := ["vertex"; "line"; "triangle"; "quad"; "polygon"].
Definition legal (b : block) : bool := smem (btype b) ply_cells.

(** A block with the type of its index array. *)
Definition typed_block : Type := (string * block)%type.

(** _ply.py:461-467: 64-bit integers are cast to 32 bits, which wraps around. *)
Definition cast_down (tb : typed_block) : typed_block :=
  if String.eqb (fst tb) "i8"
  then ("i4", Block (btype (snd tb)) (map (map (fun z => sint_value false (sint_bytes false 4 z))) (bdata (snd tb))))
  else tb.
(** _ply.py:472-482: all index arrays must have the same type. *)
Definition common_type (tbs : list typed_block) : result string :=
  match tbs with
  | [] => Err WriteError
  | tb :: _ => if forallb (fun tb' => String.eqb (fst tb') (fst tb)) tbs then Ok (fst tb) else Err WriteError
  end.

(** _ply.py:490-503: the count as one byte, then the indices *)
Definition face_bytes (big : bool) (t : bool * nat) (c : cell) : bytes :=
  [(N.of_nat (length c) mod 256)%N] ++ flat_map (int_enc big t) c.
Definition faces_binary (big : bool) (t : bool * nat) (bs : list block) : bytes :=
  flat_map (fun b => flat_map (face_bytes big t) (bdata b)) (filter legal bs).

(** _ply.py:514-535: a block without rows gives one empty line *)
Definition face_line (c : cell) : string := row_line (str_of_nat (length c) :: map str_of_Z c).
Definition block_lines (b : block) : list string :=
  match bdata b with [] => [""] | rows => map face_line rows end.
Definition faces_ascii (bs : list block) : list string := flat_map block_lines (filter legal bs).

(** _ply.py:448-535: what [write] produces for the cells: number of faces, type of the list
    property and the data. *)
Inductive face_data : Type := FaceBytes (b : bytes) | FaceLines (l : list string).
Definition num_faces (bs : list block) : nat := sum_nat (map blen (filter legal bs)).
Definition write_faces (binary big : bool) (tbs : list typed_block) : result (nat * string * face_data) :=
  let n := num_faces (map snd tbs) in
  let tbs' := map cast_down tbs in
  do code <- common_type tbs';
  do name <- of_option KeyError (dget code numpy_to_ply);
  do t <- of_option KeyError (int_type code);
  Ok (n, list_property_line name,
      if binary then FaceBytes (faces_binary big t (map snd tbs')) else FaceLines (faces_ascii (map snd tbs'))).

(** ** Reading the faces *)

(** _ply.py:220-248, for a file whose only face property is the list vertex_indices.
    Simplification: the numbers are not checked against the range of their types (the count is
    at most 255 in the files considered). *)
Definition add_ply_face (acc : list (string * list cell)) (n : nat) (idx : cell) : list (string * list cell) :=
  match acc with
  | (t, r :: rs) :: acc' =>
      if Nat.eqb (length r) n then (t, idx :: r :: rs) :: acc'
      else (cell_type_from_count n, [idx]) :: acc
  | _ => (cell_type_from_count n, [idx]) :: acc
  end.
Fixpoint read_face_lines (k : nat) (ls : list string) (acc : list (string * list cell))
  : result (list (string * list cell)) :=
  match k with
  | O => Ok acc
  | S k' =>
      match split_ws (line1 ls) with
      | [] => Err IndexError
      | c :: data =>
          do n <- of_option ValueError (parse_Z c);
          do idx <- parse_ints (firstn (Z.to_nat n) data);
          read_face_lines k' (tl ls) (add_ply_face acc (Z.to_nat n) idx)
      end
  end.
Definition read_faces_ascii (prop : string) (n : nat) (ls : list string) : result (list block) :=
  do p <- read_list_property prop;
  let '(ct, vt, _) := p in
  do _ <- of_option KeyError (dget ct ply_to_numpy);
  do _ <- of_option KeyError (dget vt ply_to_numpy);
  do acc <- read_face_lines n ls [];
  Ok (rev (map (fun g => Block (fst g) (rev (snd g))) acc)).

(** _ply.py:349-355 [parse_ragged] *)
Fixpoint parse_ragged (big : bool) (cw dw : nat) (n : nat) (at_ : nat) (b : bytes) : list nat :=
  match n with
  | O => []
  | S n' =>
      let count := N.to_nat (uint_value big (slice at_ (at_ + cw) b)) in
      let next := at_ + (count * dw + cw) in
      next :: parse_ragged big cw dw n' next b
  end.
(** [np.diff] *)
Fixpoint diff (x : nat) (l : list nat) : list nat :=
  match l with [] => [] | y :: l' => (y - x) :: diff y l' end.

(** _ply.py:374-390: one block of rows of equal length *)
Definition read_ply_block (big : bool) (cw : nat) (t : bool * nat) (starts lens : list nat) (b : bytes)
    (se : nat * nat) : result (list block) :=
  let '(s, e) := se in
  if Nat.eqb s e then Ok [] else
  let buf := slice (nth s starts 0) (nth e starts 0) b in
  let w := (nth s lens 0 - cw) / snd t in
  do rows <- frombuffer (cw + w * snd t) buf;
  Ok [Block (cell_type_from_count w) (map (fun r => map (int_dec big t) (chunks (snd t) (skipn cw r))) rows)].

(** _ply.py:334-391 [_read_binary_list]: bytes consumed, and the blocks.  The loop of lines
    366-370 produces the pairs of neighbours of 0, the changes, the number of rows: [bounds]. *)
Definition read_binary_list (big : bool) (cw : nat) (t : bool * nat) (n : nat) (b : bytes)
  : result (nat * list block) :=
  let starts := 0 :: parse_ragged big cw (snd t) n 0 b in
  let lens := diff 0 (tl starts) in
  do bs <- mapM (read_ply_block big cw t starts lens b) (bounds Nat.eqb lens);
  Ok (last starts 0, concat bs).

(** _ply.py:293-330, for a file whose only face property is the list vertex_indices *)
Definition read_faces_binary (big : bool) (prop : string) (n : nat) (b : bytes) : result (list block) :=
  do p <- read_list_property prop;
  let '(ct, vt, _) := p in
  do c <- of_option KeyError (dget ct ply_binary_table);
  do v <- of_option KeyError (dget vt ply_binary_table);
  do ctype <- of_option TypeError (int_type c);
  do vtype <- of_option TypeError (int_type v);
  do r <- read_binary_list big (snd ctype) vtype n b;
  Ok (snd r).

Definition read_faces (big : bool) (prop : string) (n : nat) (d : face_data) : result (list block) :=
  match d with
  | FaceBytes b => read_faces_binary big prop n b
  | FaceLines ls => read_faces_ascii prop n ls
  end.
