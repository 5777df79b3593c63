(** Model of the data arrays and the polyhedra of src/meshio/vtu/_vtu.py.
    Not modelled: the XML document around the arrays; an array's text is passed as a list
    of characters. *)
From Verif.Lib Require Import Base Text Runs Bytes.
From Verif.Model Require Import Core.
From Coq Require Import NArith.

(** src/meshio/vtu/_vtu.py:27-30 [num_bytes_to_num_base64_chars]; Python's // rounds down *)
Definition num_base64_chars (n : Z) : Z := (- (- n / 3) * 4)%Z.

(** An element of a header array, [np.array(..., dtype=header_type)]: unsigned, [w] bytes;
    a value that does not fit raises OverflowError. *)
Definition header_item (big : bool) (w : nat) (n : N) : result bytes :=
  if (n <? capacity w)%N then Ok (uint_bytes big w n) else Err OverflowError.

(** src/meshio/vtu/_vtu.py:738-742 [text_writer_uncompressed] *)
Definition write_uncompressed (big : bool) (w : nat) (data : bytes) : result (list ascii) :=
  do header <- header_item big w (N.of_nat (length data));
  Ok (b64encode (header ++ data)).

(** [np.frombuffer(b, header_dtype)[0]] *)
Definition first_item (big : bool) (w : nat) (b : bytes) : result N :=
  do l <- frombuffer w b;
  match l with
  | [] => Err IndexError
  | x :: _ => Ok (uint_value big x)
  end.

(** src/meshio/vtu/_vtu.py:447-472 [read_uncompressed_binary]: the items, [k] bytes each *)
Definition read_uncompressed (big : bool) (w k : nat) (text : list ascii) : result (list bytes) :=
  do byte_string <- b64decode text;
  do total <- first_item big w (firstn w byte_string);
  do rest <- (if Nat.eqb (length byte_string) w
              then b64decode (skipn (length (b64encode byte_string)) text)
              else Ok (skipn w byte_string));
  frombuffer k (firstn (N.to_nat total) rest).

Section Compressed.
(** zlib / lzma *)
Variable compress : bytes -> bytes.
Variable decompress : bytes -> result bytes.

(** src/meshio/vtu/_vtu.py:587-591 [_chunk_it]: consecutive slices of length [n] *)
Definition chunk_it (n : nat) (data : bytes) : list bytes := chunks n data.

(** src/meshio/vtu/_vtu.py:710-736 [text_writer_compressed], with the block size (32768 in
    the code) as a parameter; [-(-len // m)] rounds up. *)
Definition write_compressed (big : bool) (w m : nat) (data : bytes) : result (list ascii) :=
  let len := Z.of_nat (length data) in
  let num_blocks := (- (- len / Z.of_nat m))%Z in
  let last_block_size := (len - (num_blocks - 1) * Z.of_nat m)%Z in
  let blocks := map compress (chunk_it m data) in
  do header <- mapM (header_item big w)
                 (Z.to_N num_blocks :: N.of_nat m :: Z.to_N last_block_size ::
                  map (fun b => N.of_nat (length b)) blocks);
  Ok (b64encode (concat header) ++ b64encode (concat blocks)).

(** [np.cumsum(block_sizes, out=byte_offsets[1:])] in unsigned [w]-byte arithmetic *)
Fixpoint cumsum_mod (w : nat) (acc : N) (l : list N) : list N :=
  match l with
  | [] => []
  | x :: xs => let a := ((acc + x) mod capacity w)%N in a :: cumsum_mod w a xs
  end.

(** src/meshio/vtu/_vtu.py:474-525 [read_compressed_binary]; np.concatenate([]) raises
    ValueError. *)
Definition read_compressed (big : bool) (w k : nat) (text : list ascii) : result (list bytes) :=
  let num_chars := Z.to_nat (num_base64_chars (Z.of_nat w)) in
  do b0 <- b64decode (firstn num_chars text);
  do num_blocks <- first_item big w (firstn w b0);
  let num_header_bytes := w * (3 + N.to_nat num_blocks) in
  let num_header_chars := Z.to_nat (num_base64_chars (Z.of_nat num_header_bytes)) in
  do b1 <- b64decode (firstn num_header_chars text);
  do header <- frombuffer w b1;
  let block_sizes := skipn 3 (map (uint_value big) header) in
  do byte_array <- b64decode (skipn num_header_chars text);
  let byte_offsets := 0%N :: cumsum_mod w 0 block_sizes in
  do blocks <- mapM (fun i =>
        do a <- of_option IndexError (nth_error byte_offsets i);
        do b <- of_option IndexError (nth_error byte_offsets (S i));
        do d <- decompress (slice (N.to_nat a) (N.to_nat b) byte_array);
        frombuffer k d) (seq 0 (N.to_nat num_blocks));
  match blocks with
  | [] => Err ValueError
  | _ => Ok (concat blocks)
  end.
End Compressed.

(** ** Polyhedra *)
(** A polyhedron is a list of faces, a face a list of node indices. *)
Notation polycell := (list (list Z)).
Record pblock := PBlock { ptype : string; pdata : list polycell }.

(** One cell in the faces array: number of faces, then for every face its number of nodes
    and its nodes. *)
Definition poly_entry (c : polycell) : list Z :=
  Z.of_nat (length c) :: flat_map (fun f => Z.of_nat (length f) :: f) c.

(** src/meshio/vtu/_vtu.py:763-789 [_polyhedron_face_cells]: data and, per cell, the length
    of the data so far *)
Fixpoint poly_face_cells (data : list Z) (cells : list polycell) : list Z * list Z :=
  match cells with
  | [] => (data, [])
  | c :: cs =>
      let data' := data ++ poly_entry c in
      let '(d, sizes) := poly_face_cells data' cs in
      (d, Z.of_nat (length data') :: sizes)
  end.

(** src/meshio/vtu/_vtu.py:863-886: the loop over blocks *)
Fixpoint write_poly_faces (faces faceoffsets : list Z) (bs : list pblock) : list Z * list Z :=
  match bs with
  | [] => (faces, faceoffsets)
  | b :: bs' =>
      let '(f, o) := poly_face_cells [] (pdata b) in
      let o' := match rev faceoffsets with [] => o | last :: _ => map (fun x => (x + last)%Z) o end in
      write_poly_faces (faces ++ f) (faceoffsets ++ o') bs'
  end.

(** [np.unique(nodes_this_cell)] *)
Definition poly_nodes (c : polycell) : list Z := zunique (concat c).

(** [np.cumsum] on integers *)
Fixpoint zcumsum (acc : Z) (l : list Z) : list Z :=
  match l with [] => [] | x :: xs => (acc + x)%Z :: zcumsum (acc + x) xs end.

(** src/meshio/vtu/_vtu.py:815-886, polyhedral case: connectivity, offsets, types, faces,
    faceoffsets.  ValueError if a block is not of polyhedron type (lines 610-617). *)
Record poly_arrays := PolyArrays {
  pa_conn : list Z; pa_offsets : list Z; pa_types : list Z; pa_faces : list Z; pa_faceoffsets : list Z }.
Definition write_poly (bs : list pblock) : result poly_arrays :=
  if forallb (fun b => startswith (ptype b) "polyhedron") bs then
    let cells := flat_map pdata bs in
    let '(f, o) := write_poly_faces [] [] bs in
    Ok {| pa_conn := flat_map poly_nodes cells;
          pa_offsets := zcumsum 0 (map (fun c => Z.of_nat (length (poly_nodes c))) cells);
          pa_types := repeat 42%Z (length cells);
          pa_faces := f; pa_faceoffsets := o |}
  else Err ValueError.

(** [faces[a:b]] for nonnegative bounds.  Simplification: negative bounds, which Python
    counts from the end, give ValueError. *)
Definition zslice {A} (a b : Z) (l : list A) : result (list A) :=
  if (0 <=? a)%Z && (0 <=? b)%Z then Ok (slice (Z.to_nat a) (Z.to_nat b) l) else Err ValueError.

(** src/meshio/vtu/_vtu.py:63-74: [n] faces starting at [next] *)
Fixpoint read_faces (faces : list Z) (n : nat) (next : Z) : result polycell :=
  match n with
  | O => Ok []
  | S n' =>
      do k <- of_option IndexError (znth faces next);
      do f <- zslice (next + 1) (next + k + 1) faces;
      do rest <- read_faces faces n' (next + k + 1);
      Ok (f :: rest)
  end.

(** src/meshio/vtu/_vtu.py:59-79: a cell; np.hstack of no faces raises ValueError *)
Definition read_polycell (faces : list Z) (start : Z) : result polycell :=
  do n <- of_option IndexError (znth faces start);
  do c <- read_faces faces (Z.to_nat n) (start + 1);
  match c with [] => Err ValueError | _ => Ok c end.

Definition poly_key (c : polycell) : string := ("polyhedron" ++ str_of_nat (length (poly_nodes c)))%string.

(** [np.diff(np.hstack((0, offsets)))] *)
Fixpoint zdiffs (prev : Z) (l : list Z) : list Z :=
  match l with [] => [] | x :: xs => (x - prev)%Z :: zdiffs x xs end.

(** src/meshio/vtu/_vtu.py:33-103 [_polyhedron_cells_from_data]: the blocks, and for each
    entry of a cell-data list the indices of the cells it holds. *)
Definition read_poly (offsets faces faceoffsets : list Z)
  : result (list (string * list polycell) * list (list nat)) :=
  let starts := 0%Z :: butlast faceoffsets in
  do cells <- mapM (read_polycell faces) starts;
  let size := zdiffs 0 offsets in
  Ok (fold_left (fun acc c => add_to (poly_key c) c acc) cells [],
      map (fun sz => where_ (Z.eqb sz) size) (zunique size)).

(** [d[items]] for every entry *)
Definition poly_data {V} (items : list (list nat)) (d : list V) : list (list V) :=
  map (fun it => flat_map (fun i => match nth_error d i with Some v => [v] | None => [] end) it) items.
