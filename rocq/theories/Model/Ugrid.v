(** Model of src/meshio/ugrid/_ugrid.py. *)
From Verif.Lib Require Import Base Text Lines Bytes File.
From Verif.Model Require Import Core.

Record ugrid_mesh (F : Type) : Type := UgridMesh {
  ug_points : list (list F);
  ug_cells : list block;
  (** for every entry of cell_data: its name and whether the array of its first block is of
      integer type *)
  ug_kinds : list (string * bool) }.
Arguments UgridMesh {F} _ _ _.
Arguments ug_points {F} _.
Arguments ug_cells {F} _.
Arguments ug_kinds {F} _.

(** What [_write_section] is called with: a two-dimensional array of integers or of floats. *)
Inductive usec (F : Type) : Type :=
  | UInts : list (list Z) -> usec F
  | UFloats : list (list F) -> usec F.
Arguments UInts {F} _.
Arguments UFloats {F} _.

(** _ugrid.py:94-102, 167-175: types and numbers of nodes, in the order of the file header *)
Definition surface_types : list (string * nat) := [("triangle", 3); ("quad", 4)].
Definition volume_types : list (string * nat) := [("tetra", 4); ("pyramid", 5); ("wedge", 6); ("hexahedron", 8)].
Definition ugrid_types : list (string * nat) := surface_types ++ volume_types.

(** ** Writer *)

(** _ugrid.py:191-203: [ugrid_counts] and [ugrid_meshio_id] as one dictionary that holds the rows of
    the block last seen.  An entry "points" counts the points; a block of this type is treated as
    the code does. *)
Fixpoint collect (cells : list block) (d : dict (list cell)) (np : nat) : result (dict (list cell)) :=
  match cells with
  | [] => Ok d
  | b :: cells' =>
      if String.eqb (btype b) "points" then
        if Nat.ltb 0 np then Err ValueError else collect cells' d (blen b)
      else match dget (btype b) d with
           | Some rows => if Nat.ltb 0 (length rows) then Err ValueError
                          else collect cells' (dset (btype b) (bdata b) d) np
           | None => collect cells' d np
           end
  end.
Definition rows_for (d : dict (list cell)) (t : string) : list cell :=
  match dget t d with Some rows => rows | None => [] end.
Definition one_based (rows : list cell) : list cell := map (map (fun i => i + 1)%Z) rows.
(** _ugrid.py:281-283: out[:, [1, 0, 4, 2, 3]] *)
Definition pick {A} (p : list nat) (row : list A) : result (list A) := mapM (fun i => of_option IndexError (nth_error row i)) p.
Definition pyramid_out : list nat := [1; 0; 4; 2; 3].
(** _ugrid.py:133-134 *)
Definition pyramid_in : list nat := [1; 0; 3; 4; 2].

Section Ugrid.
Context {F : Type}.
(** [fortran]: the file type is F.  [mem m]: the number of bytes that the arrays of the mesh take in
    memory; it goes into the record markers, which nobody reads. *)
Variable fortran : bool.
Variable mem : ugrid_mesh F -> Z.

Definition marker (n : Z) : list (usec F) := if fortran then [UInts [[n]]] else [].

(** _ugrid.py:245-269: [_pick_first_int_data] chooses the first integer entry; it is a list of
    arrays, which has no [reshape] *)
Definition labels (m : ugrid_mesh F) (n : nat) : result (list (list Z)) :=
  if existsb snd (ug_kinds m) then Err AttributeError else Ok (repeat [1%Z] n).

(** _ugrid.py:161-289 [_write_buffer] *)
Definition write_ugrid (m : ugrid_mesh F) : result (list (usec F)) :=
  let np := length (ug_points m) in
  do d <- collect (ug_cells m) (map (fun t => (fst t, [])) ugrid_types) np;
  let has t := negb (Nat.eqb (length (rows_for d (fst t))) 0) in
  let surf := filter has surface_types in
  let vol := filter has volume_types in
  do labs <- mapM (fun t => labels m (length (rows_for d (fst t)))) surf;
  do vols <- mapM (fun t => let rows := one_based (rows_for d (fst t)) in
                            if String.eqb (fst t) "pyramid" then mapM (pick pyramid_out) rows else Ok rows) vol;
  Ok (marker 56 ++
      [UInts [Z.of_nat np :: map (fun t => Z.of_nat (length (rows_for d (fst t)))) ugrid_types]] ++
      marker 56 ++ marker (mem m) ++
      [UFloats (ug_points m)] ++
      map (fun t => UInts (one_based (rows_for d (fst t)))) surf ++
      map UInts labs ++ map UInts vols ++
      marker (mem m)).

(** ** Reader *)

(** [_read_section]: the next [n] numbers; None if there are fewer. *)
Variable stream : Type.
Variable read_ints : nat -> stream -> option (list Z * stream).
Variable read_reals : nat -> stream -> option (list F * stream).

Definition skip_marker (s : stream) : stream :=
  if fortran then match read_ints 1 s with Some (_, s') => s' | None => s end else s.

(** _ugrid.py:112-121, 137-146: sections with [count * width] numbers each; a section that is too
    short cannot be reshaped.  (Negative counts are not modelled: ValueError.) *)
Fixpoint read_rows (specs : list (string * nat * Z)) (s : stream) : result (list block * stream) :=
  match specs with
  | [] => Ok ([], s)
  | (t, w, n) :: specs' =>
      if (n =? 0)%Z then read_rows specs' s else
      if (n <? 0)%Z then Err ValueError else
      do r <- of_option ValueError (read_ints (Z.to_nat n * w) s);
      let rows := chunks w (fst r) in
      do rows1 <- (if String.eqb t "pyramid" then mapM (pick pyramid_in) rows else Ok rows);
      do q <- read_rows specs' (snd r);
      Ok (Block t (map (map (fun i => i - 1)%Z) rows1) :: fst q, snd q)
  end.
(** _ugrid.py:123-129 *)
Fixpoint read_labels (specs : list (string * nat * Z)) (s : stream) : result (list (list Z) * stream) :=
  match specs with
  | [] => Ok ([], s)
  | (_, _, n) :: specs' =>
      if (n =? 0)%Z then read_labels specs' s else
      if (n <? 0)%Z then Err ValueError else
      do r <- of_option ValueError (read_ints (Z.to_nat n) s);
      do q <- read_labels specs' (snd r);
      Ok (fst r :: fst q, snd q)
  end.

(** _ugrid.py:72-153 [read_buffer]: points, cells and the entry "ugrid:ref" of cell_data *)
Definition read_ugrid (s : stream) : result (list (list F) * list block * list (list Z)) :=
  match read_ints 7 (skip_marker s) with
  | Some (np :: counts, s1) =>
      let s2 := skip_marker (skip_marker s1) in
      if (np <? 0)%Z then Err ValueError else
      do p <- of_option ValueError (read_reals (Z.to_nat np * 3) s2);
      let specs := combine ugrid_types counts in
      let surf := firstn 2 specs in
      let vol := skipn 2 specs in
      do a <- read_rows surf (snd p);
      do l <- read_labels surf (snd a);
      do b <- read_rows vol (snd l);
      Ok (chunks 3 (fst p), fst a ++ fst b, fst l ++ map (fun bl => repeat 0%Z (blen bl)) (fst b))
  | _ => Err ReadError
  end.
End Ugrid.

(** ** File types (_ugrid.py:26-38) *)

(** C and F: numbers in binary form, [w] bytes for an integer, [fw] for a float. *)
Definition sec_bytes {F} (big : bool) (w : nat) (fc : codec F) (s : usec F) : bytes :=
  match s with
  | UInts rows => flat_map (sint_bytes big w) (concat rows)
  | UFloats rows => flat_map (enc fc) (concat rows)
  end.
Definition ugrid_bytes {F} (big : bool) (w : nat) (fc : codec F) (ss : list (usec F)) : bytes :=
  flat_map (sec_bytes big w fc) ss.
Definition take_items {A} (w : nat) (f : bytes -> A) (n : nat) (s : bytes) : option (list A * bytes) :=
  if Nat.ltb (length s) (n * w) then None else Some (map f (chunks w (firstn (n * w) s)), skipn (n * w) s).

(** ASCII: one line per row, printed with the format "%r" (numpy before version 2). *)
Definition sec_lines {fl : floats} (s : usec fl) : list string :=
  match s with
  | UInts rows => map (fun r => row_line (map str_of_Z r)) rows
  | UFloats rows => map (fun r => row_line (map ffmt r)) rows
  end.
Definition ugrid_lines {fl : floats} (ss : list (usec fl)) : list string := flat_map sec_lines ss.
Definition take_ints (n : nat) (ls : list string) : option (list Z * list string) :=
  match take_tokens n ls with
  | Some (ts, rest) => match parse_ints ts with Ok v => Some (v, rest) | Err _ => None end
  | None => None
  end.
Definition take_reals {fl : floats} (n : nat) (ls : list string) : option (list fl * list string) :=
  match take_tokens n ls with
  | Some (ts, rest) => match parse_floats ts with Ok v => Some (v, rest) | Err _ => None end
  | None => None
  end.

(** _ugrid.py:50-56, 62-69: write and read a file *)
Definition write_ugrid_binary {F} (fortran : bool) mem big w (fc : codec F) (m : ugrid_mesh F) : result bytes :=
  do s <- write_ugrid fortran mem m; Ok (ugrid_bytes big w fc s).
Definition read_ugrid_binary {F} (fortran big : bool) w fw (fc : codec F) (b : bytes) :=
  read_ugrid fortran bytes (take_items w (sint_value big)) (take_items fw (dec fc)) b.
Definition write_ugrid_ascii {fl : floats} (m : ugrid_mesh fl) : result (list string) :=
  do s <- write_ugrid false (fun _ => 0%Z) m; Ok (ugrid_lines s).
Definition read_ugrid_ascii {fl : floats} (ls : list string) :=
  read_ugrid (F := fl) false (list string) take_ints take_reals ls.

(** _ugrid.py:41-48 [determine_file_type]: kind (None: ASCII, Some fortran), big endian, bytes of an
    integer, bytes of a float *)
Definition ugrid_file_types : list (string * (option bool * bool * nat * nat)) :=
  [("ascii", (None, false, 4, 4));
   ("b8l", (Some false, true, 8, 8)); ("b8", (Some false, true, 4, 8)); ("b4", (Some false, true, 4, 4));
   ("lb8l", (Some false, false, 8, 8)); ("lb8", (Some false, false, 4, 8)); ("lb4", (Some false, false, 4, 4));
   ("r8", (Some true, true, 4, 8)); ("r4", (Some true, true, 4, 4));
   ("lr8", (Some true, false, 4, 8)); ("lr4", (Some true, false, 4, 4))].
Definition determine_file_type (filename : string) : option bool * bool * nat * nat :=
  let parts := split_char "." filename in
  let default := (None, false, 4, 4) in
  if Nat.ltb 1 (length parts)
  then match dget (nth (length parts - 2) parts "") ugrid_file_types with Some t => t | None => default end
  else default.
