(** Model of src/meshio/ply/_ply.py: whole files, text and binary. *)
From Coq Require Import ZArith NArith List String Ascii Bool.
From Verif.Lib Require Import Base Text Lines Runs Bytes File.
From Verif.Model Require Import Core Gmsh22 Port Ply.
Import ListNotations.
Open Scope list_scope.

(** Numbers of the types in [type_name_table] ("i4", "f8", ...): how they are printed, read from text ([np.genfromtxt] puts a
    default in the place of a token that is not a number) and stored. *)
Record numbers : Type := Numbers {
  num :> Type;
  num_text : string -> num -> string;
  num_parse : string -> string -> num;
  num_bytes : bool -> string -> num -> bytes;
  num_value : bool -> string -> bytes -> num }.
Definition num_width (code : string) : nat :=
  match dget code [("i1", 1); ("i2", 2); ("i4", 4); ("i8", 8); ("u1", 1); ("u2", 2); ("u4", 4); ("u8", 8); ("f4", 4); ("f8", 8)] with
  | Some w => w | None => 0 end.

Section Ply.
Variable nk : numbers.

(** A numpy array of point data: type, shape without the first entry, values *)
Record parray : Type := PArray { pa_code : string; pa_shape : list nat; pa_values : list nk }.
(** A mesh: number of columns and type of the points, their rows, point data, cells with the types of the index arrays *)
Record ply_mesh : Type := PlyMesh {
  pl_dim : nat; pl_code : string; pl_points : list (list nk); pl_data : dict parray; pl_cells : list typed_block }.

(** ** Writing *)
(** _ply.py:430-432: one property for each coordinate *)
Fixpoint coord_lines (code : string) (dims : nat) (names : list string) : result (list string) :=
  match dims with
  | O => Ok []
  | S d =>
      do n <- of_option KeyError (dget code type_name_table);
      match names with
      | [] => Err IndexError
      | x :: xs => do ls <- coord_lines code d xs; Ok (property_line n x :: ls)
      end
  end.
(** _ply.py:434-446: the arrays that are written *)
Definition one_column (kv : string * parray) : bool := match pa_shape (snd kv) with [] => true | _ => false end.
Definition ply_columns (m : ply_mesh) : list (string * parray) := filter one_column (pl_data m).
(** One row of the record array of _ply.py:488 and 508: point [i] with its data.  The arrays of a mesh have as many entries as
    there are points. *)
Definition typed (code : string) (v : nk) : string * nk := (code, v).
Definition column_value (i : nat) (kv : string * parray) : list (string * nk) :=
  match nth_error (pa_values (snd kv)) i with Some v => [(pa_code (snd kv), v)] | None => [] end.
Definition ply_row (m : ply_mesh) (ip : nat * list nk) : list (string * nk) :=
  map (typed (pl_code m)) (snd ip) ++ flat_map (column_value (fst ip)) (ply_columns m).
Definition ply_rows (m : ply_mesh) : list (list (string * nk)) := map (ply_row m) (combine (seq 0 (List.length (pl_points m))) (pl_points m)).

(** _ply.py:394-482: the header *)
Definition format_line (binary big : bool) : string :=
  if binary then (if big then "format binary_big_endian 1.0" else "format binary_little_endian 1.0") else "format ascii 1.0".
Definition ply_header_lines (binary big : bool) (stamp : string) (m : ply_mesh) (faces : list string) : result (list string) :=
  do cs <- coord_lines (pl_code m) (pl_dim m) ["x"; "y"; "z"];
  do ds <- mapM (fun kv => write_property (pa_code (snd kv)) (fst kv)) (ply_columns m);
  Ok (["ply"; format_line binary big; ("comment Created by meshio " ++ stamp)%string;
       ("element vertex " ++ str_of_nat (List.length (pl_points m)))%string] ++ cs ++ ds ++ faces ++ ["end_header"]).
(** _ply.py:448-482: the lines of the faces in the header and their data; without faces neither is written, but a block
    without rows gives an empty line in text files *)
Definition ply_face_part (binary big : bool) (m : ply_mesh) : result (list string * face_data) :=
  if Nat.eqb (num_faces (map snd (pl_cells m))) 0
  then Ok ([], if binary then FaceBytes [] else FaceLines (faces_ascii (map snd (pl_cells m))))
  else
    do r <- write_faces binary big (pl_cells m);
    let '(n, prop, d) := r in Ok ([("element face " ++ str_of_nat n)%string; prop], d).
(** _ply.py:394-535 [write].  [stamp] stands for version and time; [big] is the byte order of the machine.
    Simplifications: the header is written before an exception is raised, which is not modelled (the result is an error). *)
Definition write_ply (binary big : bool) (stamp : string) (m : ply_mesh) : result bytes :=
  do fp <- ply_face_part binary big m;
  do hs <- ply_header_lines binary big stamp m (fst fp);
  if Nat.eqb (pl_dim m + List.length (ply_columns m)) 0 then Err IndexError else
  match snd fp with
  | FaceBytes b =>
      Ok (text_bytes hs ++ flat_map (flat_map (fun cv => num_bytes nk big (fst cv) (snd cv))) (ply_rows m) ++ b)
  | FaceLines fl =>
      match pl_points m with
      | [] => Err IndexError
      | _ => Ok (text_bytes (hs ++ map (fun r => row_line (map (fun cv => num_text nk (fst cv) (snd cv)) r)) (ply_rows m) ++ fl))
      end
  end.

(** ** Reading *)
(** _ply.py:66-73 [_next_line]: at the end of the file [readline] returns the empty string for ever *)
Fixpoint next_line (fuel : nat) (ls : list string) : result (string * list string) :=
  match fuel with
  | O => Err OutOfFuel
  | S k =>
      let l := strip (line1 ls) in
      if (String.eqb l "" || String.prefix "comment" l)%bool then next_line k (tl ls) else Ok (l, tl ls)
  end.

(** [re.match("element vertex (\\d+)", line)]: the digits after the words, whatever follows them.
    Simplification: decimal digits of ASCII only. *)
Fixpoint leading_digits (s : string) : string :=
  match s with
  | String c s' => match digit_val c with Some _ => String c (leading_digits s') | None => "" end
  | EmptyString => ""
  end.
Definition match_count (head line : string) : option nat :=
  if String.prefix head line then
    match leading_digits (remove_prefix head line) with
    | EmptyString => None
    | d => match parse_N d with Some n => Some (N.to_nat n) | None => None end
    end
  else None.

(** A property of a face: a number, or a list with the types of its length and its entries *)
Inductive ftype : Type := Scalar (t : string) | ListOf (ct vt : string).
Record header : Type := Header {
  h_verts : nat; h_faces : nat; h_props : list (string * string); h_fprops : list (string * ftype) }.
Definition h0 : header := Header 0 0 [] [].
Inductive inside : Type := Outside | InVertex | InFace.

(** _ply.py:96-146: the header after the format line; [line] is the current line, [ls] the rest of the file.  The inner loops
    over property lines are the states [InVertex] and [InFace].  Simplification: see read_property. *)
Fixpoint read_header (fuel : nat) (st : inside) (line : string) (ls : list string) (h : header) : result (header * list string) :=
  match fuel with
  | O => Err OutOfFuel
  | S k =>
      let go st h := do r <- next_line fuel ls; read_header k st (fst r) (snd r) h in
      match st, String.prefix "property" line with
      | InVertex, true =>
          do p <- read_property line;
          go InVertex (Header (h_verts h) (h_faces h) (h_props h ++ [(snd p, fst p)]) (h_fprops h))
      | InFace, true =>
          if String.prefix "property list" line then
            do p <- read_list_property line;
            let '(ct, vt, name) := p in
            go InFace (Header (h_verts h) (h_faces h) (h_props h) (h_fprops h ++ [(name, ListOf ct vt)]))
          else
            do p <- read_property line;
            go InFace (Header (h_verts h) (h_faces h) (h_props h) (h_fprops h ++ [(snd p, Scalar (fst p))]))
      | _, _ =>
          if String.eqb line "end_header" then Ok (h, ls)
          else if String.prefix "obj_info" line then go Outside h
          else match match_count "element vertex " line with
               | Some n => go InVertex (Header n (h_faces h) (h_props h) (h_fprops h))
               | None =>
                   match match_count "element face " line with
                   | Some n => go InFace (Header (h_verts h) n (h_props h) (h_fprops h))
                   | None => Err ReadError
                   end
               end
      end
  end.

(** What the reader returns: points (rows), point data, blocks, cell data (one list for each group) *)
Record ply_out : Type := PlyOut {
  o_points : list (list nk); o_data : dict (list nk); o_cells : list block; o_cell_data : dict (list (list nk)) }.

Definition distinct (l : list string) : bool :=
  Nat.eqb (List.length (dedup l)) (List.length l).

(** *** Text *)
(** numpy.lib.npyio: names of fields that [np.genfromtxt] leaves alone.  All other names are changed and are then not found by
    the reader (ValueError).  Simplification: the latter is modelled as an error even where such a name is not looked up. *)
Definition name_kept (s : string) : bool :=
  forallb (fun c => negb (char_in c "~!@#$%^&*()-=+~\|]}[{';: /?.>,<""")) (list_ascii_of_string s) &&
  negb (smem s [""; "return"; "file"; "print"]).
Definition cut_hash (s : string) : string := hd "" (split_char "#" s).
(** [np.genfromtxt(f, max_rows=n)] with a record type: the tokens of the next [n] rows that are not empty (or of all that are
    left), and the lines after them.  Every row must have as many columns as the first one. *)
Fixpoint take_rows (n : nat) (ls : list string) : list (list string) * list string :=
  match ls with
  | [] => ([], [])
  | l :: ls' =>
      match n with
      | O => ([], ls)
      | S k =>
          match split_ws (cut_hash l) with
          | [] => take_rows (S k) ls'
          | ts => let r := take_rows k ls' in (ts :: fst r, snd r)
          end
      end
  end.
Definition genfromtxt (names : list string) (codes : list string) (n : nat) (ls : list string) : result (list (list nk) * list string) :=
  if Nat.eqb n 0 then Err ValueError else
  let '(rows, rest) := take_rows n ls in
  match rows with
  | [] => Ok ([], rest)
  | r :: _ =>
      if negb (forallb (fun r' => Nat.eqb (List.length r') (List.length r)) rows) then Err ValueError
      else if Nat.ltb (List.length r) (List.length codes) then Err ValueError
      else Ok (map (fun ts => map (fun ct => num_parse nk (fst ct) (snd ct)) (combine codes ts)) rows, rest)
  end.

(** _ply.py:188-202: coordinates in the first three columns; the number of coordinates found *)
Definition coord_columns (names : list string) : result (list nat) :=
  match names with
  | a :: b :: c :: _ => Ok ((if String.eqb a "x" then [0] else []) ++ (if String.eqb b "y" then [1] else []) ++ (if String.eqb c "z" then [2] else []))
  | _ => Err IndexError
  end.
(** Column [j] of the rows; [np.column_stack] of the columns *)
Definition column (rows : list (list nk)) (j : nat) : list nk := flat_map (fun r => match nth_error r j with Some v => [v] | None => [] end) rows.
Definition pick (r : list nk) (js : list nat) : list nk := flat_map (fun j => match nth_error r j with Some v => [v] | None => [] end) js.

(** A dictionary of lists of values by number of corners: [collections.defaultdict(list)] *)
Fixpoint add_to (n : nat) (v : nk) (g : list (nat * list nk)) : list (nat * list nk) :=
  match g with
  | [] => [(n, [v])]
  | (k, vs) :: g' => if Nat.eqb k n then (k, vs ++ [v]) :: g' else (k, vs) :: add_to n v g'
  end.
(** _ply.py:213-224: at the first face the data of each property is initialised.  [data] are the tokens of the line. *)
Fixpoint init_face_data (props : list (string * ftype)) (data : list string) (i : nat) (acc : dict (list (nat * list nk)))
  : result (dict (list (nat * list nk))) :=
  match props with
  | [] => Ok acc
  | (name, _) :: ps =>
      if String.eqb name "vertex_indices" then
        match nth_error data i with
        | None => Err IndexError
        | Some t => do n <- of_option ValueError (parse_Z t); init_face_data ps data (i + (Z.to_nat n + 1)) acc
        end
      else init_face_data ps data (i + 1) (dset name [] acc)
  end.
(** State of the loop over the faces: the blocks (newest first, see add_ply_face) and the data *)
Definition face_state : Type := (list (string * list cell) * dict (list (nat * list nk)))%type.
(** _ply.py:226-248: one line.  [n] is the number of corners if the list has been seen.  Simplification: a count or an index
    outside the range of its type is not an error. *)
Fixpoint face_props (props : list (string * ftype)) (data : list string) (i : nat) (n : option nat) (s : face_state) : result face_state :=
  match props with
  | [] => Ok s
  | (name, ft) :: ps =>
      if String.eqb name "vertex_indices" then
        match ft with
        | Scalar _ => Err ValueError
        | ListOf ct vt =>
            do _ <- of_option KeyError (dget ct ply_to_numpy);
            match nth_error data i with
            | None => Err IndexError
            | Some t =>
                do c <- of_option ValueError (parse_Z t);
                do _ <- of_option KeyError (dget vt ply_to_numpy);
                do idx <- parse_ints (firstn (Z.to_nat c) (skipn (i + 1) data));
                face_props ps data (i + (Z.to_nat c + 1)) (Some (Z.to_nat c)) (add_ply_face (fst s) (Z.to_nat c) idx, snd s)
            end
        end
      else
        match ft with
        | ListOf _ _ => Err KeyError
        | Scalar t =>
            do code <- of_option KeyError (dget t ply_to_numpy);
            match n with
            | None => Err AssertionError
            | Some n' =>
                match nth_error data i with
                | None => Err IndexError
                | Some tok =>
                    do g <- of_option KeyError (dget name (snd s));
                    face_props ps data (i + 1) n (fst s, dset name (add_to n' (num_parse nk code tok) g) (snd s))
                end
            end
        end
  end.
Fixpoint read_face_rows (props : list (string * ftype)) (k : nat) (ls : list string) (s : face_state) : result face_state :=
  match k with
  | O => Ok s
  | S k' => do s' <- face_props props (split_ws (line1 ls)) 0 None s; read_face_rows props k' (tl ls) s'
  end.

(** _mesh.py:150-198: the checks of the constructor of Mesh on data of points and cells *)
Definition check_mesh (o : ply_out) : result ply_out :=
  if negb (forallb (fun kv => Nat.eqb (List.length (snd kv)) (List.length (o_points o))) (o_data o)) then Err ValueError
  else if negb (forallb (fun kv => Nat.eqb (List.length (snd kv)) (List.length (o_cells o)) &&
                   forallb (fun db => Nat.eqb (List.length (fst db)) (blen (snd db))) (combine (snd kv) (o_cells o))) (o_cell_data o))
  then Err ValueError else Ok o.

(** _ply.py:174-258 [_read_ascii].  One row is squeezed to arrays without a dimension: then Mesh fails (TypeError) if there is
    point data. *)
Definition read_text (h : header) (ls : list string) : result ply_out :=
  let names := map fst (h_props h) in
  do codes <- mapM (fun p => of_option KeyError (dget (snd p) ply_to_numpy)) (h_props h);
  if negb (distinct names) then Err ValueError else
  do g <- genfromtxt names codes (h_verts h) ls;
  let '(rows, rest) := g in
  do cols <- coord_columns names;
  if negb (forallb name_kept names) then Err ValueError else
  match cols with
  | [] => Err ValueError
  | _ =>
      let k := List.length cols in
      let data := map (fun jn => (snd jn, column rows (fst jn))) (skipn k (combine (seq 0 (List.length names)) names)) in
      do s0 <- (if Nat.eqb (h_faces h) 0 then Ok [] else init_face_data (h_fprops h) (split_ws (line1 rest)) 0 []);
      do s <- read_face_rows (h_fprops h) (h_faces h) rest ([], s0);
      if (Nat.eqb (List.length rows) 1 && negb (Nat.eqb (List.length data) 0))%bool then Err TypeError else
      check_mesh (PlyOut (map (fun r => pick r cols) rows) data
        (rev (map (fun g => Block (fst g) (rev (snd g))) (fst s)))
        (map (fun kv => (fst kv, map snd (snd kv))) (snd s)))
  end.

(** *** Binary *)
(** Split bytes at widths *)
Fixpoint fields (ws : list nat) (b : bytes) : list bytes :=
  match ws with [] => [] | w :: ws' => firstn w b :: fields ws' (skipn w b) end.
Definition find_field (names : list string) (name : string) : option nat :=
  match filter (fun jn => String.eqb (snd jn) name) (combine (seq 0 (List.length names)) names) with
  | (j, _) :: _ => Some j | [] => None end.
(** _ply.py:301-322, the face properties: each list and each number is read as if it stood alone.  A number is not an array:
    Mesh fails with TypeError; so it does for a list with another name than vertex_indices (ValueError) unless it is empty. *)
Fixpoint read_face_buffers (big : bool) (nf : nat) (props : list (string * ftype)) (b : bytes) (cells : list block) (others : list block)
    (scalar : bool) : result (list block * list block * bool) :=
  match props with
  | [] => Ok (cells, others, scalar)
  | (name, ListOf ct vt) :: ps =>
      do c <- of_option KeyError (dget ct ply_binary_table);
      do v <- of_option KeyError (dget vt ply_binary_table);
      do ctype <- of_option TypeError (int_type c);
      do vtype <- of_option TypeError (int_type v);
      do r <- read_binary_list big (snd ctype) vtype nf b;
      if String.eqb name "vertex_indices" then read_face_buffers big nf ps (skipn (fst r) b) (snd r) others scalar
      else read_face_buffers big nf ps (skipn (fst r) b) cells (others ++ snd r) scalar
  | (name, Scalar t) :: ps =>
      do code <- of_option KeyError (dget t ply_binary_table);
      do xs <- frombuffer (num_width code) (firstn (num_width code) b);
      match xs with
      | [] => Err IndexError
      | _ => read_face_buffers big nf ps (skipn (num_width code) b) cells others true
      end
  end.
(** _ply.py:261-330 [_read_binary].  Simplifications: the types of all properties are looked up before any data is read in the
    code; two face properties of the same name are kept apart. *)
Definition read_binary (big : bool) (h : header) (b : bytes) : result ply_out :=
  let names := map fst (h_props h) in
  do codes <- mapM (fun p => of_option KeyError (dget (snd p) ply_binary_table)) (h_props h);
  if negb (distinct names) then Err ValueError else
  let ws := map num_width codes in
  let size := sum_nat ws in
  if Nat.eqb size 0 then Err ValueError else
  do recs <- frombuffer size (firstn (h_verts h * size) b);
  let rows := map (fun r => map (fun cb => num_value nk big (fst cb) (snd cb)) (combine codes (fields ws r))) recs in
  do jx <- of_option ValueError (find_field names "x");
  do jy <- of_option ValueError (find_field names "y");
  do jz <- of_option ValueError (find_field names "z");
  do f <- read_face_buffers big (h_faces h) (h_fprops h) (skipn (h_verts h * size) b) [] [] false;
  let '(cells, others, scalar) := f in
  if scalar then Err TypeError else
  match others with
  | _ :: _ => Err ValueError
  | [] =>
      check_mesh (PlyOut (map (fun r => pick r [jx; jy; jz]) rows)
        (flat_map (fun jn => if smem (snd jn) ["x"; "y"; "z"] then [] else [(snd jn, column rows (fst jn))]) (combine (seq 0 (List.length names)) names))
        cells [])
  end.

(** _ply.py:76-172 [read_buffer].  [fuel] bounds the number of lines of the header that are read. *)
Definition read_ply (fuel : nat) (b : bytes) : result ply_out :=
  let ls := to_lines b in
  if negb (String.eqb (strip (line1 ls)) "ply") then Err ReadError else
  do f <- next_line fuel (tl ls);
  do mode <- (if String.eqb (fst f) "format ascii 1.0" then Ok None
              else if String.eqb (fst f) "format binary_big_endian 1.0" then Ok (Some true)
              else if String.eqb (fst f) "format binary_little_endian 1.0" then Ok (Some false) else Err ReadError);
  do l <- next_line fuel (snd f);
  do h <- read_header fuel Outside (fst l) (snd l) h0;
  match mode with
  | None => read_text (fst h) (snd h)
  | Some big => read_binary big (fst h) (of_lines (snd h))
  end.
End Ply.
