(** Model of the input and output of MSH 4 files in both modes: [np.fromfile] and [tofile] with a separator (ASCII
    files, lists of lines) and without (binary files, lists of bytes), and the parts of src/meshio/gmsh/main.py and
    src/meshio/gmsh/common.py that read and write the lines around the numbers. *)
From Coq Require Import ZArith NArith List String Ascii Bool.
From Verif.Lib Require Import Base Text Lines Bytes File.
From Verif.Model Require Import Core Gmsh Gmsh22.
Import ListNotations.

(** Types of integers: int (4 bytes, signed), size_t and unsigned long (8 bytes, unsigned), long (8 bytes, signed).
    Simplification: the data size is 8, as written by meshio; the byte order is little endian. *)
Inductive ikind : Set := CInt | CSize | CLong.

Inductive item (F : Type) : Type :=
| Int (k : ikind) (z : Z)
| Dbl (x : F).
Arguments Int {F} k z.
Arguments Dbl {F} x.

(** What the readers and writers need of a file.  [unt] is a line or a byte. *)
Record port (F : Type) : Type := Port {
  unt : Type;
  (** one line for each list of items *)
  put : list (list (item F)) -> list unt;
  (** [np.fromfile] for integers and for doubles *)
  get_ints : ikind -> nat -> list unt -> result (list Z * list unt);
  get_floats : nat -> list unt -> result (list F * list unt);
  (** the lines that open and close a section of numbers *)
  opening : string -> list unt;
  closing : string -> list unt;
  (** lines of text *)
  text : list string -> list unt;
  (** _gmsh41.py:52-61: the name of the next section after blank lines; None at the end of the file *)
  next_section : list unt -> result (option (string * list unt));
  (** _gmsh40.py:42-49: the same without blank lines *)
  next_section40 : list unt -> result (option (string * list unt));
  (** common.py:15-29 [_fast_forward_to_end_block] *)
  skip_end : string -> list unt -> list unt;
  (** common.py:41-50 [_read_physical_names] *)
  get_names : dict (Z * Z) -> list unt -> result (dict (Z * Z) * list unt);
  (** common.py:235-286 [_write_data], 53-90 [_read_data] *)
  put_data : string -> string -> nat -> list (list F) -> result (list unt);
  get_data : string -> dict (list (list F)) -> list unt -> result (dict (list (list F)) * list unt);
  (** main.py:26-91, 313-320 of _gmsh41.py: header for a version *)
  put_header : string -> list unt;
  get_header : list unt -> result (string * list unt);
  (** _gmsh40.py:107-152 [_read_nodes]: points and tags *)
  get_nodes40 : list unt -> result (list (list F) * list Z * list unt);
  (** _gmsh40.py:214-231: the transformation and the pairs of a periodic link *)
  get_pairs40 : list unt -> result (option (list F) * list Z * list unt)
}.
Arguments unt {F} p.
Arguments put {F} p _.
Arguments get_ints {F} p _ _ _.
Arguments get_floats {F} p _ _.
Arguments opening {F} p _.
Arguments closing {F} p _.
Arguments text {F} p _.
Arguments next_section {F} p _.
Arguments next_section40 {F} p _.
Arguments skip_end {F} p _ _.
Arguments get_names {F} p _ _.
Arguments put_data {F} p _ _ _ _.
Arguments get_data {F} p _ _ _.
Arguments put_header {F} p _.
Arguments get_header {F} p _.
Arguments get_nodes40 {F} p _.
Arguments get_pairs40 {F} p _.

(** [line[0] != "$"] raises ReadError; the name is [line[1:].strip()] *)
Definition section_line (l : string) : result string :=
  match l with
  | EmptyString => Err IndexError
  | String c l' => if Ascii.eqb c "$" then Ok (strip l') else Err ReadError
  end.
Definition next41 (ls : list string) : result (option (string * list string)) :=
  match drop_blank ls with
  | [] => Ok None
  | l :: rest => do e <- section_line l; Ok (Some (e, rest))
  end.
(** A line without characters is the line end only, so [line[0]] is a line feed. *)
Definition next40 (ls : list string) : result (option (string * list string)) :=
  match ls with
  | [] => Ok None
  | l :: rest => match section_line l with
                 | Ok e => Ok (Some (e, rest))
                 | Err _ => Err ReadError
                 end
  end.

(** ** ASCII *)
Section Ascii.
Context {fl : floats}.
Definition item_token (i : item fl) : string := match i with Int _ z => str_of_Z z | Dbl x => ffmt x end.
Definition put_ascii (rows : list (list (item fl))) : list string := map (fun r => row_line (map item_token r)) rows.
(** Simplification: a file that is too short and a token that is not a number are errors (numpy returns what it has read). *)
Definition get_ints_ascii (k : ikind) (n : nat) (ls : list string) : result (list Z * list string) :=
  do tk <- of_option ValueError (take_tokens n ls);
  do zs <- parse_ints (fst tk);
  Ok (zs, snd tk).
Definition get_floats_ascii (n : nat) (ls : list string) : result (list fl * list string) :=
  do tk <- of_option ValueError (take_tokens n ls);
  do xs <- parse_floats (fl := fl) (fst tk);
  Ok (xs, snd tk).

(** _gmsh40.py:108-131, one line of a node: tag and coordinates *)
Definition node_line40 (l : string) : result (Z * list fl) :=
  match split_ws l with
  | [t; x; y; z] =>
      do p <- parse_floats [x; y; z];
      do tag <- of_option ValueError (parse_Z t);
      Ok (tag, p)
  | _ => Err ValueError
  end.
(** 115-130: the entity blocks.  The arrays have [total] entries: IndexError if there are more nodes; if there are
    fewer the rest of the arrays is arbitrary, here an error. *)
Fixpoint node_blocks40 (n : nat) (ls : list string) : result (list (Z * list fl) * list string) :=
  match n with
  | O => Ok ([], ls)
  | S n' =>
      do h <- parse_ints (split_ws (line1 ls));
      match h with
      | [_; _; _; k] =>
          do r <- read_lines node_line40 (Z.to_nat k) (tl ls);
          do r2 <- node_blocks40 n' (snd r);
          Ok (fst r ++ fst r2, snd r2)
      | _ => Err ValueError
      end
  end.
Definition get_nodes40_ascii (ls : list string) : result (list (list fl) * list Z * list string) :=
  do h <- parse_ints (split_ws (line1 ls));
  match h with
  | [nb; total] =>
      do r <- node_blocks40 (Z.to_nat nb) (tl ls);
      if Z.eqb (Z.of_nat (length (fst r))) total
      then Ok (map snd (fst r), map fst (fst r), skip_to "$EndNodes" (snd r))
      else Err IndexError
  | _ => Err ValueError
  end.
(** _gmsh40.py:215-223, 231.  With a negative number of pairs [np.fromfile] reads as many integers as it can; the
    writer puts floats there, of which only the digit before the point is read, and one number cannot be reshaped to
    pairs (ValueError).  Simplification: ValueError for every negative number. *)
Definition get_pairs40_ascii (ls : list string) : result (option (list fl) * list Z * list string) :=
  let l := strip (line1 ls) in
  do h <- (if startswith l "Affine" then
             do a <- parse_floats (split_ws (remove_prefix "Affine" l));
             do n <- int_line (line1 (tl ls));
             Ok (Some a, n, tl (tl ls))
           else do n <- int_line l; Ok (None, n, tl ls));
  let '(a, n, rest) := h in
  if (n <? 0)%Z then Err ValueError else
  do zs <- get_ints_ascii CInt (2 * Z.to_nat n) rest;
  Ok (a, fst zs, snd zs).

Definition header_ascii (v : string) : list string := ["$MeshFormat"; row_line [v; "0"; "8"]; "$EndMeshFormat"].
(** The mode is part of the header; here the mode must be ASCII. *)
Definition get_header_ascii (ls : list string) : result (string * list string) :=
  do h <- read_header ls;
  let '(v, is_ascii, rest) := h in
  if is_ascii : bool then Ok (v, rest) else Err ReadError.

Definition ascii_port : port fl := Port fl string put_ascii get_ints_ascii get_floats_ascii
  (fun t => [("$" ++ t)%string]) (fun t => [end_line t]) (fun ls => ls) next41 next40
  (fun t ls => skip_to (end_line t) ls) read_physical_names (write_data (fl := fl)) (read_data (fl := fl))
  header_ascii get_header_ascii get_nodes40_ascii get_pairs40_ascii.
End Ascii.

(** ** Binary *)
(** The lines of a byte string; [f.readline()] and [for line in f] take them one by one. *)
Fixpoint to_lines (s : bytes) : list string :=
  match s with
  | [] => [""%string]
  | b :: s' =>
      if N.eqb b 10 then ""%string :: to_lines s'
      else match to_lines s' with
           | [] => [String (ascii_of_N b) ""]
           | l :: ls => String (ascii_of_N b) l :: ls
           end
  end.
Fixpoint of_lines (ls : list string) : bytes :=
  match ls with
  | [] => []
  | [l] => string_bytes l
  | l :: ls' => string_bytes l ++ 10%N :: of_lines ls'
  end.
(** Lines written to the file *)
Definition text_bytes (ls : list string) : bytes := concat (map (fun l => string_bytes l ++ [10%N]) ls).
(** A reader of lines applied to the bytes at the current position *)
Definition by_lines {A} (f : list string -> result (A * list string)) (s : bytes) : result (A * bytes) :=
  do r <- f (to_lines s); Ok (fst r, of_lines (snd r)).

Section Binary.
Context {F : Type} (c8 : codec F).
Definition int_width (k : ikind) : nat := match k with CInt => 4 | _ => 8 end.
Definition int_bytes (k : ikind) (z : Z) : bytes := sint_bytes false (int_width k) z.
Definition int_of_bytes (k : ikind) (b : bytes) : Z :=
  match k with CSize => Z.of_N (uint_value false b) | _ => sint_value false b end.
Definition item_bytes (i : item F) : bytes := match i with Int k z => int_bytes k z | Dbl x => enc c8 x end.
Definition put_binary (rows : list (list (item F))) : bytes := concat (map item_bytes (concat rows)).
(** [np.fromfile(f, dtype, n)]: the next [n] items of [w] bytes, or as many as there are *)
Definition take_items (w n : nat) (s : bytes) : list bytes * bytes :=
  let k := Nat.min n (length s / w) in (chunks w (firstn (k * w) s), skipn (k * w) s).
Definition get_ints_binary (k : ikind) (n : nat) (s : bytes) : result (list Z * bytes) :=
  let r := take_items (int_width k) n s in Ok (map (int_of_bytes k) (fst r), snd r).
Definition get_floats_binary (n : nat) (s : bytes) : result (list F * bytes) :=
  let r := take_items 8 n s in Ok (map (dec c8) (fst r), snd r).
Definition closing_binary (t : string) : bytes := 10%N :: text_bytes [end_line t].
Definition skip_end_binary (t : string) (s : bytes) : bytes := of_lines (skip_to (end_line t) (to_lines s)).
Definition next_binary (f : list string -> result (option (string * list string))) (s : bytes) : result (option (string * bytes)) :=
  do r <- f (to_lines s);
  match r with None => Ok None | Some (e, rest) => Ok (Some (e, of_lines rest)) end.
(** At the end of a binary file [readline] returns the empty string. *)
Definition next40_binary (s : bytes) : result (option (string * bytes)) :=
  match s with [] => Ok None | _ => next_binary next40 s end.

(** common.py:235-286 [_write_data], binary *)
Definition data_header (tag name : string) (nc n : nat) : list string :=
  [("$" ++ tag)%string; "1"; quoted name; "1"; "0.0"; "3"; "0"; str_of_nat nc; str_of_nat n].
Definition put_data_binary (tag name : string) (nc : nat) (rows : list (list F)) : result bytes :=
  if negb (Nat.eqb nc 1 || Nat.eqb nc 3 || Nat.eqb nc 9) then Err WriteError else
  Ok (text_bytes (data_header tag name nc (length rows))
      ++ concat (map (fun kr => int_bytes CInt (Z.of_nat (fst kr + 1)) ++ concat (map (enc c8) (snd kr))) (enumerate rows))
      ++ closing_binary tag).
(** common.py:53-66 [_read_data]: name, number of components, number of items *)
Definition read_data_header (ls : list string) : result ((string * Z * Z) * list string) :=
  do ns <- int_line (line1 ls);
  do st <- read_lines (fun l => Ok (unquote (strip l))) (Z.to_nat ns) (tl ls);
  do nr <- int_line (line1 (snd st));
  do rt <- read_lines (fun l => Ok l) (Z.to_nat nr) (tl (snd st));
  do ni <- int_line (line1 (snd rt));
  do it <- read_lines int_line (Z.to_nat ni) (tl (snd rt));
  do nc <- of_option IndexError (nth_error (fst it) 1);
  do num <- of_option IndexError (nth_error (fst it) 2);
  do name <- of_option IndexError (hd_error (fst st));
  Ok ((name, nc, num), snd it).
(** 74-79: the index column must be 1, 2, ... *)
Definition get_data_binary (tag : string) (dd : dict (list (list F))) (s : bytes) : result (dict (list (list F)) * bytes) :=
  do h <- by_lines read_data_header s;
  let '(name, nc, num) := fst h in
  let w := 4 + 8 * Z.to_nat nc in
  let r := take_items w (Z.to_nat num) (snd h) in
  let index := map (fun b => int_of_bytes CInt (firstn 4 b)) (fst r) in
  if forallb (fun kz => Z.eqb (snd kz) (Z.of_nat (fst kz + 1))) (enumerate index) && Nat.eqb (length index) (Z.to_nat num)
  then Ok (dset name (map (fun b => map (dec c8) (chunks 8 (skipn 4 b))) (fst r)) dd, skip_end_binary tag (snd r))
  else Err ReadError.

(** _gmsh40.py:132-152 [_read_nodes]: np.concatenate of no arrays raises ValueError *)
Fixpoint node_blocks40_binary (n : nat) (s : bytes) : result (list (Z * list F) * bytes) :=
  match n with
  | O => Ok ([], s)
  | S n' =>
      do h <- get_ints_binary CInt 3 s;
      do k <- get_ints_binary CSize 1 (snd h);
      match fst k with
      | [z] =>
          let r := take_items 28 (Z.to_nat z) (snd k) in
          do r2 <- node_blocks40_binary n' (snd r);
          Ok (map (fun b => (int_of_bytes CInt (firstn 4 b), map (dec c8) (chunks 8 (skipn 4 b)))) (fst r) ++ fst r2, snd r2)
      | _ => Err IndexError
      end
  end.
Definition get_nodes40_binary (s : bytes) : result (list (list F) * list Z * bytes) :=
  do h <- get_ints_binary CSize 2 s;
  match fst h with
  | [nb; _] =>
      if Z.eqb nb 0 then Err ValueError else
      do r <- node_blocks40_binary (Z.to_nat nb) (snd h);
      match snd r with
      | b :: rest => if N.eqb b 10 then Ok (map snd (fst r), map fst (fst r), skip_end_binary "Nodes" rest) else Err ReadError
      | [] => Err ReadError
      end
  | _ => Err ValueError
  end.
(** _gmsh40.py:224-231.  [np.fromfile] returns as many numbers as there are.  Simplification: it can allocate memory for
    the number of pairs in the file, however large. *)
Definition get_pairs40_binary (s : bytes) : result (option (list F) * list Z * bytes) :=
  do n <- get_ints_binary CLong 1 s;
  do h <- match fst n with
          | [z] =>
              if (z <? 0)%Z then
                do a <- get_floats_binary 16 (snd n);
                do k <- get_ints_binary CSize 1 (snd a);
                match fst k with [m] => Ok (Some (fst a), m, snd k) | _ => Err IndexError end
              else Ok (None, z, snd n)
          | _ => Err IndexError
          end;
  let '(a, z, rest) := h in
  do zs <- get_ints_binary CInt (Z.to_nat (Z.min (2 * z) (Z.of_nat (length rest)))) rest;
  Ok (a, fst zs, snd zs).

(** _gmsh41.py:314-320, _gmsh40.py:246-252 *)
Definition header_binary (v : string) : bytes :=
  text_bytes ["$MeshFormat"; row_line [v; "1"; "8"]] ++ int_bytes CInt 1 ++ closing_binary "MeshFormat".
(** main.py:26-91 for the binary mode.  Simplification: no comments before the header. *)
Definition header_line (ls : list string) : result (string * list string) :=
  if negb (String.eqb (strip (line1 ls)) "$MeshFormat") then Err ReadError else
  match split_ws (line1 (tl ls)) with
  | v :: a :: d :: _ =>
      if negb (smem a ["0"; "1"]) then Err ReadError else
      do _ <- of_option ValueError (parse_Z d);
      if String.eqb a "0" then Err ReadError else Ok (v, tl (tl ls))
  | [_; a] => if negb (smem a ["0"; "1"]) then Err ReadError else Err IndexError
  | _ => Err IndexError
  end.
Definition get_header_binary (s : bytes) : result (string * bytes) :=
  do h <- by_lines header_line s;
  do one <- get_ints_binary CInt 1 (snd h);
  match fst one with
  | [1%Z] => Ok (fst h, skip_end_binary "MeshFormat" (snd one))
  | _ => Err ReadError
  end.

Definition binary_port : port F := Port F N put_binary get_ints_binary get_floats_binary
  (fun t => text_bytes [("$" ++ t)%string]) closing_binary text_bytes (next_binary next41) next40_binary
  skip_end_binary (fun d => by_lines (read_physical_names d)) put_data_binary get_data_binary
  header_binary get_header_binary get_nodes40_binary get_pairs40_binary.
End Binary.
