(** Model of src/meshio/gmsh/_gmsh22.py (MSH 2.2) and of the dispatch in gmsh/main.py. *)
From Verif.Lib Require Import Base Text Lines Runs Bytes.
From Verif.Model Require Import Core Gmsh.

Section Msh22.
Context {fl : floats}.

(** A periodic link: dimension, slave and master entity, affine transformation, node
    pairs. *)
Record periodic : Type := Periodic {
  p_dim : Z; p_slave : Z; p_master : Z; p_affine : option (list fl); p_nodes : list (Z * Z) }.

(** The parts of a mesh that the format stores; cell data by name, block and cell.  The
    integer tags "gmsh:physical", "gmsh:geometrical" and "cell_tags" are kept apart from the
    other cell data (_gmsh22.py:241-249 separates them). *)
Record gmesh : Type := GMesh {
  g_points : list (list fl);
  g_cells : list block;
  g_phys : option (list (list Z));
  g_geom : option (list (list Z));
  g_extra : option (list (list Z));
  g_names : dict (Z * Z);
  g_periodic : option (list periodic);
  g_pdata : dict (list (list fl));
  g_cdata : dict (list (list (list fl))) }.

(** ** Writer *)

(** _gmsh22.py:289-293: 2D points get a zero third coordinate. *)
Definition pad3 (p : list fl) : list fl :=
  match p with [x; y] => [x; y; fzero] | _ => p end.

(** _gmsh22.py:288-309 [_write_nodes], ASCII *)
Definition write_nodes (pts : list (list fl)) : list string :=
  ["$Nodes"; str_of_nat (length pts)] ++
  map (fun kp => row_line (str_of_nat (fst kp + 1) :: map ffmt (snd kp))) (enumerate (map pad3 pts)) ++
  ["$EndNodes"].

(** Element lines of one block, first index [start].  [tags] are the columns of [fcd]. *)
Definition cell_tags_of (tags : list (list Z)) (i : nat) : list Z :=
  map (fun col => nth i col 0%Z) tags.
Definition element_tokens (code : Z) (tags : list (list Z)) (start : nat) (ic : nat * cell) : list Z :=
  Z.of_nat (start + fst ic + 1) :: code :: Z.of_nat (length tags) ::
  cell_tags_of tags (fst ic) ++ map (fun n => n + 1)%Z (snd ic).
Definition write_block (start : nat) (tags : list (list Z)) (b : block) : result (list (list Z)) :=
  do rows <- mapM (meshio_to_gmsh_order (btype b)) (bdata b);
  do code <- of_option KeyError (dget (btype b) meshio_to_gmsh_type);
  Ok (map (element_tokens code tags start) (enumerate rows)).

(** _gmsh22.py:312-365 [_write_elements], ASCII: the loop over blocks; [tagss] holds for
    every block the tag columns in the order physical, geometrical, cell_tags. *)
Fixpoint write_blocks (start : nat) (btags : list (block * list (list Z))) : result (list (list Z)) :=
  match btags with
  | [] => Ok []
  | (b, tags) :: rest =>
      do l <- write_block start tags b;
      do r <- write_blocks (start + blen b) rest;
      Ok (l ++ r)
  end.

(** _gmsh22.py:251-259 and 324-327: missing tag data is replaced by zeros. *)
Definition tag_columns (m : gmesh) : list (list (list Z)) :=
  let zeros := map (fun b => repeat 0%Z (blen b)) (g_cells m) in
  [match g_phys m with Some d => d | None => zeros end;
   match g_geom m with Some d => d | None => zeros end] ++
  match g_extra m with Some d => [d] | None => [] end.
Definition block_tags (m : gmesh) : list (block * list (list Z)) :=
  map (fun kb => (snd kb, map (fun d => nth (fst kb) d []) (tag_columns m))) (enumerate (g_cells m)).

Definition write_elements (m : gmesh) : result (list string) :=
  do rows <- write_blocks 0 (block_tags m);
  Ok (["$Elements"; str_of_nat (sum_nat (map blen (g_cells m)))] ++
      map (fun r => row_line (map str_of_Z r)) rows ++ ["$EndElements"]).

(** _gmsh22.py:393-411 [_write_periodic] *)
Definition write_link (p : periodic) : list string :=
  [row_line [str_of_Z (p_dim p); str_of_Z (p_slave p); str_of_Z (p_master p)]] ++
  match p_affine p with
  | Some a => [("Affine " ++ row_line (map ffmt a))%string]
  | None => []
  end ++
  [str_of_nat (length (p_nodes p))] ++
  map (fun sm => row_line [str_of_Z (fst sm + 1); str_of_Z (snd sm + 1)]) (p_nodes p).
Definition write_periodic (ps : list periodic) : list string :=
  ["$Periodic"; str_of_nat (length ps)] ++ flat_map write_link ps ++ ["$EndPeriodic"].

(** [data.shape[1] if len(data.shape) > 1 else 1] *)
Definition components (rows : list (list fl)) : nat :=
  match rows with r :: _ => length r | [] => 1 end.

(** _gmsh22.py:228-285 [write], ASCII.  Cell data arrays are concatenated over the blocks. *)
Definition write22 (m : gmesh) : result (list string) :=
  do els <- write_elements m;
  do pd <- mapM (fun kv => write_data "NodeData" (fst kv) (components (snd kv)) (snd kv)) (g_pdata m);
  do cdr <- raw_from_cell_data (g_cdata m);
  do cd <- mapM (fun kv => write_data "ElementData" (fst kv) (components (snd kv)) (snd kv)) cdr;
  Ok (["$MeshFormat"; "2.2 0 8"; "$EndMeshFormat"] ++
      write_physical_names (g_names m) ++ write_nodes (g_points m) ++ els ++
      match g_periodic m with Some ps => write_periodic ps | None => [] end ++
      concat pd ++ concat cd).

(** ** Reader *)

(** _gmsh22.py:101-121 [_read_nodes], ASCII.  np.fromfile yields floats; the tag column is
    converted to an integer later (line 142), here at once. *)
Definition read_node (r : list string) : result (Z * list fl) :=
  match r with
  | t :: xs => do z <- of_option ValueError (parse_Z t); do p <- parse_floats xs; Ok (z, p)
  | [] => Err ValueError
  end.
Definition read_nodes (ls : list string) : result (list Z * list (list fl) * list string) :=
  do n <- int_line (line1 ls);
  do tk <- of_option ValueError (take_tokens (Z.to_nat n * 4) (tl ls));
  do rows <- mapM read_node (chunks 4 (fst tk));
  Ok (map fst rows, map snd rows, skip_to "$EndNodes" (snd tk)).

(** _gmsh22.py:175-206, one line: type, nodes, tags.  [data[-n:]] is the whole list if it
    is shorter. *)
Definition last_n {A} (n : nat) (l : list A) : list A := skipn (length l - n) l.
Definition read_element (l : string) : result (string * cell * list Z) :=
  do data <- parse_ints (split_ws l);
  do code <- of_option IndexError (nth_error data 1);
  do t <- of_option KeyError (zget code gmsh_to_meshio_type);
  do n <- of_option KeyError (dget t num_nodes_per_cell);
  do nt <- of_option IndexError (nth_error data 2);
  Ok (t, last_n n data, slice 3 (3 + Z.to_nat nt) data).

(** Lines 182-184: open a new block when the type changes. *)
Fixpoint group_types (l : list (string * cell)) : list block :=
  match l with
  | [] => []
  | (t, c) :: l' =>
      match group_types l' with
      | Block t' cs :: bs => if String.eqb t t' then Block t (c :: cs) :: bs
                             else Block t [c] :: Block t' cs :: bs
      | [] => [Block t [c]]
      end
  end.

(** np.array of rows of different lengths raises ValueError *)
Definition check_rectangular (b : block) : result unit :=
  match bdata b with
  | [] => Ok tt
  | r :: rs => if forallb (fun r' => Nat.eqb (length r') (length r)) rs then Ok tt else Err ValueError
  end.

(** _gmsh22.py:124-172 [_read_cells], ASCII: blocks, and per cell type the tags. *)
Definition fix_block (table : list Z) (b : block) : result block :=
  do _ <- check_rectangular b;
  do rows <- mapM (fun c => do r <- gmsh_to_meshio_order (btype b) (map (fun n => n - 1)%Z c);
                            lookup_cell table r) (bdata b);
  Ok (Block (btype b) rows).

Definition group_tags (l : list (string * list Z)) : dict (list (list Z)) :=
  fold_left (fun acc tt => add_to (fst tt) (snd tt) acc) l [].
(** Lines 155-170: column [k] of the tags, where present; types without any are left out. *)
Definition tag_column (k : nat) (d : dict (list (list Z))) : dict (list Z) :=
  filter (fun kv => match snd kv with [] => false | _ => true end)
    (map (fun kv => (fst kv, flat_map (fun item => match nth_error item k with Some x => [x] | None => [] end)
                                       (snd kv))) d).

Definition read_elements (tags : list Z) (ls : list string)
  : result (list block * dict (list Z) * dict (list Z) * list string) :=
  do n <- int_line (line1 ls);
  do r <- read_lines read_element (Z.to_nat n) (tl ls);
  let els := fst r in
  do table <- lookup_table (map (fun t => t - 1)%Z tags);
  do bs <- mapM (fix_block table) (group_types (map fst els));
  let ct := group_tags (map (fun e => (fst (fst e), snd e)) els) in
  Ok (bs, tag_column 0 ct, tag_column 1 ct, skip_to "$EndElements" (snd r)).

(** Lines 80-91: distribute the tags of a type over its blocks, in order. *)
Fixpoint spread_tags (offset : dict nat) (td : dict (list Z)) (bs : list block) : list (list Z) :=
  match bs with
  | [] => []
  | b :: bs' =>
      let start := match dget (btype b) offset with Some o => o | None => 0 end in
      let fin := start + blen b in
      slice start fin (match dget (btype b) td with Some l => l | None => [] end)
      :: spread_tags (dset (btype b) fin offset) td bs'
  end.

(** _gmsh22.py:252-... [_read_periodic] of lines 243-268: one link *)
Definition read_pair (l : string) : result (Z * Z) :=
  do zs <- parse_ints (split_ws l);
  match zs with [a; b] => Ok (a - 1, b - 1)%Z | _ => Err ValueError end.
Definition remove_prefix (p s : string) : string :=
  String.substring (String.length p) (String.length s - String.length p) s.
Definition read_link (ls : list string) : result (periodic * list string) :=
  do zs <- parse_ints (split_ws (line1 ls));
  match zs with
  | [d; s; m] =>
      let l2 := strip (line1 (tl ls)) in
      do an <- (if startswith l2 "Affine" then
                  do a <- parse_floats (split_ws (remove_prefix "Affine" l2));
                  do n <- int_line (line1 (tl (tl ls)));
                  Ok (Some a, n, tl (tl (tl ls)))
                else do n <- int_line l2; Ok (None, n, tl (tl ls)));
      let '(a, n, rest) := an in
      do ps <- read_lines read_pair (Z.to_nat n) rest;
      Ok (Periodic d s m a (fst ps), snd ps)
  | _ => Err ValueError
  end.
Fixpoint read_links (n : nat) (ls : list string) : result (list periodic * list string) :=
  match n with
  | O => Ok ([], ls)
  | S n' => do p <- read_link ls; do r <- read_links n' (snd p); Ok (fst p :: fst r, snd r)
  end.
Definition read_periodic (ls : list string) : result (list periodic * list string) :=
  do n <- int_line (line1 ls);
  do r <- read_links (Z.to_nat n) (tl ls);
  Ok (fst r, skip_to "$EndPeriodic" (snd r)).

(** The local variables of [read_buffer] *)
Record rstate : Type := RState {
  s_tags : list Z; s_points : list (list fl); s_cells : list block;
  s_phys : dict (list Z); s_geom : dict (list Z);
  s_names : dict (Z * Z); s_periodic : option (list periodic);
  s_pdata : dict (list (list fl)); s_craw : dict (list (list fl)) }.
Definition rstate0 : rstate := RState [] [] [] [] [] [] None [] [].

(** _gmsh22.py:43-70, the section loop.  [line[0] != "$"] raises ReadError. *)
Definition read_section (environ : string) (ls : list string) (s : rstate) : result (rstate * list string) :=
  let '(RState tg pt ce ph ge nm pe pd cr) := s in
  if String.eqb environ "PhysicalNames" then
    do r <- read_physical_names nm ls;
    Ok (RState tg pt ce ph ge (fst r) pe pd cr, snd r)
  else if String.eqb environ "Nodes" then
    do r <- read_nodes ls;
    let '(tags, points, rest) := r in
    Ok (RState tags points ce ph ge nm pe pd cr, rest)
  else if String.eqb environ "Elements" then
    do r <- read_elements tg ls;
    let '(bs, p, g, rest) := r in
    Ok (RState tg pt bs p g nm pe pd cr, rest)
  else if String.eqb environ "Periodic" then
    do r <- read_periodic ls;
    Ok (RState tg pt ce ph ge nm (Some (fst r)) pd cr, snd r)
  else if String.eqb environ "NodeData" then
    do r <- read_data "NodeData" pd ls;
    Ok (RState tg pt ce ph ge nm pe (fst r) cr, snd r)
  else if String.eqb environ "ElementData" then
    do r <- read_data "ElementData" cr ls;
    Ok (RState tg pt ce ph ge nm pe pd (fst r), snd r)
  else Ok (s, skip_to (end_line environ) ls).

Fixpoint read_sections (fuel : nat) (ls : list string) (s : rstate) : result rstate :=
  match fuel with
  | O => Err OutOfFuel
  | S f =>
      match drop_blank ls with
      | [] => Ok s
      | String c l :: rest =>
          if negb (Ascii.eqb c "$") then Err ReadError else
          do r <- read_section (strip l) rest s;
          read_sections f (snd r) (fst r)
      | EmptyString :: _ => Err IndexError
      end
  end.

Definition some_tags (td : dict (list Z)) (bs : list block) : option (list (list Z)) :=
  match td with [] => None | _ => Some (spread_tags [] td bs) end.

(** _gmsh22.py:31-99 [read_buffer].  [cells] is a list of tuples (type, array), so [len(c)]
    in [cell_data_from_raw] is 2 for every block.  The Mesh constructor then makes the blocks (KeyError for a type
    without a dimension) and checks the lengths of all cell data (the tags always fit or are checked likewise). *)
Definition lengths_fit {V} (bs : list block) (d : list (list V)) : bool :=
  Nat.eqb (length d) (length bs) &&
  forallb (fun bd => Nat.eqb (blen (fst bd)) (length (snd bd))) (combine bs d).
Definition finish22 (s : rstate) : result gmesh :=
  let bs := s_cells s in
  do _ <- mapM (fun b => cellblock_dim (btype b)) bs;
  let cd := cell_data_from_raw (map (fun _ => 2) bs) (s_craw s) in
  let ph := some_tags (s_phys s) bs in
  let ge := some_tags (s_geom s) bs in
  if forallb (fun kv => Nat.eqb (length (snd kv)) (length (s_points s))) (s_pdata s)
     && forallb (fun kv => lengths_fit bs (snd kv)) cd
     && match ph with Some d => lengths_fit bs d | None => true end
     && match ge with Some d => lengths_fit bs d | None => true end
  then Ok (GMesh (s_points s) bs ph ge None (s_names s) (s_periodic s) (s_pdata s) cd)
  else Err ValueError.
Definition read22 (ls : list string) : result gmesh :=
  do s <- read_sections (S (length ls)) ls rstate0;
  finish22 s.

(** src/meshio/gmsh/main.py:23-91: header and choice of reader.  [readers] maps the version
    to a reader; the readers below are ASCII only; binary files are in
    Model/Gmsh22Bin.v. *)
Fixpoint skip_comments (fuel : nat) (ls : list string) : list string :=
  match fuel with
  | O => ls
  | S f => if String.eqb (strip (line1 ls)) "$Comments"
           then skip_comments f (skip_to "$EndComments" (tl ls)) else ls
  end.
Definition read_header (ls : list string) : result (string * bool * list string) :=
  let ls1 := skip_comments (length ls) ls in
  if negb (String.eqb (strip (line1 ls1)) "$MeshFormat") then Err ReadError else
  match split_ws (line1 (tl ls1)) with
  | v :: a :: d :: _ =>
      if negb (smem a ["0"; "1"]) then Err ReadError else
      do _ <- of_option ValueError (parse_Z d);
      Ok (v, String.eqb a "0", skip_to "$EndMeshFormat" (tl (tl ls1)))
  | [_; a] => if negb (smem a ["0"; "1"]) then Err ReadError else Err IndexError
  | _ => Err IndexError
  end.
End Msh22.
Arguments periodic : clear implicits.
Arguments gmesh : clear implicits.
Arguments rstate : clear implicits.
