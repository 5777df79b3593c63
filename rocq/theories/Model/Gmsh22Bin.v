(** Model of the binary mode of src/meshio/gmsh/_gmsh22.py (MSH 2.2). *)
From Coq Require Import ZArith NArith List String Ascii Bool.
From Verif.Lib Require Import Base Text Lines Bytes File.
From Verif.Model Require Import Core Gmsh Gmsh22 Port.
Import ListNotations.

Section Binary22.
Context {fl : floats} (c8 : codec fl).

(** ** Writer *)

(** _gmsh22.py:288-303 [_write_nodes]: records of an index and three coordinates *)
Definition write_nodes_bin (pts : list (list fl)) : bytes :=
  text_bytes ["$Nodes"; str_of_nat (length pts)]
  ++ concat (map (fun kp => int_bytes CInt (Z.of_nat (fst kp + 1)) ++ concat (map (enc c8) (snd kp))) (enumerate (map pad3 pts)))
  ++ closing_binary "Nodes".

(** 323-346: the numbers written for one block.  With no cells [fcd] has no rows and is replaced by an array without
    columns, so the number of tags in the header is 0. *)
Definition block_numbers (start : nat) (tags : list (list Z)) (b : block) : result (list (list Z)) :=
  do rows <- mapM (meshio_to_gmsh_order (btype b)) (bdata b);
  do code <- of_option KeyError (dget (btype b) meshio_to_gmsh_type);
  let nt := match rows with [] => 0 | _ => length tags end in
  Ok ([code; Z.of_nat (length rows); Z.of_nat nt] ::
      map (fun ic => Z.of_nat (start + fst ic + 1) :: cell_tags_of tags (fst ic) ++ map (fun n => n + 1)%Z (snd ic)) (enumerate rows)).
Fixpoint blocks_numbers (start : nat) (btags : list (block * list (list Z))) : result (list (list Z)) :=
  match btags with
  | [] => Ok []
  | (b, tags) :: rest =>
      do l <- block_numbers start tags b;
      do r <- blocks_numbers (start + blen b) rest;
      Ok (l ++ r)
  end.
(** 312-365 [_write_elements].  Numbers outside the range of a C int wrap around. *)
Definition write_elements_bin (m : gmesh fl) : result bytes :=
  do rows <- blocks_numbers 0 (block_tags m);
  Ok (text_bytes ["$Elements"; str_of_nat (sum_nat (map blen (g_cells m)))]
      ++ concat (map (int_bytes CInt) (concat rows)) ++ closing_binary "Elements").

(** 228-285 [write] with binary=True.  Periodic links are text in both modes (393-411). *)
Definition write22_bin (m : gmesh fl) : result bytes :=
  do els <- write_elements_bin m;
  do pd <- mapM (fun kv => put_data_binary c8 "NodeData" (fst kv) (components (snd kv)) (snd kv)) (g_pdata m);
  do cdr <- raw_from_cell_data (g_cdata m);
  do cd <- mapM (fun kv => put_data_binary c8 "ElementData" (fst kv) (components (snd kv)) (snd kv)) cdr;
  Ok (header_binary "2.2" ++
      text_bytes (write_physical_names (g_names m)) ++ write_nodes_bin (g_points m) ++ els ++
      match g_periodic m with Some ps => text_bytes (write_periodic ps) | None => [] end ++
      concat pd ++ concat cd).

(** ** Reader *)

(** [int(f.readline())] *)
Definition count_line (ls : list string) : result (Z * list string) :=
  do n <- int_line (line1 ls); Ok (n, tl ls).

(** _gmsh22.py:101-121 [_read_nodes]: the index column must be 1, 2, ...  Simplification: a file with fewer records is a
    ReadError (numpy compares arrays of different lengths). *)
Definition read_nodes_bin (s : bytes) : result (list Z * list (list fl) * bytes) :=
  do h <- by_lines count_line s;
  let n := Z.to_nat (fst h) in
  let r := take_items 28 n (snd h) in
  let index := map (fun b => int_of_bytes CInt (firstn 4 b)) (fst r) in
  if forallb (fun kz => Z.eqb (snd kz) (Z.of_nat (fst kz + 1))) (enumerate index) && Nat.eqb (length index) n
  then Ok (index, map (fun b => map (dec c8) (chunks 8 (skipn 4 b))) (fst r), skip_end_binary "Nodes" (snd r))
  else Err ReadError.

(** One group of elements in the file. *)
Record chunk : Type := Chunk { ch_type : string; ch_ntags : nat; ch_cells : list cell; ch_tags : list (list Z) }.

(** 209-229 [_read_cells_binary], the loop; [total] is the number of elements still to be read.  Simplification: a
    negative number of elements or tags is a ValueError. *)
Fixpoint read_chunks (fuel : nat) (total : Z) (s : bytes) : result (list chunk * bytes) :=
  if (total <=? 0)%Z then Ok ([], s) else
  match fuel with
  | O => Err OutOfFuel
  | S f =>
      do h <- get_ints_binary CInt 3 s;
      match fst h with
      | [code; n; nt] =>
          do t <- of_option KeyError (zget code gmsh_to_meshio_type);
          do w <- of_option KeyError (dget t num_nodes_per_cell);
          if (n <? 0)%Z || (nt <? 0)%Z then Err ValueError else
          let width := (1 + nt + Z.of_nat w)%Z in
          do d <- get_ints_binary CInt (Z.to_nat (Z.min (n * width) (Z.of_nat (length (snd h))))) (snd h);
          if negb (Z.eqb (Z.of_nat (length (fst d))) (n * width)) then Err ValueError else
          let rows := chunks (Z.to_nat width) (fst d) in
          do r <- read_chunks f (total - n) (snd d);
          Ok (Chunk t (Z.to_nat nt) (map (last_n w) rows) (map (slice 1 (1 + Z.to_nat nt)) rows) :: fst r, snd r)
      | _ => Err ValueError
      end
  end.

(** 220-222 and 232-233: a new block when the type changes *)
Fixpoint join_chunks (l : list chunk) : list block :=
  match l with
  | [] => []
  | ch :: l' =>
      match join_chunks l' with
      | Block t cs :: bs => if String.eqb (ch_type ch) t then Block t (ch_cells ch ++ cs) :: bs
                            else Block (ch_type ch) (ch_cells ch) :: Block t cs :: bs
      | [] => [Block (ch_type ch) (ch_cells ch)]
      end
  end.
(** 236-237: np.vstack raises ValueError unless all groups of a type have the same number of tags. *)
Definition same_tags (l : list chunk) : bool :=
  forallb (fun a => forallb (fun b => negb (String.eqb (ch_type a) (ch_type b)) || Nat.eqb (ch_ntags a) (ch_ntags b)) l) l.
Definition chunk_tags (ch : chunk) : list (string * list Z) := map (pair (ch_type ch)) (ch_tags ch).

(** 124-172 [_read_cells] *)
Definition read_elements_bin (tags : list Z) (s : bytes) : result (list block * dict (list Z) * dict (list Z) * bytes) :=
  do n <- by_lines count_line s;
  do r <- read_chunks (S (length (snd n))) (fst n) (snd n);
  if negb (same_tags (fst r)) then Err ValueError else
  do table <- lookup_table (map (fun t => t - 1)%Z tags);
  do bs <- mapM (fix_block table) (join_chunks (fst r));
  let ct := group_tags (flat_map chunk_tags (fst r)) in
  Ok (bs, tag_column 0 ct, tag_column 1 ct, skip_end_binary "Elements" (snd r)).

(** 43-70, the section loop *)
Definition read_section_bin (environ : string) (s : bytes) (st : rstate fl) : result (rstate fl * bytes) :=
  let '(RState tg pt ce ph ge nm pe pd cr) := st in
  if String.eqb environ "PhysicalNames" then
    do r <- by_lines (read_physical_names nm) s;
    Ok (RState tg pt ce ph ge (fst r) pe pd cr, snd r)
  else if String.eqb environ "Nodes" then
    do r <- read_nodes_bin s;
    let '(tags, points, rest) := r in
    Ok (RState tags points ce ph ge nm pe pd cr, rest)
  else if String.eqb environ "Elements" then
    do r <- read_elements_bin tg s;
    let '(bs, p, g, rest) := r in
    Ok (RState tg pt bs p g nm pe pd cr, rest)
  else if String.eqb environ "Periodic" then
    do r <- by_lines read_periodic s;
    Ok (RState tg pt ce ph ge nm (Some (fst r)) pd cr, snd r)
  else if String.eqb environ "NodeData" then
    do r <- get_data_binary c8 "NodeData" pd s;
    Ok (RState tg pt ce ph ge nm pe (fst r) cr, snd r)
  else if String.eqb environ "ElementData" then
    do r <- get_data_binary c8 "ElementData" cr s;
    Ok (RState tg pt ce ph ge nm pe pd (fst r), snd r)
  else Ok (st, skip_end_binary environ s).
Fixpoint read_sections_bin (fuel : nat) (s : bytes) (st : rstate fl) : result (rstate fl) :=
  match fuel with
  | O => Err OutOfFuel
  | S f =>
      do nx <- next_binary next41 s;
      match nx with
      | None => Ok st
      | Some (environ, rest) => do r <- read_section_bin environ rest st; read_sections_bin f (snd r) (fst r)
      end
  end.
(** 31-99 [read_buffer] *)
Definition read22_bin (s : bytes) : result (gmesh fl) :=
  do st <- read_sections_bin (S (length s)) s rstate0;
  finish22 st.
(** main.py:23-52 [read]: header, then the reader of the version *)
Definition read22_file (s : bytes) : result (gmesh fl) :=
  do h <- get_header_binary s;
  if String.eqb (fst h) "2.2" then read22_bin (snd h) else Err ReadError.
End Binary22.
