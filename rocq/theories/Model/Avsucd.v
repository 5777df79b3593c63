(** Model of src/meshio/avsucd/_avsucd.py. *)
From Verif.Lib Require Import Base Text Lines.
From Verif.Model Require Import Core Tables Snoc Abaqus.

(** src/meshio/avsucd/_avsucd.py:27-36 [meshio_to_avsucd_order] *)
Definition meshio_to_avsucd_order : dict (list nat) := [
  ("vertex", [0]); ("line", [0; 1]); ("triangle", [0; 1; 2]); ("quad", [0; 1; 2; 3]); ("tetra", [0; 1; 3; 2]);
  ("pyramid", [4; 0; 1; 2; 3]); ("wedge", [3; 4; 5; 0; 1; 2]); ("hexahedron", [4; 5; 6; 7; 0; 1; 2; 3]) ].
(** src/meshio/avsucd/_avsucd.py:39-42 [avsucd_to_meshio_order] *)
Definition avsucd_to_meshio_order : dict (list nat) :=
  map (fun kv => (fst kv, if String.eqb (fst kv) "pyramid" then [1; 2; 3; 4; 0] else snd kv)) meshio_to_avsucd_order.

(** Arrays of real numbers: None for one number per item, Some w for rows of w numbers (the rows are lists in both cases). *)
Definition shape := option nat.
Definition width (s : shape) : nat := match s with None => 1 | Some w => w end.
(** Cell data: an array for each block, of integers (one per cell) or real numbers. *)
Inductive cdata (F : Type) : Type :=
| CInts (v : list (list Z))
| CReals (s : shape) (v : list (list (list F))).
Arguments CInts {F} _.
Arguments CReals {F} _ _.

Record avs_mesh (F : Type) : Type := AvsMesh {
  av_points : list (list F);
  av_cells : list block;
  av_pdata : dict (shape * list (list F));
  av_cdata : dict (cdata F) }.
Arguments AvsMesh {F} _ _ _ _.
Arguments av_points {F} _.
Arguments av_cells {F} _.
Arguments av_pdata {F} _.
Arguments av_cdata {F} _.

(** The mesh read: the cell data avsucd:material, and the others. *)
Record avs_out (F : Type) : Type := AvsOut {
  ao_points : list (list F);
  ao_cells : list block;
  ao_material : list (list Z);
  ao_pdata : dict (shape * list (list F));
  ao_cdata : dict (shape * list (list (list F))) }.
Arguments AvsOut {F} _ _ _ _ _.
Arguments ao_points {F} _.
Arguments ao_cells {F} _.
Arguments ao_material {F} _.
Arguments ao_pdata {F} _.
Arguments ao_cdata {F} _.

Section Avs.
(** [dfmt] prints numbers of data arrays (%.14e), [ffmt] coordinates (their repr); [ofZ] converts integers, [toZ] is int(). *)
Context {fl : floats} (dfmt : fl -> string) (ofZ : Z -> fl) (toZ : fl -> Z).

(** ** Writing *)
(** src/meshio/_common.py:104-122 [_pick_first_int_data]; data without blocks is an IndexError *)
Definition avs_pick (d : dict (cdata fl)) : result (option string) :=
  do l <- mapM (fun kv => match snd kv with
                          | CInts (_ :: _) => Ok (fst kv, true)
                          | CReals _ (_ :: _) => Ok (fst kv, false)
                          | _ => Err IndexError
                          end) d;
  Ok (option_map fst (find snd l)).
(** src/meshio/avsucd/_avsucd.py:172-176; an empty key counts as none *)
Definition avs_material (key : option string) (d : dict (cdata fl)) (ncells : nat) : result (list Z) :=
  match key with
  | None | Some "" => Ok (repeat 0%Z ncells)
  | Some k => match dget k d with Some (CInts v) => Ok (concat v) | _ => Err KeyError end
  end.
(** the arrays other than the material, over all blocks *)
Definition avs_others (key : option string) (d : dict (cdata fl)) : dict (shape * list (list fl)) :=
  map (fun kv => (fst kv, match snd kv with
                          | CInts v => (None, map (fun z => [ofZ z]) (concat v))
                          | CReals s v => (s, concat v)
                          end))
    (filter (fun kv => negb (match key with Some k => String.eqb (fst kv) k | None => false end)) d).

(** src/meshio/avsucd/_avsucd.py:148-153, 214-216 [_write_nodes] *)
Definition avs_node_line (kp : nat * list fl) : result string :=
  match snd kp with
  | [x; y] => Ok (row_line [str_of_nat (S (fst kp)); ffmt x; ffmt y; ffmt (@fzero fl)])
  | [x; y; z] => Ok (row_line [str_of_nat (S (fst kp)); ffmt x; ffmt y; ffmt z])
  | _ => Err ValueError
  end.
(** src/meshio/avsucd/_avsucd.py:219-229 [_write_cells]; [i] cells have been written before *)
Definition avs_cell_line (t : string) (code : string) (o : list nat) (i : nat) (material : list Z) (c : cell) : result string :=
  do row <- of_option IndexError (permute o c);
  do m <- of_option IndexError (nth_error material i);
  Ok (row_line ([str_of_nat (S i); str_of_Z m; code] ++ map (fun j => str_of_Z (j + 1)) row)).
Fixpoint avs_cell_lines (i : nat) (material : list Z) (bs : list block) : result (list string) :=
  match bs with
  | [] => Ok []
  | b :: bs' =>
      do o <- of_option KeyError (dget (btype b) meshio_to_avsucd_order);
      do code <- of_option KeyError (dget (btype b) meshio_to_avsucd_type);
      do ls <- mapM (fun jc => avs_cell_line (btype b) code o (fst jc) material (snd jc)) (combine (seq i (blen b)) (bdata b));
      do r <- avs_cell_lines (i + blen b) material bs';
      Ok (ls ++ r)
  end.
(** src/meshio/avsucd/_avsucd.py:232-240 [_write_data] for [n] items; np.column_stack needs equal lengths *)
Definition avs_data_lines (n : nat) (d : dict (shape * list (list fl))) : result (list string) :=
  if forallb (fun kv => Nat.eqb (length (snd (snd kv))) n) d then
    Ok (row_line (str_of_nat (length d) :: map (fun kv => str_of_nat (width (fst (snd kv)))) d)
        :: map (fun kv => (fst kv ++ ", real")%string) d
        ++ map (fun i => row_line (str_of_nat (S i) :: map dfmt (concat (map (fun kv => nth i (snd (snd kv)) []) d)))) (seq 0 n))
  else Err ValueError.
Definition data_sum (d : dict (shape * list (list fl))) : nat := sum_nat (map (fun kv => width (fst (snd kv))) d).

(** src/meshio/avsucd/_avsucd.py:147-211 [write] *)
Definition write_avs (v : string) (m : avs_mesh fl) : result (list string) :=
  let nn := length (av_points m) in
  let nc := sum_nat (map blen (av_cells m)) in
  do key <- avs_pick (av_cdata m);
  do material <- avs_material key (av_cdata m) nc;
  let others := avs_others key (av_cdata m) in
  do ns <- mapM avs_node_line (enumerate (av_points m));
  do cs <- avs_cell_lines 0 material (av_cells m);
  do pd <- (if Nat.eqb (data_sum (av_pdata m)) 0 then Ok [] else avs_data_lines nn (av_pdata m));
  do cd <- (if Nat.eqb (data_sum others) 0 then Ok [] else avs_data_lines nc others);
  Ok ([("# Written by meshio v" ++ v)%string;
       row_line (map str_of_nat [nn; nc; data_sum (av_pdata m); data_sum others; 0])] ++ ns ++ cs ++ pd ++ cd).

(** ** Reading *)
(** numpy.genfromtxt: the next line with values; what follows # is a comment *)
Fixpoint cut_comment (s : string) : string :=
  match s with EmptyString => "" | String a s' => if Ascii.eqb a "#" then "" else String a (cut_comment s') end.
Fixpoint next_row (ls : list string) : option (list string * list string) :=
  match ls with
  | [] => None
  | l :: ls' => match split_ws (cut_comment l) with [] => next_row ls' | ws => Some (ws, ls') end
  end.
(** at most [n] rows *)
Fixpoint gen_rows (n : nat) (ls : list string) : list (list string) * list string :=
  match n with
  | O => ([], ls)
  | S n' => match next_row ls with
            | None => ([], [])
            | Some (ws, rest) => let r := gen_rows n' rest in (ws :: fst r, snd r)
            end
  end.
(** src/meshio/avsucd/_avsucd.py:79-85 [_read_nodes]: the array of a single row, or of a single column, has one dimension only,
    which is an IndexError.  Simplification: a text that is no number is a ValueError (numpy makes it nan, and int() fails
    later if it is in the first column). *)
Definition read_avs_nodes (n : nat) (ls : list string) : result (list Z * list (list fl) * list string) :=
  match n with
  | O => Ok ([], [], ls)
  | _ =>
      let r := gen_rows n ls in
      let w := length (hd [] (fst r)) in
      if forallb (fun row => Nat.eqb (length row) w) (fst r) then
        if Nat.leb (length (fst r)) 1 || Nat.leb w 1 then Err IndexError
        else
          do rows <- mapM parse_floats (fst r);
          Ok (map (fun row => toZ (hd fzero row)) rows, map (@tl fl) rows, snd r)
      else Err ValueError
  end.
(** src/meshio/avsucd/_avsucd.py:93-98: number, material, type and nodes of one cell *)
Definition read_avs_cell (pids : zdict nat) (l : string) : result (Z * Z * (string * cell)) :=
  let ws := split_ws l in
  do w0 <- of_option IndexError (nth_error ws 0); do id <- of_option ValueError (parse_Z w0);
  do w1 <- of_option IndexError (nth_error ws 1); do mat <- of_option ValueError (parse_Z w1);
  do w2 <- of_option IndexError (nth_error ws 2); do t <- of_option KeyError (dget w2 avsucd_to_meshio_type);
  do ids <- parse_ints (skipn 3 ws);
  do c <- mapM (fun i => of_option KeyError (zget i pids)) ids;
  Ok (id, mat, (t, map Z.of_nat c)).
(** src/meshio/avsucd/_avsucd.py:88-116 [_read_cells]: the numbers of the cells, the blocks and the materials.  (In the code the
    lists of materials grow together with the blocks; splitting by the lengths of the blocks is the same.) *)
Definition read_avs_cells (n : nat) (pids : zdict nat) (ls : list string)
  : result (list Z * list block * list (list Z) * list string) :=
  do r <- read_lines (read_avs_cell pids) n ls;
  let bs := fold_left (fun bs x => snoc_cell bs (fst (snd x)) (snd (snd x))) (fst r) [] in
  do bs' <- mapM (fun b =>
    do o <- of_option KeyError (dget (btype b) avsucd_to_meshio_order);
    do rows <- mapM (fun c => of_option IndexError (permute o c)) (bdata b);
    Ok (Block (btype b) rows)) bs;
  Ok (map (fun x => fst (fst x)) (fst r), bs', split_lens (map blen bs) (map (fun x => snd (fst x)) (fst r)), snd r).

(** src/meshio/avsucd/_avsucd.py:127 *)
Definition read_label (l : string) : string := replace_char " " "_" (strip (hd "" (split_char "," (strip l)))).
(** src/meshio/avsucd/_avsucd.py:132-143: the numbers of one line, cut into the columns *)
Fixpoint read_columns (sizes : list nat) (ws : list string) : result (list (list fl)) :=
  match sizes with
  | [] => Ok []
  | w :: sizes' =>
      if Nat.ltb (length ws) w then Err (if Nat.eqb w 1 then IndexError else ValueError)
      else do x <- parse_floats (firstn w ws); do r <- read_columns sizes' (skipn w ws); Ok (x :: r)
  end.
Definition read_avs_row (ids : zdict nat) (sizes : list nat) (l : string) : result (nat * list (list fl)) :=
  let ws := split_ws l in
  do w0 <- of_option IndexError (nth_error ws 0); do id <- of_option ValueError (parse_Z w0);
  do k <- of_option KeyError (zget id ids);
  do x <- read_columns sizes (tl ws);
  Ok (k, x).
(** src/meshio/avsucd/_avsucd.py:119-144 [_read_data].  Arrays start with arbitrary contents (np.empty), here zeros.
    Simplifications: labels that occur twice have the same size; negative sizes are taken for zero. *)
Definition read_avs_data (n : nat) (ids : zdict nat) (ls : list string)
  : result (dict (shape * list (list fl)) * list string) :=
  do sz <- parse_ints (tl (split_ws (line1 ls)));
  let sizes := map Z.to_nat sz in
  do lb <- read_lines (fun l => Ok (read_label l)) (length sizes) (tl ls);
  do rows <- read_lines (read_avs_row ids sizes) n (snd lb);
  let column i w :=
    fold_left (fun acc r => upd (fst r) (nth i (snd r) []) acc) (fst rows) (repeat (repeat fzero w) n) in
  Ok (fold_left (fun d lwi => let '(l, (i, w)) := lwi in dset l (if Nat.eqb w 1 then None else Some w, column i w) d)
        (combine (fst lb) (enumerate sizes)) [], snd rows).

(** src/meshio/avsucd/_avsucd.py:51-76 [read_buffer].  [len(c[1]) for c in cells[:-1]]: a CellBlock cannot be indexed, so that
    there is a TypeError if there are two blocks.  Without any block the single array makes the mesh inconsistent. *)
Definition read_avs (ls : list string) : result (avs_out fl) :=
  do h <- of_option ValueError (next_row ls);
  do ns <- parse_ints (fst h);
  match ns with
  | [nn; nc; npd; ncd; _] =>
      do p <- read_avs_nodes (Z.to_nat nn) (snd h);
      let '(pids, pts, rest) := p in
      do c <- read_avs_cells (Z.to_nat nc) (id_map pids) rest;
      let '(cids, bs, mats, rest) := c in
      do pd <- (if Z.eqb npd 0 then Ok ([], rest) else read_avs_data (Z.to_nat nn) (id_map pids) rest);
      do cd <- (if Z.eqb ncd 0 then Ok []
                else do d <- read_avs_data (Z.to_nat nc) (id_map cids) (snd pd);
                     match bs with
                     | _ :: _ :: _ => Err TypeError
                     | [_] => Ok (map (fun kv => (fst kv, (fst (snd kv), [snd (snd kv)]))) (fst d))
                     | [] => match fst d with [] => Ok [] | _ => Err ValueError end
                     end);
      Ok (AvsOut pts bs mats (fst pd) cd)
  | _ => Err ValueError
  end.
End Avs.
