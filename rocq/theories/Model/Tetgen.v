(** Model of src/meshio/tetgen/_tetgen.py.  A mesh is a pair of files. *)
From Verif.Lib Require Import Base Text Lines Table.
From Verif.Model Require Import Core Off.

Record tet_mesh (F : Type) : Type := TetMesh {
  tm_points : list (list F);
  tm_cells : list block;
  tm_point_data : dict (list F);
  (** one array per block; integers *)
  tm_cell_data : dict (list (list Z)) }.
Arguments TetMesh {F} _ _ _ _.
Arguments tm_points {F} _.
Arguments tm_cells {F} _.
Arguments tm_point_data {F} _.
Arguments tm_cell_data {F} _.

(** [sub in s] *)
Fixpoint contains (sub s : string) : bool :=
  String.prefix sub s || match s with EmptyString => false | String _ s' => contains sub s' end.

(** _tetgen.py:29-31: [int(item) for item in line.split(" ") if item != ""] *)
Definition header_ints (line : string) : result (list Z) :=
  parse_ints (filter (fun s => negb (String.eqb s "")) (split_char " " line)).

Section Tetgen.
Context {fl : floats}.
(** How the boundary markers are printed (format "{}"), conversion of integers to floats and
    of floats to integers ([int]), comparison of floats. *)
Variable marker_fmt : fl -> string.
Variable of_int : Z -> fl.
Variable to_int : fl -> Z.
Variable feqb : fl -> fl -> bool.

(** ** Writer *)

(** _tetgen.py:106-115: attributes and marker: the first key with ":ref", otherwise the first
    key.  [attr_keys.remove(k)] removes the only occurrence of [k]. *)
Definition split_marker {A} (d : dict A) : list (string * A) * list (string * A) :=
  match filter (fun kv => contains ":ref" (fst kv)) d with
  | r :: _ => (filter (fun kv => negb (String.eqb (fst kv) (fst r))) d, [r])
  | [] => match d with [] => ([], []) | kv :: d' => (d', [kv]) end
  end.
(** _tetgen.py:146-151: attributes of the cells, the one with ":ref" first *)
Definition marker_first {A} (d : dict A) : list (string * A) :=
  match filter (fun kv => contains ":ref" (fst kv)) d with
  | r :: _ => r :: filter (fun kv => negb (String.eqb (fst kv) (fst r))) d
  | [] => d
  end.

(** _tetgen.py:117-140 *)
Definition node_row (attrs refs : list (list fl)) (kp : nat * list fl) : result string :=
  let '(k, p) := kp in
  do a <- row_at attrs k;
  do r <- row_at refs k;
  Ok (row_line (str_of_nat k :: map ffmt (firstn 3 p ++ a) ++ map marker_fmt r)).
Definition comment_line (what : string) (keys : list string) : list string :=
  match keys with [] => [] | _ => [("# " ++ what ++ ": " ++ join ", " keys)%string] end.
Definition write_node (version : string) (m : tet_mesh fl) : result (list string) :=
  if negb (forallb (fun p => Nat.eqb (length p) 3) (tm_points m)) then Err WriteError else
  let '(attrs, refs) := split_marker (tm_point_data m) in
  do rows <- mapM (node_row (map snd attrs) (map snd refs)) (enumerate (tm_points m));
  Ok (("# This file was created by meshio v" ++ version)%string ::
      comment_line "attribute and marker names" (map fst attrs ++ map fst refs) ++
      row_line [str_of_nat (length (tm_points m)); "3"; str_of_nat (length attrs); str_of_nat (length refs)] :: rows).

(** _tetgen.py:153-163: every block of tetrahedra gets a header of its own; the cell data are
    those of the block whose number is the number of the tetrahedral block. *)
Definition ele_row (attrs : list (list Z)) (kc : nat * cell) : result string :=
  let '(k, c) := kc in
  do a <- row_at attrs k;
  Ok (row_line (str_of_nat k :: map str_of_Z (firstn 4 c ++ a))).
Definition ele_block (attrs : list (string * list (list Z))) (ib : nat * block) : result (list string) :=
  let '(i, b) := ib in
  do cols <- (match bdata b with
              | [] => Ok []
              | _ => mapM (fun kv => of_option IndexError (nth_error (snd kv) i)) attrs
              end);
  do rows <- mapM (ele_row cols) (enumerate (bdata b));
  Ok (row_line [str_of_nat (blen b); "4"; str_of_nat (length attrs)] :: rows).
Definition write_ele (version : string) (m : tet_mesh fl) : result (list string) :=
  let attrs := marker_first (tm_cell_data m) in
  do blocks <- mapM (ele_block attrs) (enumerate (filter (fun b => String.eqb (btype b) "tetra") (tm_cells m)));
  Ok (("# This file was created by meshio v" ++ version)%string ::
      comment_line "attribute names" (map fst attrs) ++ concat blocks).

(** _tetgen.py:88-163 [write] *)
Definition write_tetgen (version : string) (m : tet_mesh fl) : result (list string * list string) :=
  do node <- write_node version m;
  do ele <- write_ele version m;
  Ok (node, ele).

(** ** Reader *)

(** _tetgen.py:50-55, 80-82: names of the markers *)
Definition ref_name (k : nat) : string := ("tetgen:ref" ++ (if Nat.eqb k 0 then "" else str_of_nat (k + 1)))%string.
Definition attr_name (k : nat) : string := ("tetgen:attr" ++ str_of_nat (k + 1))%string.

(** _tetgen.py:24-57: index base, points, point data *)
Definition read_node (ls : list string) : result (Z * list (list fl) * dict (list fl)) :=
  do hl <- off_counts ls;
  do hd <- header_ints (fst hl);
  match hd with
  | [n; dim; na; nb] =>
      if negb (Z.eqb dim 3) then Err ReadError else
      if (n <? 0)%Z || (na <? 0)%Z || (nb <? 0)%Z then Err ValueError else
      let '(n, na, nb) := (Z.to_nat n, Z.to_nat na, Z.to_nat nb) in
      do t <- of_option ValueError (take_tokens ((4 + na + nb) * n) (snd hl));
      do vals <- parse_floats (fst t);
      let rows := chunks (4 + na + nb) vals in
      match rows with
      | [] => Err IndexError
      | r0 :: _ =>
          let base := to_int (nth 0 r0 fzero) in
          if negb (forallb (fun ir => feqb (nth 0 (snd ir) fzero) (of_int (base + Z.of_nat (fst ir)))) (enumerate rows))
          then Err ReadError else
          Ok (base, map (fun r => firstn 3 (skipn 1 r)) rows,
              map (fun k => (attr_name k, column fzero (4 + k) rows)) (seq 0 na) ++
              map (fun k => (ref_name k, column fzero (4 + na + k) rows)) (seq 0 nb))
      end
  | _ => Err ValueError
  end.
(** _tetgen.py:59-83: cells and cell data *)
Definition read_ele (base : Z) (ls : list string) : result (list cell * dict (list (list Z))) :=
  do hl <- off_counts ls;
  do hd <- header_ints (fst hl);
  match hd with
  | [n; w; na] =>
      if negb (Z.eqb w 4) then Err ReadError else
      if (n <? 0)%Z || (na <? 0)%Z then Err ValueError else
      let '(n, na) := (Z.to_nat n, Z.to_nat na) in
      do t <- of_option ValueError (take_tokens ((5 + na) * n) (snd hl));
      do vals <- parse_ints (fst t);
      let rows := chunks (5 + na) vals in
      Ok (map (fun r => map (fun i => i - base)%Z (firstn 4 (skipn 1 r))) rows,
          map (fun k => (ref_name k, [column 0%Z (5 + k) rows])) (seq 0 na))
  | _ => Err ValueError
  end.
(** _tetgen.py:18-87 [read] *)
Definition read_tetgen (files : list string * list string) : result (tet_mesh fl) :=
  do n <- read_node (fst files);
  let '(base, pts, pd) := n in
  do e <- read_ele base (snd files);
  Ok (TetMesh pts [Block "tetra" (fst e)] pd (snd e)).
End Tetgen.
