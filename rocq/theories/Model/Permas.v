(** Model of src/meshio/permas/_permas.py. *)
From Verif.Lib Require Import Base Text Lines.
From Verif.Model Require Import Core Tables Tetgen Abaqus.

(** src/meshio/permas/_permas.py:241-244: the node orders used by the writer *)
Definition permas_orders : dict (list nat) := [
  ("triangle6", [0; 3; 1; 4; 2; 5]); ("tetra10", [0; 4; 1; 5; 2; 6; 7; 8; 9; 3]); ("quad9", [0; 4; 1; 7; 8; 5; 3; 6; 2]);
  ("wedge15", [0; 6; 1; 7; 2; 8; 9; 10; 11; 3; 12; 4; 13; 5; 14]) ].

Record permas_mesh (F : Type) : Type := PermasMesh { pm_points : list (list F); pm_cells : list block }.
Arguments PermasMesh {F} _ _.
Arguments pm_points {F} _.
Arguments pm_cells {F} _.

Section Permas.
Context {fl : floats}.

(** ** Writing *)
(** src/meshio/permas/_permas.py:224-231, 239-240: points in the plane get a third coordinate; more than three coordinates
    are cut off *)
Definition permas_point_line (kp : nat * list fl) : result string :=
  match snd kp with
  | [x; y] => Ok (row_line [str_of_nat (S (fst kp)); ffmt x; ffmt y; ffmt (@fzero fl)])
  | x :: y :: z :: _ => Ok (row_line [str_of_nat (S (fst kp)); ffmt x; ffmt y; ffmt z])
  | _ => Err IndexError
  end.
(** src/meshio/permas/_permas.py:249-280: one cell with the running number [eid] *)
Definition permas_cell_line (t : string) (er : nat * cell) : result string :=
  do row <- match dget t permas_orders with
            | Some o => of_option IndexError (permute o (snd er))
            | None => Ok (snd er)
            end;
  Ok (str_of_nat (fst er) ++ " " ++ row_line (map (fun i => str_of_Z (i + 1)) row))%string.
(** src/meshio/permas/_permas.py:245-280; [eid] cells have been written before *)
Fixpoint permas_blocks (eid : nat) (bs : list block) : result (list string) :=
  match bs with
  | [] => Ok []
  | b :: bs' =>
      do n <- of_option KeyError (dget (btype b) meshio_to_permas_type);
      do rows <- mapM (permas_cell_line (btype b)) (combine (seq (S eid) (blen b)) (bdata b));
      do r <- permas_blocks (eid + blen b) bs';
      Ok (["!"; ("$ELEMENT TYPE=" ++ n)%string] ++ rows ++ r)
  end.
(** src/meshio/permas/_permas.py:223-285 [write]; [v] is the version of meshio *)
Definition write_permas (v : string) (m : permas_mesh fl) : result (list string) :=
  do ps <- mapM permas_point_line (enumerate (pm_points m));
  do bs <- permas_blocks 0 (pm_cells m);
  Ok (["!PERMAS DataFile Version 18.0"; ("!written by meshio v" ++ v)%string; "$ENTER COMPONENT NAME=DFLT_COMP";
       "$STRUCTURE"; "$COOR"] ++ ps ++ bs ++ ["$END STRUCTURE"; "$EXIT COMPONENT"; "$FIN"]).

(** ** Reading *)
(** src/meshio/permas/_permas.py:114-133 [_read_nodes]: numbers and points up to a line with ! or $; the end of the file
    before such a line is a ValueError *)
Fixpoint read_permas_nodes (ls : list string) : result (list (Z * list fl) * list string) :=
  match ls with
  | [] => Err ValueError
  | l :: ls' =>
      if String.prefix "!" l || String.prefix "$" l then Ok ([], ls)
      else
        let entries := split_char " " (strip l) in
        do gid <- of_option ValueError (parse_Z (hd "" entries));
        do x <- parse_floats (tl entries);
        do r <- read_permas_nodes ls';
        Ok ((gid, x) :: fst r, snd r)
  end.
(** [s.endswith("!")] *)
Fixpoint ends_bang (s : string) : bool :=
  match s with EmptyString => false | String a "" => Ascii.eqb a "!" | String _ s' => ends_bang s' end.
(** src/meshio/permas/_permas.py:147-157: the rows up to a line with $ or the end of the file; a line that ends with ! is
    continued *)
Fixpoint read_permas_rows (gids : zdict nat) (idx : cell) (ls : list string) : result (list cell * list string) :=
  match ls with
  | [] => Ok ([], [])
  | l :: ls' =>
      if String.prefix "$" l then Ok ([], ls)
      else
        let s := strip l in
        do ids <- parse_ints (filter (fun w => negb (String.eqb w "")) (tl (split_char " " s)));
        do ks <- mapM (fun i => of_option KeyError (zget i gids)) ids;
        let idx' := idx ++ map Z.of_nat ks in
        if ends_bang s then read_permas_rows gids idx' ls'
        else do r <- read_permas_rows gids [] ls'; Ok (idx' :: fst r, snd r)
  end.
(** src/meshio/permas/_permas.py:137-145: the type named in a line ELEMENT *)
Definition permas_element (keyword : string) : result string :=
  do e <- of_option IndexError (nth_error (split_char " " keyword) 1);
  if contains "TYPE" e then
    do n <- of_option IndexError (nth_error (split_char "=" e) 1);
    of_option ReadError (dget (strip n) permas_to_meshio_type)
  else Err ReadError.
(** [line.strip("$").upper()]; every line but possibly the last one ends with a line terminator, so that only
    leading characters are removed *)
Definition permas_keyword (l : string) : string := upper (lstrip_char "$" l).
(** src/meshio/permas/_permas.py:67-111 [read_buffer].  [pts] is None before the section COOR; a section ELEMENT before it,
    and a file without it, are an UnboundLocalError; making a CellBlock needs a type with a known dimension.  Simplification: the sections NSET and ESET, whose contents the reader
    drops, are skipped like any other unknown section (errors in them are not modelled). *)
Fixpoint permas_loop (fuel : nat) (pts : option (list (Z * list fl))) (bs : list block) (ls : list string)
  : result (permas_mesh fl) :=
  match fuel, ls with
  | _, [] => match pts with Some ps => Ok (PermasMesh (map snd ps) bs) | None => Err UnboundLocalError end
  | O, _ => Err OutOfFuel
  | S fuel', l :: ls' =>
      if String.prefix "!" l then permas_loop fuel' pts bs ls'
      else
        let keyword := permas_keyword l in
        if String.prefix "COOR" keyword then
          do r <- read_permas_nodes ls'; permas_loop fuel' (Some (fst r)) bs (snd r)
        else if String.prefix "ELEMENT" keyword then
          match pts with
          | None => Err UnboundLocalError
          | Some ps =>
              do t <- permas_element keyword;
              do r <- read_permas_rows (id_map (map fst ps)) [] ls';
              do _ <- cellblock_dim t;
              permas_loop fuel' pts (bs ++ [Block t (fst r)]) (snd r)
          end
        else permas_loop fuel' pts bs ls'
  end.
Definition read_permas (ls : list string) : result (permas_mesh fl) := permas_loop (length ls) None [] ls.
End Permas.
