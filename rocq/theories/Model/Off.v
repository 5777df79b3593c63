(** Model of src/meshio/off/_off.py. *)
From Verif.Lib Require Import Base Text Lines.
From Verif.Model Require Import Core.

Section Off.
Context {fl : floats}.

(** _off.py:59-66: a third coordinate for two-dimensional points.  Simplification: the shape
    of the point array is that of its first row; without points it is three-dimensional. *)
Definition off_pad (pts : list (list fl)) : list (list fl) :=
  match pts with
  | [_; _] :: _ => map (fun p => p ++ [fzero]) pts
  | _ => pts
  end.

(** [lines.join + newline]: without rows one empty line *)
Definition row_lines (rows : list (list string)) : list string :=
  match rows with [] => [""] | _ => map row_line rows end.

(** _off.py:57-100 [write] *)
Definition write_off (pts : list (list fl)) (cells : list block) : result (list string) :=
  do tri <- get_cells_type cells "triangle";
  Ok (["OFF"; "# Created by meshio"; "";
       row_line [str_of_nat (length pts); str_of_nat (length tri); "0"]; ""] ++
      row_lines (map (map ffmt) (off_pad pts)) ++
      row_lines (map (fun c => map str_of_Z (3%Z :: c)) tri)).

(** _off.py:34-37: the next significant line; the loop does not end if there is none. *)
Fixpoint off_counts (ls : list string) : result (string * list string) :=
  match ls with
  | [] => Err OutOfFuel
  | l :: ls' => if blank l || startswith (strip l) "#" then off_counts ls' else Ok (strip l, ls')
  end.

(** _off.py:23-54 [read_buffer].  Simplification: a negative count fails (in numpy it stands
    for all of the file). *)
Definition read_off (ls : list string) : result (list (list fl) * list block) :=
  if negb (String.eqb (strip (line1 ls)) "OFF") then Err ReadError else
  do cl <- off_counts (tl ls);
  match split_char " " (fst cl) with
  | [a; b; _] =>
      do nv <- of_option ValueError (parse_Z a);
      do nf <- of_option ValueError (parse_Z b);
      if (nv <? 0)%Z || (nf <? 0)%Z then Err ValueError else
      do v <- of_option ValueError (take_tokens (3 * Z.to_nat nv) (snd cl));
      do verts <- parse_floats (fst v);
      do d <- of_option ValueError (take_tokens (4 * Z.to_nat nf) (snd v));
      do data <- parse_ints (fst d);
      let rows := chunks 4 data in
      if forallb (fun r => Z.eqb (hd 0%Z r) 3) rows
      then Ok (chunks 3 verts, [Block "triangle" (map (@tl _) rows)])
      else Err ReadError
  | _ => Err ValueError
  end.
End Off.
