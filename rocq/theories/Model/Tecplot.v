(** Model of src/meshio/tecplot/_tecplot.py. *)
From Verif.Lib Require Import Base Text Lines.
From Verif.Model Require Import Core Tables Tetgen Abaqus Info Avsucd.

(** src/meshio/tecplot/_tecplot.py:70-78 [meshio_to_tecplot_order] *)
Definition tecplot_order : dict (list nat) := [
  ("line", [0; 1]); ("triangle", [0; 1; 2]); ("quad", [0; 1; 2; 3]); ("tetra", [0; 1; 2; 3]);
  ("pyramid", [0; 1; 2; 3; 4; 4; 4; 4]); ("wedge", [0; 1; 4; 3; 2; 2; 5; 5]); ("hexahedron", [0; 1; 2; 3; 4; 5; 6; 7]) ].
(** src/meshio/tecplot/_tecplot.py:81-88 [meshio_to_tecplot_order_2] *)
Definition tecplot_order_2 : dict (list nat) := [
  ("triangle", [0; 1; 2; 2]); ("quad", [0; 1; 2; 3]); ("tetra", [0; 1; 2; 2; 3; 3; 3; 3]);
  ("pyramid", [0; 1; 2; 3; 4; 4; 4; 4]); ("wedge", [0; 1; 4; 3; 2; 2; 5; 5]); ("hexahedron", [0; 1; 2; 3; 4; 5; 6; 7]) ].
(** src/meshio/tecplot/_tecplot.py:91-99 [meshio_type_to_ndim] *)
Definition tecplot_ndim : dict nat := [
  ("line", 1); ("triangle", 2); ("quad", 2); ("tetra", 3); ("pyramid", 3); ("wedge", 3); ("hexahedron", 3) ].
(** src/meshio/tecplot/_tecplot.py:17-32 [zone_key_to_type]: true for integers *)
Definition zone_keys : dict bool := [
  ("T", false); ("I", true); ("J", true); ("K", true); ("N", true); ("NODES", true); ("E", true); ("ELEMENTS", true);
  ("F", false); ("ET", false); ("DATAPACKING", false); ("ZONETYPE", false); ("NV", true); ("VARLOCATION", false) ].

(** ** Choice of the cells (_tecplot.py:379-425) *)
(** The positions and blocks with a known type; the others are skipped with a warning. *)
Definition tec_blocks (bs : list block) : list (nat * block) :=
  filter (fun ib => dmem (btype (snd ib)) meshio_to_tecplot_type) (enumerate bs).
Definition tec_rows (orders : dict (list nat)) (bs : list (nat * block)) : result (list cell) :=
  do rs <- mapM (fun ib => do o <- of_option KeyError (dget (btype (snd ib)) orders);
                           mapM (fun c => of_option IndexError (permute o c)) (bdata (snd ib))) bs;
  match rs with [] => Err ValueError | _ => Ok (concat rs) end.
(** src/meshio/tecplot/_tecplot.py:392-425: the type of the zone, the blocks written (with their positions), and the rows *)
Definition tec_select (bs : list block) : result (string * list (nat * block) * list cell) :=
  let use := tec_blocks bs in
  match nodup string_dec (map (fun ib => btype (snd ib)) use) with
  | [] => Err WriteError
  | [t] =>
      do z <- of_option KeyError (dget t meshio_to_tecplot_type);
      do rows <- tec_rows tecplot_order use;
      Ok (z, use, rows)
  | _ =>
      do dims <- mapM (fun ib => of_option KeyError (dget (btype (snd ib)) tecplot_ndim)) use;
      let use' := if Nat.eqb (length (nodup Nat.eq_dec dims)) 2
                  then map snd (filter (fun du => Nat.eqb (fst du) 3) (combine dims use)) else use in
      let z := if Nat.eqb (hd 0 dims) 2 then "FEQUADRILATERAL" else "FEBRICK" in
      do rows <- tec_rows tecplot_order_2 use';
      Ok (z, use', rows)
  end.

(** ** Writing *)
Record tec_mesh (F : Type) : Type := TecMesh {
  tm_points : list (list F);
  tm_cells : list block;
  tm_pdata : dict (shape * list (list F));
  tm_cdata : dict (shape * list (list (list F))) }.
Arguments TecMesh {F} _ _ _ _.
Arguments tm_points {F} _.
Arguments tm_cells {F} _.
Arguments tm_pdata {F} _.
Arguments tm_cdata {F} _.

Section Tecplot.
Context {fl : floats}.

(** Column [i] of an array of rows. *)
Definition column (i : nat) (rows : list (list fl)) : list fl := map (fun r => nth i r fzero) rows.
(** src/meshio/tecplot/_tecplot.py:437-448, 450-464: the variables of one array; arrays of more than two dimensions, which are
    dropped, are not modelled *)
Definition tec_columns (k : string) (a : shape * list (list fl)) : list (string * list fl) :=
  if smem k ["X"; "Y"; "Z"; "x"; "y"; "z"] then []
  else match fst a with
       | None => [(k, column 0 (snd a))]
       | Some w => map (fun i => ((k ++ "_" ++ str_of_nat i)%string, column i (snd a))) (seq 0 w)
       end.
(** src/meshio/tecplot/_tecplot.py:427-437: the coordinates; points of fewer than two coordinates are an IndexError *)
Definition tec_coords (pts : list (list fl)) : result (list (string * list fl)) :=
  let d := length (hd [] pts) in
  if Nat.ltb d 2 then Err IndexError
  else Ok ([("X", column 0 pts); ("Y", column 1 pts)] ++ (if Nat.eqb d 3 then [("Z", column 2 pts)] else [])).
(** src/meshio/tecplot/_tecplot.py:454: the values of the blocks that are written *)
Definition tec_cell_values (use : list (nat * block)) (v : list (list (list fl))) : result (list (list fl)) :=
  do l <- mapM (fun ib => of_option IndexError (nth_error v (fst ib))) use; Ok (concat l).
(** src/meshio/tecplot/_tecplot.py:500-505 [_write_table] *)
Definition tec_table (v : list fl) : list string := map (fun row => row_line (map ffmt row)) (chunks 20 v).

Definition quoted (s : string) : string := (String (ascii_of_nat 34) s ++ String (ascii_of_nat 34) "")%string.
(** src/meshio/tecplot/_tecplot.py:379-497 [write]; [v] is the version of meshio *)
Definition write_tecplot (v : string) (m : tec_mesh fl) : result (list string) :=
  do s <- tec_select (tm_cells m);
  let '(z, use, rows) := s in
  do xyz <- tec_coords (tm_points m);
  let pvars := xyz ++ flat_map (fun ka => tec_columns (fst ka) (snd ka)) (tm_pdata m) in
  do cs <- mapM (fun ka => if smem (fst ka) ["X"; "Y"; "Z"; "x"; "y"; "z"] then Ok []
                           else do w <- tec_cell_values use (snd (snd ka)); Ok (tec_columns (fst ka) (fst (snd ka), w))) (tm_cdata m);
  let cvars := concat cs in
  let first := S (length pvars) in
  let last := length pvars + length cvars in
  let nc := sum_nat (map (fun ib => blen (snd ib)) use) in
  Ok ([("TITLE = " ++ quoted ("Written by meshio v" ++ v))%string;
       ("VARIABLES = " ++ join ", " (map (fun nv => quoted (fst nv)) (pvars ++ cvars)))%string;
       ("ZONE NODES = " ++ str_of_nat (length (tm_points m)) ++ ", ELEMENTS = " ++ str_of_nat nc ++ ",")%string;
       ("DATAPACKING = BLOCK, ZONETYPE = " ++ z ++ (if Nat.leb first last then "," else ""))%string]
      ++ (if Nat.leb first last
          then [("VARLOCATION = ([" ++ (if Nat.eqb first last then str_of_nat first else str_of_nat first ++ "-" ++ str_of_nat last)
                 ++ "] = CELLCENTERED)")%string]
          else [])
      ++ flat_map (fun nv => tec_table (snd nv)) (pvars ++ cvars)
      ++ map (fun c => row_line (map (fun i => str_of_Z (i + 1)) c)) rows).

(** ** Reading *)
(** src/meshio/tecplot/_tecplot.py:108-113 [readline]: "" at the end of the file *)
Fixpoint tec_readline (ls : list string) : string * list string :=
  match ls with
  | [] => ("", [])
  | l :: ls' => if String.prefix "#" (strip l) then tec_readline ls' else (strip l, ls')
  end.
Definition quote : string := String (ascii_of_nat 34) "".
Fixpoint ends_with (c : ascii) (s : string) : bool :=
  match s with EmptyString => false | String a "" => Ascii.eqb a c | String _ s' => ends_with c s' end.
(** src/meshio/tecplot/_tecplot.py:131-143: more lines of names, which must start with a quote *)
Fixpoint more_variables (fuel : nat) (ls : list string) : list string * list string :=
  match fuel with
  | O => ([], ls)
  | S fuel' =>
      let '(l, rest) := tec_readline ls in
      if String.prefix quote l then let r := more_variables fuel' rest in (upper l :: fst r, snd r) else ([], ls)
  end.
(** src/meshio/tecplot/_tecplot.py:226-250 [_read_variables] *)
Fixpoint variable_names (ws : list string) : result (list string) :=
  match ws with
  | [] => Ok []
  | w :: ws' =>
      if contains quote w && negb (String.prefix quote w && ends_with (ascii_of_nat 34) w) then
        match ws' with
        | [] => Err IndexError
        | w2 :: ws'' => do r <- variable_names ws''; Ok (remove_char (ascii_of_nat 34) (w ++ "_" ++ w2)%string :: r)
        end
      else do r <- variable_names ws'; Ok (remove_char (ascii_of_nat 34) w :: r)
  end.
Definition read_variables (line : string) : result (list string) :=
  do rhs <- of_option IndexError (nth_error (split_char "=" line) 1);
  do vs <- variable_names (split_ws (replace_char "," " " rhs));
  if (smem "X" vs || smem "x" vs) && (smem "Y" vs || smem "y" vs) then Ok vs else Err ReadError.

(** src/meshio/tecplot/_tecplot.py:155-167: the lines of the zone record, up to a line that starts with a number; an empty line
    or the end of the file is an IndexError *)
Fixpoint zone_info (fuel : nat) (ls : list string) : result (list string * list string) :=
  match fuel with
  | O => Err OutOfFuel
  | S fuel' =>
      let '(l, rest) := tec_readline ls in
      match split_ws (upper l) with
      | [] => Err IndexError
      | w :: _ => match @fparse fl w with
                  | Some _ => Ok ([], ls)
                  | None => do r <- zone_info fuel' rest; Ok (upper l :: fst r, snd r)
                  end
      end
  end.

(** The text before and after the first occurrence of [sub]. *)
Fixpoint cut_at (sub s : string) : option (string * string) :=
  if String.prefix sub s then Some ("", substring (String.length sub) (String.length s - String.length sub) s)
  else match s with
       | EmptyString => None
       | String a s' => option_map (fun p => (String a (fst p), snd p)) (cut_at sub s')
       end.
(** src/meshio/tecplot/_tecplot.py:280-299: keys and values *)
Definition zone_set (k v : string) (z : dict string) : result (dict string) :=
  do isint <- of_option KeyError (dget k zone_keys);
  if isint then do _ <- of_option ValueError (parse_Z v); Ok (dset k v z) else Ok (dset k v z).
Fixpoint zone_pairs (ws : list string) (z : dict string) : result (dict string) :=
  match ws with
  | [] => Ok z
  | w :: ws' =>
      if contains "=" w then
        if String.prefix "=" w || ends_with "=" w then
          match ws' with
          | [] => Err IndexError
          | v :: ws'' => do z' <- zone_set (remove_char "=" w) v z; zone_pairs ws'' z'
          end
        else match split_char "=" w with
             | [k; v] => do z' <- zone_set k v z; zone_pairs ws' z'
             | _ => Err ValueError
             end
      else match ws' with
           | [] => Err IndexError
           | v :: ws'' => do z' <- zone_set w (remove_char "=" v) z; zone_pairs ws'' z'
           end
  end.
(** src/meshio/tecplot/_tecplot.py:253-305 [_read_zone].  Simplifications: zones with a title (a quoted text) are not modelled
    (a ReadError here), and VARLOCATION must be followed by a text in parentheses. *)
Definition read_zone (line : string) : result (dict string) :=
  let line := substring 5 (String.length line - 5) line in
  if contains quote line then Err ReadError
  else
    do zl <- match cut_at "VARLOCATION" line with
             | None => Ok ([], line)
             | Some (a, b) =>
                 match cut_at "(" b with
                 | None => Err ReadError
                 | Some (_, b') => match cut_at ")" b' with
                                   | None => Err ReadError
                                   | Some (loc, c) => Ok ([("VARLOCATION", remove_char " " loc)], (a ++ c)%string)
                                   end
                 end
             end;
    zone_pairs (filter (fun w => negb (String.eqb w "=")) (split_ws (replace_char "," " " (snd zl)))) (fst zl).

(** src/meshio/tecplot/_tecplot.py:346-364: which variables belong to cells.  [s[1:-1]] of the range is what is between the
    brackets. *)
Definition inner (s : string) : string := substring 1 (String.length s - 2) s.
Fixpoint mark (is : list Z) (l : list bool) : result (list bool) :=
  match is with
  | [] => Ok l
  | i :: is' => do k <- np_index (length l) i; mark is' (upd k true l)
  end.
Definition mark_location (l : list bool) (loc : string) : result (list bool) :=
  match split_char "=" loc with
  | [r; v] =>
      if String.eqb (strip v) "CELLCENTERED" then
        match split_char "-" (inner r) with
        | [a] => do i <- of_option ValueError (parse_Z a); mark [(i - 1)%Z] l
        | a :: b :: _ => do i <- of_option ValueError (parse_Z a); do j <- of_option ValueError (parse_Z b);
                         mark (map (fun k => (i - 1 + Z.of_nat k)%Z) (seq 0 (Z.to_nat (j - i + 1)))) l
        | [] => Err ValueError
        end
      else Ok l
  | _ => Err ValueError
  end.
Fixpoint mark_all (locs : list string) (l : list bool) : result (list bool) :=
  match locs with [] => Ok l | x :: locs' => do l' <- mark_location l x; mark_all locs' l' end.
Definition zone_count (a b : string) (z : dict string) : result Z :=
  match dget a z with
  | Some v => of_option ValueError (parse_Z v)
  | None => match dget b z with Some v => of_option ValueError (parse_Z v) | None => Err ReadError end
  end.
(** src/meshio/tecplot/_tecplot.py:308-366 [_parse_fezone]; [z["VARLOCATION"]] is kept here without its parentheses *)
Definition parse_fezone (z : dict string) (nvars : nat) : result (Z * Z * string * string * list bool) :=
  do ft <- match dget "F" z with
           | Some f => if smem f ["FEPOINT"; "FEBLOCK"] then do t <- of_option ReadError (dget "ET" z); Ok (f, t) else Err ReadError
           | None => match dget "DATAPACKING" z with
                     | Some d => do t <- of_option ReadError (dget "ZONETYPE" z); Ok (("FE" ++ d)%string, t)
                     | None => Err ReadError
                     end
           end;
  do nn <- zone_count "N" "NODES" z;
  do nc <- zone_count "E" "ELEMENTS" z;
  let none := repeat false nvars in
  do cc <- (if String.eqb (fst ft) "FEBLOCK" then
              match dget "NV" z with
              | Some v => do k <- of_option ValueError (parse_Z v);
                          let k' := if (k <? 0)%Z then Z.to_nat (k + Z.of_nat nvars) else Z.to_nat k in
                          Ok (firstn k' none ++ repeat true (nvars - k'))
              | None => match dget "VARLOCATION" z with
                        | Some s => mark_all (split_char "," s) none
                        | None => Ok none
                        end
              end
            else Ok none);
  Ok (nn, nc, fst ft, snd ft, cc).

(** src/meshio/tecplot/_tecplot.py:369-376: lines of numbers until [n] numbers (or lines) have been read.  The loop does not end
    if the file is too short: [readline] returns empty lines for ever. *)
Fixpoint tec_data (fuel : nat) (block : bool) (n : Z) (ls : list string) : result (list (list fl) * list string) :=
  if (n <=? 0)%Z then Ok ([], ls)
  else match fuel with
       | O => Err OutOfFuel
       | S fuel' =>
           let '(l, rest) := tec_readline ls in
           match split_ws l with
           | [] => tec_data fuel' block n rest
           | ws => do x <- parse_floats ws;
                   do r <- tec_data fuel' block (n - (if block then Z.of_nat (length ws) else 1)) rest;
                   Ok (x :: fst r, snd r)
           end
       end.
(** src/meshio/tecplot/_tecplot.py:378-384: the same for the cells *)
Fixpoint tec_cells (fuel : nat) (n : Z) (ls : list string) : result (list cell) :=
  if (n <=? 0)%Z then Ok []
  else match fuel with
       | O => Err OutOfFuel
       | S fuel' =>
           let '(l, rest) := tec_readline ls in
           match split_ws l with
           | [] => tec_cells fuel' n rest
           | ws => do x <- parse_ints ws; do r <- tec_cells fuel' (n - 1) rest; Ok (x :: r)
           end
       end.
(** All rows have the same length. *)
Definition even {A} (rows : list (list A)) : bool := forallb (fun r => Nat.eqb (length r) (length (hd [] rows))) rows.

Record tec_out (F : Type) : Type := TecOut {
  to_points : list (list F);
  to_cells : block;
  to_pdata : dict (list F);
  to_cdata : dict (list F) }.
Arguments TecOut {F} _ _ _ _.
Arguments to_points {F} _.
Arguments to_cells {F} _.
Arguments to_pdata {F} _.
Arguments to_cdata {F} _.

(** src/meshio/tecplot/_tecplot.py:192-223: from the columns to the mesh; columns of different lengths are a ValueError *)
Definition tec_mesh_of (zt : string) (vars : list string) (cc : list bool) (cols : list (list fl)) (cells : list cell)
  : result (tec_out fl) :=
  let data := fold_left (fun d kv => dset (fst kv) (snd kv) d) (combine vars cols) [] in
  do pick <- mapM (fun cv => do x <- of_option KeyError (dget (snd cv) data); Ok (fst cv, (snd cv, x))) (combine cc vars);
  let get b := fold_left (fun d kv => dset (fst kv) (snd kv) d) (map snd (filter (fun x => Bool.eqb (fst x) b) pick)) [] in
  let pd := get false in
  let cd := get true in
  let x := if dmem "X" pd then "X" else "x" in
  let y := if dmem "Y" pd then "Y" else "y" in
  let z := if dmem "Z" pd then "Z" else if dmem "z" pd then "z" else "" in
  do xs <- of_option KeyError (dget x pd);
  do ys <- of_option KeyError (dget y pd);
  let zs := if String.eqb z "" then None else dget z pd in
  let pd' := (if String.eqb z "" then fun d => d else ddel z) (ddel y (ddel x pd)) in
  let n := length xs in
  let ok := forallb (fun kv => Nat.eqb (length (snd kv)) n) pd && forallb (fun kv => Nat.eqb (length (snd kv)) (length cells)) cd in
  do t <- of_option KeyError (dget zt tecplot_to_meshio_type);
  if ok && match cells with [] => false | _ => even cells end then
    Ok (TecOut (map (fun i => [nth i xs fzero; nth i ys fzero] ++ match zs with None => [] | Some l => [nth i l fzero] end) (seq 0 n))
          (Block t (map (map (fun i => (i - 1)%Z)) cells)) pd' cd)
  else Err ValueError.

(** src/meshio/tecplot/_tecplot.py:147-190: one zone.  The cells are read right after the data. *)
Definition read_tec_zone (fuel : nat) (vars : option (list string)) (line : string) (ls : list string) : result (tec_out fl) :=
  do info <- zone_info fuel ls;
  match vars with
  | None => Err AssertionError
  | Some vars =>
      do z <- read_zone (join " " (line :: fst info));
      do f <- parse_fezone z (length vars);
      let '(nn, nc, fmt, zt, cc) := f in
      let block := String.eqb fmt "FEBLOCK" in
      let sizes := map (fun c : bool => if c then nc else nn) cc in
      let total := fold_right Z.add 0%Z sizes in
      do d <- tec_data fuel block (if block then total else nn) (snd info);
      do cells <- tec_cells fuel nc (snd d);
      let cols := if block then np_split (cumsum (butlast (map Z.to_nat sizes))) (concat (fst d))
                  else map (fun i => column i (fst d)) (seq 0 (length (hd [] (fst d)))) in
      if block || even (fst d) then tec_mesh_of zt vars cc cols cells else Err ValueError
  end.
(** src/meshio/tecplot/_tecplot.py:116-223 [read_buffer]: the first zone; the file ends at an empty line *)
Fixpoint tec_loop (fuel : nat) (vars : option (list string)) (ls : list string) : result (tec_out fl) :=
  match fuel with
  | O => Err OutOfFuel
  | S fuel' =>
      let '(l, rest) := tec_readline ls in
      if String.prefix "VARIABLES" (upper l) then
        let r := more_variables (length rest) rest in
        do vs <- read_variables (join " " (l :: fst r));
        tec_loop fuel' (Some vs) (snd r)
      else if String.prefix "ZONE" (upper l) then read_tec_zone fuel' vars l rest
      else match l with EmptyString => Err AssertionError | _ => tec_loop fuel' vars rest end
  end.
(** [fuel] bounds the number of lines the loops may ask for. *)
Definition read_tecplot (fuel : nat) (ls : list string) : result (tec_out fl) := tec_loop fuel None ls.
End Tecplot.
Arguments TecOut {F} _ _ _ _.
Arguments to_points {F} _.
Arguments to_cells {F} _.
Arguments to_pdata {F} _.
Arguments to_cdata {F} _.
