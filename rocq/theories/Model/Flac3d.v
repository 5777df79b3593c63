(** Model of src/meshio/flac3d/_flac3d.py. *)
From Coq Require Import NArith.
From Verif.Lib Require Import Base Text Lines Bytes File.
From Verif.Model Require Import Core Info Tables Snoc Abaqus.

(** src/meshio/flac3d/_flac3d.py:62-69 [flac3d_to_meshio_order] *)
Definition flac3d_to_meshio_order : dict (list nat) := [
  ("triangle", [0; 1; 2]); ("quad", [0; 1; 2; 3]); ("tetra", [0; 1; 2; 3]); ("pyramid", [0; 1; 4; 2; 3]);
  ("wedge", [0; 1; 3; 2; 4; 5]); ("hexahedron", [0; 1; 4; 2; 3; 6; 7; 5]) ].
(** src/meshio/flac3d/_flac3d.py:72-79 [meshio_to_flac3d_order] *)
Definition meshio_to_flac3d_order : dict (list nat) := [
  ("triangle", [0; 1; 2]); ("quad", [0; 1; 2; 3]); ("tetra", [0; 1; 2; 3]); ("pyramid", [0; 1; 3; 4; 2]);
  ("wedge", [0; 1; 3; 2; 4; 5]); ("hexahedron", [0; 1; 3; 4; 2; 7; 5; 6]) ].
(** src/meshio/flac3d/_flac3d.py:82-87 [meshio_to_flac3d_order_2] *)
Definition meshio_to_flac3d_order_2 : dict (list nat) := [
  ("tetra", [0; 2; 1; 3]); ("pyramid", [0; 3; 1; 4; 2]); ("wedge", [0; 2; 3; 1; 5; 4]); ("hexahedron", [0; 3; 1; 4; 2; 5; 7; 6]) ].

(** The arithmetic of coordinates used by the writer. *)
Record geom (F : Type) : Type := Geom { gadd : F -> F -> F; gsub : F -> F -> F; gmul : F -> F -> F; gpos : F -> bool }.
Arguments Geom {F} _ _ _ _.
Arguments gadd {F} _ _ _.
Arguments gsub {F} _ _ _.
Arguments gmul {F} _ _ _.
Arguments gpos {F} _ _.

(** The mesh given to the writer: cell sets have an array per block. *)
Record flac_in (F : Type) : Type := FlacIn {
  fi_points : list (list F);
  fi_cells : list block;
  fi_sets : dict (list (list Z)) }.
Arguments FlacIn {F} _ _ _.
Arguments fi_points {F} _.
Arguments fi_cells {F} _.
Arguments fi_sets {F} _.

(** What the readers collect before the mesh is made (_flac3d.py:117-125); the keys of [point_ids] in
    the order of the points. *)
Record flac_raw (F : Type) : Type := FlacRaw {
  fr_points : list (list F);
  fr_pids : list Z;
  fr_fcells : list block;
  fr_zcells : list block;
  fr_fids : list Z;
  fr_zids : list Z;
  fr_fsets : dict (list Z);
  fr_zsets : dict (list Z) }.
Arguments FlacRaw {F} _ _ _ _ _ _ _ _.
Arguments fr_points {F} _.
Arguments fr_pids {F} _.
Arguments fr_fcells {F} _.
Arguments fr_zcells {F} _.
Arguments fr_fids {F} _.
Arguments fr_zids {F} _.
Arguments fr_fsets {F} _.
Arguments fr_zsets {F} _.

Record flac_out (F : Type) : Type := FlacOut {
  fo_points : list (list F);
  fo_cells : list block;
  fo_ids : list (list Z);       (* the cell data cell_ids *)
  fo_sets : dict (list (list Z)) }.
Arguments FlacOut {F} _ _ _ _.
Arguments fo_points {F} _.
Arguments fo_cells {F} _.
Arguments fo_ids {F} _.
Arguments fo_sets {F} _.

(** ** Writing *)
Section Write.
Context {F : Type} (g : geom F).

Definition minus3 (p q : list F) : option (F * F * F) :=
  match p, q with
  | x :: y :: z :: _, x' :: y' :: z' :: _ => Some (gsub g x x', gsub g y y', gsub g z z')
  | _, _ => None
  end.
(** src/meshio/flac3d/_flac3d.py:540-544 [slicing_summing] *)
Definition slicing_summing (a b c : F * F * F) : F :=
  let '(a0, a1, a2) := a in let '(b0, b1, b2) := b in let '(c0, c1, c2) := c in
  let d0 := gsub g (gmul g b1 c2) (gmul g b2 c1) in
  let d1 := gsub g (gmul g b2 c0) (gmul g b0 c2) in
  let d2 := gsub g (gmul g b0 c1) (gmul g b1 c0) in
  gadd g (gadd g (gmul g a0 d0) (gmul g a1 d1)) (gmul g a2 d2).

(** [points[i]] *)
Definition point_at (pts : list (list F)) (i : Z) : result (list F) :=
  do k <- np_index (length pts) i; of_option IndexError (nth_error pts k).
(** src/meshio/flac3d/_flac3d.py:552-553, for one cell: the determinant for the first four nodes *)
Definition zone_det (pts : list (list F)) (row : cell) : result F :=
  match row with
  | i0 :: i1 :: i2 :: i3 :: _ =>
      do p0 <- point_at pts i0; do p1 <- point_at pts i1; do p2 <- point_at pts i2; do p3 <- point_at pts i3;
      do a <- of_option IndexError (minus3 p1 p0); do b <- of_option IndexError (minus3 p2 p0);
      do c <- of_option IndexError (minus3 p3 p0);
      Ok (slicing_summing a b c)
  | _ => Err IndexError
  end.

(** src/meshio/flac3d/_flac3d.py:555-560, for one cell *)
Definition zone_row (pts : list (list F)) (key : string) (row : cell) : result cell :=
  do o1 <- of_option KeyError (dget key meshio_to_flac3d_order);
  do o2 <- of_option KeyError (dget key meshio_to_flac3d_order_2);
  do r1 <- of_option IndexError (permute o1 row);
  do r2 <- of_option IndexError (permute o2 row);
  do det <- zone_det pts r1;
  Ok (if gpos g det then r1 else r2).

(** src/meshio/flac3d/_flac3d.py:531-563 [_translate_zcells]; the assertion fails for the first block that
    is not three-dimensional *)
Definition translate_zcells (pts : list (list F)) (bs : list block) : result (list block) :=
  mapM (fun b =>
    do key <- of_option AssertionError (dget (btype b) flac3d_zones);
    do rows <- mapM (zone_row pts key) (bdata b);
    Ok (Block key rows)) bs.

(** src/meshio/flac3d/_flac3d.py:399-404: [block += gid] changes the arrays of the caller. *)
Fixpoint shift_sets (gid : nat) (bs : list block) (cset : list (list Z)) : list (list Z) :=
  match bs, cset with
  | b :: bs', s :: cset' => map (fun i => (i + Z.of_nat gid)%Z) s :: shift_sets (gid + blen b) bs' cset'
  | _, _ => cset
  end.
(** src/meshio/flac3d/_flac3d.py:355-420 [split_f_z], for a mesh of zones only: the sets to be written and the sets
    of the mesh afterwards.  Simplifications: sets have an array for every block; with other blocks the writer fails
    later with an AssertionError in any case (or here with a TypeError, because of the None entries). *)
Definition written_set (bs : list block) (cset : list (list Z)) : list Z :=
  map (fun i => (i + 1)%Z) (concat (shift_sets 0 bs cset)).
Definition sets_after (m : flac_in F) : dict (list (list Z)) :=
  map (fun kv => (fst kv, shift_sets 0 (fi_cells m) (snd kv))) (fi_sets m).
(** A set without any array (a mesh without blocks) is not written. *)
Definition zsets (m : flac_in F) : dict (list Z) :=
  match fi_cells m with
  | [] => []
  | bs => map (fun kv => (fst kv, written_set bs (snd kv))) (fi_sets m)
  end.
End Write.

(** ** ASCII files *)
Definition tab : ascii := ascii_of_nat 9.
(** ["{:8}".format(n)]: right-aligned *)
Definition pad_left (w : nat) (s : string) : string := (join "" (repeat " " (w - String.length s)) ++ s)%string.

Section Ascii.
Context {fl : floats} (g : geom fl).

(** src/meshio/flac3d/_flac3d.py:455-466 [_write_points]: more than three coordinates are cut off *)
Definition gridpoint_line (kp : nat * list fl) : result string :=
  match snd kp with
  | x :: y :: z :: _ =>
      Ok (join (String tab "") ["G"; pad_left 8 (str_of_nat (S (fst kp))); ffmt x; ffmt y; ffmt z])
  | _ => Err IndexError
  end.
(** src/meshio/flac3d/_flac3d.py:490-500: the cells of one block; [gid] cells have been written before *)
Definition zone_line (abbrev : string) (code : string) (kr : nat * cell) : string :=
  row_line ([abbrev; code; str_of_nat (S (fst kr))] ++ map (fun i => str_of_Z (i + 1)) (snd kr)).
Fixpoint zone_lines (gid : nat) (bs : list block) : result (list string) :=
  match bs with
  | [] => Ok []
  | b :: bs' =>
      do code <- of_option KeyError (dget (btype b) meshio_to_flac3d_type);
      do r <- zone_lines (gid + blen b) bs';
      Ok (map (zone_line "Z" code) (combine (seq gid (blen b)) (bdata b)) ++ r)
  end.
(** src/meshio/flac3d/_flac3d.py:602-608 [_write_table]: rows of 20 *)
Definition table_lines (data : list Z) : list string := map (fun r => (" " ++ row_line (map str_of_Z r))%string) (chunks 20 data).
(** src/meshio/flac3d/_flac3d.py:524-528 *)
Definition group_lines (flg : string) (lg : string * list Z) : list string :=
  (flg ++ " """ ++ fst lg ++ """ SLOT 1")%string :: table_lines (snd lg).

(** src/meshio/flac3d/_flac3d.py:423-452 [write], text; the second component are the cell sets of the mesh after
    the call.  [v] and [date] are the version of meshio and the time. *)
Definition write_flac3d (v date : string) (m : flac_in fl) : result (list string * dict (list (list Z))) :=
  do pts <- mapM gridpoint_line (enumerate (fi_points m));
  do zs <- translate_zcells g (fi_points m) (fi_cells m);
  do zl <- zone_lines 0 zs;
  Ok ([("* FLAC3D grid produced by meshio v" ++ v)%string; ("* " ++ date)%string; "* GRIDPOINTS"] ++ pts
      ++ ["* ZONES"] ++ zl ++ ["* ZONE GROUPS"] ++ flat_map (group_lines "ZGROUP") (zsets m)
      ++ ["* FACES"; "* FACE GROUPS"], sets_after m).

(** src/meshio/flac3d/_flac3d.py:262-266 [_read_point_ascii] *)
Definition read_point (ws : list string) : result (Z * list fl) :=
  do w <- of_option IndexError (nth_error ws 1);
  do pid <- of_option ValueError (parse_Z w);
  do p <- parse_floats (skipn 2 ws);
  Ok (pid, p).
(** src/meshio/flac3d/_flac3d.py:275-283 [_read_cell_ascii]; a code B7 has its last node repeated *)
Definition resolve (pids : list Z) (i : Z) : result Z :=
  do k <- of_option KeyError (zget i (id_map pids)); Ok (Z.of_nat k).
Definition repeat_last (l : cell) : result cell :=
  match l with [] => Err IndexError | _ => Ok (l ++ [last l 0%Z]) end.
Definition read_cell (pids : list Z) (ws : list string) : result (Z * cell) :=
  do w <- of_option IndexError (nth_error ws 2);
  do cid <- of_option ValueError (parse_Z w);
  do ids <- parse_ints (skipn 3 ws);
  do c <- mapM (resolve pids) ids;
  do c <- (if String.eqb (nth 1 ws "") "B7" then repeat_last c else Ok c);
  Ok (cid, c).
(** src/meshio/flac3d/_flac3d.py:346-352 [_update_cells]; [nodes] is the table of the section *)
Definition update_cells (nodes : zdict string) (bs : list block) (c : cell) : result (list block) :=
  do t <- of_option KeyError (zget (Z.of_nat (length c)) nodes);
  Ok (snoc_cell bs t c).

(** src/meshio/flac3d/_flac3d.py:319: the regular expression
    [^([A-Z]+) *['"](.*?)['"] *([A-Z]+) *(.*?) *$]; the groups 1 to 4 *)
Definition is_upper (a : ascii) : bool := let n := nat_of_ascii a in Nat.leb 65 n && Nat.leb n 90.
Definition is_quote (a : ascii) : bool := Ascii.eqb a """" || Ascii.eqb a "'".
Fixpoint span_upper (s : string) : string * string :=
  match s with
  | String a s' => if is_upper a then let '(u, r) := span_upper s' in (String a u, r) else ("", s)
  | EmptyString => ("", "")
  end.
Fixpoint drop_spaces (s : string) : string :=
  match s with String a s' => if Ascii.eqb a " " then drop_spaces s' else s | EmptyString => "" end.
Fixpoint drop_end_spaces (s : string) : string :=
  match s with
  | EmptyString => ""
  | String a s' => match drop_end_spaces s' with
                   | EmptyString => if Ascii.eqb a " " then "" else String a ""
                   | t => String a t
                   end
  end.
(** what follows the closing quote: blanks, capital letters, blanks, the rest *)
Definition after_name (s : string) : option (string * string) :=
  let '(u, r) := span_upper (drop_spaces s) in
  if String.eqb u "" then None else Some (u, drop_end_spaces (drop_spaces r)).
Fixpoint lazy_name (s : string) : option (string * string * string) :=
  match s with
  | EmptyString => None
  | String a s' =>
      match (if is_quote a then after_name s' else None) with
      | Some (u, r) => Some ("", u, r)
      | None => match lazy_name s' with Some (n, u, r) => Some (String a n, u, r) | None => None end
      end
  end.
Definition group_header (line : string) : option (string * string * string * string) :=
  let '(u, r) := span_upper line in
  if String.eqb u "" then None
  else match drop_spaces r with
       | String a s => if is_quote a then match lazy_name s with Some (n, w, sl) => Some (u, n, w, sl) | None => None end else None
       | EmptyString => None
       end.
(** src/meshio/flac3d/_flac3d.py:330-341: the numbers up to a comment, a group or an empty line *)
Fixpoint group_data (ls : list string) : result (list Z * list string) :=
  match ls with
  | [] => Ok ([], [])
  | l :: ls' =>
      match split_ws l with
      | [] => Ok ([], ls)
      | w :: ws =>
          if smem w ["*"; "ZGROUP"; "FGROUP"] then Ok ([], ls)
          else do d <- parse_ints (w :: ws); do r <- group_data ls'; Ok (d ++ fst r, snd r)
      end
  end.
(** src/meshio/flac3d/_flac3d.py:314-343 [_read_cell_group_ascii] *)
Definition read_group (line : string) (ls : list string) : result (string * string * list Z * list string) :=
  do h <- of_option ReadError (group_header line);
  let '(u, n, w, sl) := h in
  if smem u ["ZGROUP"; "FGROUP"] && String.eqb w "SLOT"
  then do r <- group_data ls; Ok (n, sl, fst r, snd r)
  else Err AssertionError.

(** src/meshio/flac3d/_flac3d.py:160-197: the loop over the lines *)
Fixpoint flac_loop (fuel : nat) (st : flac_raw fl) (ls : list string) : result (flac_raw fl) :=
  match fuel, ls with
  | _, [] => Ok st
  | O, _ => Err OutOfFuel
  | S fuel', l :: ls' =>
      let '(FlacRaw pts pids fc zc fi zi fs zs) := st in
      let ws := split_ws l in
      match ws with
      | [] => flac_loop fuel' st ls'
      | w :: _ =>
          if String.eqb w "G" then
            do p <- read_point ws; flac_loop fuel' (FlacRaw (pts ++ [snd p]) (pids ++ [fst p]) fc zc fi zi fs zs) ls'
          else if String.eqb w "Z" then
            do c <- read_cell pids ws; do zc' <- update_cells flac3d_zone_nodes zc (snd c);
            flac_loop fuel' (FlacRaw pts pids fc zc' fi (zi ++ [fst c]) fs zs) ls'
          else if String.eqb w "F" then
            do c <- read_cell pids ws; do fc' <- update_cells flac3d_face_nodes fc (snd c);
            flac_loop fuel' (FlacRaw pts pids fc' zc (fi ++ [fst c]) zi fs zs) ls'
          else if String.eqb w "ZGROUP" then
            do r <- read_group l ls'; let '(n, sl, d, rest) := r in
            flac_loop fuel' (FlacRaw pts pids fc zc fi zi fs (dset ("zone:" ++ n ++ ":" ++ sl)%string d zs)) rest
          else if String.eqb w "FGROUP" then
            do r <- read_group l ls'; let '(n, sl, d, rest) := r in
            flac_loop fuel' (FlacRaw pts pids fc zc fi zi (dset ("face:" ++ n ++ ":" ++ sl)%string d fs) zs) rest
          else flac_loop fuel' st ls'
      end
  end.
End Ascii.

(** ** From the collected data to the mesh (_flac3d.py:199-259) *)
Section Assemble.
Context {F : Type}.

(** src/meshio/flac3d/_flac3d.py:222-232: the array that maps ids to running numbers; a set without members is an
    array of floating point numbers, which is an IndexError *)
Definition inverse_ids (ids : list Z) : result (list Z) :=
  let size := (fold_left Z.max ids (hd 0%Z ids) + 1)%Z in
  if (size <? 0)%Z then Err ValueError
  else
    do ix <- mapM (np_index (Z.to_nat size)) ids;
    Ok (fold_left (fun a ki => upd (snd ki) (Z.of_nat (fst ki)) a) (enumerate ix) (repeat (-1)%Z (Z.to_nat size))).
Definition renumber (ids : list Z) (offset : Z) (sets : dict (list Z)) : result (dict (list Z)) :=
  match ids with
  | [] => Ok sets
  | _ =>
      do inv <- inverse_ids ids;
      mapM (fun kv =>
        match snd kv with
        | [] => Err IndexError
        | d => do v <- mapM (fun i => do k <- np_index (length inv) i; of_option IndexError (nth_error inv k)) d;
               Ok (fst kv, map (fun x => (x + offset)%Z) v)
        end) sets
  end.
(** [np.digitize(x, bins)] for nondecreasing bins *)
Definition digitize (bins : list nat) (x : Z) : nat := length (filter (fun b => (Z.of_nat b <=? x)%Z) bins).
Definition split_set (bs : list block) (d : list Z) : list (list Z) :=
  let bins := cumsum (map blen bs) in
  map (fun k => filter (fun x => Nat.eqb (digitize bins x) k) d) (seq 0 (length bs)).

Definition from_flac3d (bs : list block) : result (list block) :=
  mapM (fun b =>
    do o <- of_option KeyError (dget (btype b) flac3d_to_meshio_order);
    do rows <- mapM (fun r => of_option IndexError (permute o r)) (bdata b);
    Ok (Block (btype b) rows)) bs.

Definition assemble (r : flac_raw F) : result (flac_out F) :=
  let z_offset := Z.of_nat (length (fr_fids r)) in
  let ids := fr_fids r ++ map (fun i => (i + z_offset)%Z) (fr_zids r) in
  do bs <- from_flac3d (fr_fcells r ++ fr_zcells r);
  do fs <- renumber (fr_fids r) 0%Z (fr_fsets r);
  do zs <- renumber (fr_zids r) z_offset (fr_zsets r);
  let sets := map (fun kv => (fst kv, split_set bs (snd kv))) (dupdate fs zs) in
  Ok (FlacOut (fr_points r) bs (split_lens (map blen bs) ids) sets).
End Assemble.

Definition empty_raw {F} : flac_raw F := FlacRaw [] [] [] [] [] [] [] [].
(** src/meshio/flac3d/_flac3d.py:115-259 [read_buffer], text *)
Definition read_flac3d {fl : floats} (ls : list string) : result (flac_out fl) :=
  do r <- flac_loop (length ls) empty_raw ls; assemble r.

(** ** Binary files *)
Section Binary.
Context {F : Type} (g : geom F) (c8 : codec F).

(** struct.pack of unsigned integers of [w] bytes; struct.error, here an OverflowError, if they do not fit *)
Definition pack (w : nat) (z : Z) : result bytes :=
  if (0 <=? z)%Z && (z <? Z.of_N (capacity w))%Z then Ok (uint_bytes false w (Z.to_N z)) else Err OverflowError.
Definition packs (w : nat) (zs : list Z) : result bytes := do bs <- mapM (pack w) zs; Ok (concat bs).

(** src/meshio/flac3d/_flac3d.py:458-460 *)
Definition point_bytes (kp : nat * list F) : result bytes :=
  match snd kp with
  | [x; y; z] => do i <- pack 4 (Z.of_nat (S (fst kp))); Ok (i ++ enc c8 x ++ enc c8 y ++ enc c8 z)
  | _ => Err OverflowError
  end.
(** src/meshio/flac3d/_flac3d.py:471-488 *)
Fixpoint zone_bytes (gid : nat) (bs : list block) : result bytes :=
  match bs with
  | [] => Ok []
  | b :: bs' =>
      do d <- packs 4 (concat (map (fun kr => Z.of_nat (S (fst kr)) :: Z.of_nat (length (snd kr)) :: map (fun i => (i + 1)%Z) (snd kr))
                                (combine (seq gid (blen b)) (bdata b))));
      do r <- zone_bytes (gid + blen b) bs';
      Ok (d ++ r)
  end.
(** src/meshio/flac3d/_flac3d.py:511-521; names are ASCII *)
Definition group_bytes (lg : string * list Z) : result bytes :=
  do n <- pack 2 (Z.of_nat (String.length (fst lg)));
  do s <- pack 2 7%Z;
  do k <- pack 4 (Z.of_nat (length (snd lg)));
  do d <- packs 4 (snd lg);
  Ok (n ++ string_bytes (fst lg) ++ s ++ string_bytes "Default" ++ k ++ d).

(** src/meshio/flac3d/_flac3d.py:423-452 [write], binary *)
Definition write_flac3d_binary (m : flac_in F) : result (bytes * dict (list (list Z))) :=
  do head <- packs 4 [1375135718; 3]%Z;
  do np <- pack 4 (Z.of_nat (length (fi_points m)));
  do pts <- mapM point_bytes (enumerate (fi_points m));
  do zs <- translate_zcells g (fi_points m) (fi_cells m);
  do nz <- pack 4 (Z.of_nat (length (concat (map bdata zs))));
  do zb <- zone_bytes 0 zs;
  do ng <- pack 4 (Z.of_nat (length (zsets m)));
  do gs <- mapM group_bytes (zsets m);
  do z <- pack 4 0%Z;
  Ok (head ++ np ++ concat pts ++ nz ++ zb ++ ng ++ concat gs ++ z ++ z, sets_after m).

(** [struct.unpack] of [w] bytes; struct.error, here a ValueError, if the file is too short *)
Definition take_raw (w : nat) (b : bytes) : result (bytes * bytes) :=
  if Nat.ltb (length b) w then Err ValueError else Ok (firstn w b, skipn w b).
Definition unpack (w : nat) (b : bytes) : result (Z * bytes) :=
  do r <- take_raw w b; Ok (Z.of_N (uint_value false (fst r)), snd r).
Fixpoint read_n {A} (p : bytes -> result (A * bytes)) (n : nat) (b : bytes) : result (list A * bytes) :=
  match n with
  | O => Ok ([], b)
  | S n' => do x <- p b; do r <- read_n p n' (snd x); Ok (fst x :: fst r, snd r)
  end.
Definition unpacks (n : nat) (b : bytes) : result (list Z * bytes) := read_n (unpack 4) n b.
(** src/meshio/flac3d/_flac3d.py:269-272 [_read_point_binary] *)
Definition take_real (b : bytes) : result (F * bytes) := do r <- take_raw 8 b; Ok (dec c8 (fst r), snd r).
Definition read_point_bin (b : bytes) : result (Z * list F * bytes) :=
  do i <- unpack 4 b; do p <- read_n take_real 3 (snd i); Ok ((fst i, fst p), snd p).
(** src/meshio/flac3d/_flac3d.py:286-294 [_read_cell_binary] *)
Definition read_cell_bin (pids : list Z) (b : bytes) : result (Z * cell * bytes) :=
  do i <- unpack 4 b;
  do n <- unpack 4 (snd i);
  do ids <- unpacks (Z.to_nat (fst n)) (snd n);
  do c <- mapM (resolve pids) (fst ids);
  do c <- (if Nat.eqb (length c) 7 then repeat_last c else Ok c);
  Ok ((fst i, c), snd ids).
(** src/meshio/flac3d/_flac3d.py:297-311 [_read_cell_group_binary] *)
Definition read_string (b : bytes) : result (string * bytes) :=
  do n <- unpack 2 b; do s <- take_raw (Z.to_nat (fst n)) (snd n); Ok (bytes_string (fst s), snd s).
Definition read_group_bin (b : bytes) : result (string * string * list Z * bytes) :=
  do n <- read_string b; do s <- read_string (snd n); do k <- unpack 4 (snd s); do d <- unpacks (Z.to_nat (fst k)) (snd k);
  Ok ((fst n, fst s, fst d), snd d).

(** src/meshio/flac3d/_flac3d.py:140-158: one of the two sections *)
Fixpoint update_all (nodes : zdict string) (bs : list block) (l : list cell) : result (list block) :=
  match l with [] => Ok bs | c :: l' => do bs' <- update_cells nodes bs c; update_all nodes bs' l' end.
Definition read_section (flag : string) (nodes : zdict string) (pids : list Z) (b : bytes)
  : result (list Z * list block * dict (list Z) * bytes) :=
  do n <- unpack 4 b;
  do cs <- read_n (read_cell_bin pids) (Z.to_nat (fst n)) (snd n);
  do bs <- update_all nodes [] (map snd (fst cs));
  do k <- unpack 4 (snd cs);
  do gs <- read_n read_group_bin (Z.to_nat (fst k)) (snd k);
  Ok (map fst (fst cs), bs,
      fold_left (fun d nsg => let '(n, s, v) := nsg in dset (flag ++ ":" ++ n ++ ":" ++ s)%string v d) (fst gs) [], snd gs).

(** src/meshio/flac3d/_flac3d.py:115-259 [read_buffer], binary *)
Definition read_flac3d_binary (b : bytes) : result (flac_out F) :=
  do h <- unpacks 2 b;
  do n <- unpack 4 (snd h);
  do ps <- read_n read_point_bin (Z.to_nat (fst n)) (snd n);
  let pids := map fst (fst ps) in
  do z <- read_section "zone" flac3d_zone_nodes pids (snd ps);
  let '(zi, zc, zs, rest) := z in
  do f <- read_section "face" flac3d_face_nodes pids rest;
  let '(fi, fc, fs, _) := f in
  assemble (FlacRaw (map snd (fst ps)) pids fc zc fi zi fs zs).
End Binary.

(** src/meshio/flac3d/_flac3d.py:100-112 [read]: a zero byte among the first eight bytes means binary *)
Definition is_binary (b : bytes) : bool := existsb (N.eqb 0) (firstn 8 b).
