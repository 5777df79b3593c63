(** Model of src/meshio/netgen/_netgen.py. *)
From Verif.Lib Require Import Base Text Lines.
From Verif.Model Require Import Core Tables Snoc Avsucd.

(** src/meshio/netgen/_netgen.py:63-97 [netgen_to_meshio_pmap] *)
Definition netgen_to_meshio_pmap : dict (list nat) := [
  ("vertex", [0]); ("line", [0; 1]); ("triangle", [0; 1; 2]); ("triangle6", [0; 1; 2; 5; 3; 4]); ("quad", [0; 1; 2; 3]);
  ("quad8", [0; 1; 2; 3; 4; 7; 5; 6]); ("tetra", [0; 2; 1; 3]); ("tetra10", [0; 2; 1; 3; 5; 7; 4; 6; 9; 8]);
  ("pyramid", [0; 3; 2; 1; 4]); ("pyramid13", [0; 3; 2; 1; 4; 7; 6; 8; 5; 9; 12; 11; 10]); ("wedge", [0; 2; 1; 3; 5; 4]);
  ("wedge15", [0; 2; 1; 3; 5; 4; 7; 8; 6; 13; 14; 12; 9; 11; 10]); ("hexahedron", [0; 3; 2; 1; 4; 7; 6; 5]);
  ("hexahedron20", [0; 3; 2; 1; 4; 7; 6; 5; 10; 9; 11; 8; 16; 19; 18; 17; 14; 13; 15; 12]) ].
(** src/meshio/netgen/_netgen.py:99-105: ipmap[pmap[i]] = i for all i *)
Definition inverse_pmap (p : list nat) : list nat := fold_left (fun acc iq => upd (snd iq) (fst iq) acc) (enumerate p) (seq 0 (length p)).
Definition meshio_to_netgen_pmap : dict (list nat) := map (fun kv => (fst kv, inverse_pmap (snd kv))) netgen_to_meshio_pmap.
(** src/meshio/netgen/_netgen.py:28 [netgen_codims] *)
Definition netgen_codims : dict Z := [("materials", 0%Z); ("bcnames", 1%Z); ("cd2names", 2%Z); ("cd3names", 3%Z)].

(** A mesh: the values of the field data are pairs (identifier, dimension); identifications: rows of three integers, and types. *)
Record ng_mesh (F : Type) : Type := NgMesh {
  ng_points : list (list F);
  ng_cells : list block;
  ng_cdata : dict (cdata F);
  ng_field : dict (Z * Z);
  ng_info : option (list (list Z) * list Z) }.
Arguments NgMesh {F} _ _ _ _ _.
Arguments ng_points {F} _.
Arguments ng_cells {F} _.
Arguments ng_cdata {F} _.
Arguments ng_field {F} _.
Arguments ng_info {F} _.

(** Arrays of one or two dimensions. *)
Inductive ng_array (F : Type) : Type :=
| Flat (l : list F)
| Rows (l : list (list F)).
Arguments Flat {F} _.
Arguments Rows {F} _.

(** The mesh read: points, blocks, cell data netgen:index, field data, and identifications with their types. *)
Record ng_out (F : Type) : Type := NgOut {
  no_points : ng_array F;
  no_cells : list block;
  no_index : list (list Z);
  no_field : dict (Z * Z);
  no_info : option (list (list Z) * option (list Z)) }.
Arguments NgOut {F} _ _ _ _ _.
Arguments no_points {F} _.
Arguments no_cells {F} _.
Arguments no_index {F} _.
Arguments no_field {F} _.
Arguments no_info {F} _.

(** Conversion to 32-bit integers: numpy keeps the lowest 32 bits. *)
Definition i32 (z : Z) : Z := ((z + 2147483648) mod 4294967296 - 2147483648)%Z.
Definition u32 (z : Z) : Z := (z mod 4294967296)%Z.

Section Netgen.
Context {fl : floats}.

(** ** Writing *)
(** src/meshio/netgen/_netgen.py:369-383: the first integer data, netgen:index preferred; data without blocks is an IndexError.
    Simplification: netgen:index of real numbers, which are cut to integers, is an error here. *)
Fixpoint first_int_data (d : dict (cdata fl)) : result (option (list (list Z))) :=
  match d with
  | [] => Ok None
  | (_, CInts (x :: v)) :: _ => Ok (Some (x :: v))
  | (_, CReals _ (_ :: _)) :: d' => first_int_data d'
  | _ => Err IndexError
  end.
Definition ng_index (m : ng_mesh fl) : result (list (option (list Z))) :=
  match dget "netgen:index" (ng_cdata m) with
  | Some (CInts v) => Ok (map Some v)
  | Some (CReals _ _) => Err ValueError
  | None => do f <- first_int_data (ng_cdata m);
            match f with Some v => Ok (map Some v) | None => Ok (repeat None (length (ng_cells m))) end
  end.
(** src/meshio/netgen/_netgen.py:172-184: what comes before and after the nodes, and the column of the index *)
Definition ng_layout (dim n : nat) : list Z * list Z * nat :=
  match dim with
  | 0 => ([], [1%Z], 1)
  | 1 => ([1; 0]%Z, [-1; -1; 0; 0; 1; 0; 1; 0]%Z, 0)
  | 2 => ([1; 1; 0; 0; Z.of_nat n]%Z, [], 1)
  | _ => ([1; Z.of_nat n]%Z, [], 0)
  end.
(** src/meshio/netgen/_netgen.py:167-198 [_write_cells] *)
Definition ng_write_cells (dim : nat) (b : block) (index : option (list Z)) : result (list string) :=
  match bdata b with
  | [] => Ok []
  | _ =>
      do p <- of_option KeyError (dget (btype b) meshio_to_netgen_pmap);
      let '(pre, post, at_) := ng_layout dim (length p) in
      do rows <- mapM (fun c => do r <- of_option IndexError (permute p c); Ok (pre ++ map (fun i => i32 (i + 1)) r ++ post)) (bdata b);
      do rows' <- match index with
                  | None => Ok rows
                  | Some ix => if Nat.eqb (length ix) (length rows)
                               then Ok (map (fun ri => upd at_ (i32 (snd ri)) (fst ri)) (combine rows ix))
                               else Err ValueError
                  end;
      Ok (map (fun r => row_line (map str_of_Z r)) rows')
  end.
(** src/meshio/netgen/_netgen.py:397-402 and the same below: the blocks of dimension [dim] *)
Definition ng_section (dim : nat) (bs : list (block * option (list Z))) : result (list string) :=
  do l <- mapM (fun bi => do d <- cellblock_dim (btype (fst bi));
                          if Nat.eqb d dim then ng_write_cells dim (fst bi) (snd bi) else Ok []) bs;
  Ok (concat l).
(** src/meshio/netgen/_netgen.py:385-386 *)
Definition ng_count (dim : nat) (bs : list block) : result nat :=
  do l <- mapM (fun b => do d <- cellblock_dim (btype b); Ok (if Nat.eqb d dim then blen b else 0)) bs;
  Ok (sum_nat l).

(** src/meshio/netgen/_netgen.py:207-235 [_write_codim_domain_data] *)
Definition ng_names (m : ng_mesh fl) (index : list (option (list Z))) (dim codim : Z) : result (zdict string) :=
  let named := fold_left (fun d kv => if Z.eqb (snd (snd kv)) (dim - codim) then zset (fst (snd kv)) (fst kv) d else d) (ng_field m) [] in
  match named with
  | [] =>
      do l <- mapM (fun bi => do d <- cellblock_dim (btype (fst bi));
                              Ok (match snd bi with
                                  | Some ix => if Z.eqb (Z.of_nat d) (dim - codim) then ix else []
                                  | None => []
                                  end)) (combine (ng_cells m) index);
      Ok (fold_left (fun d i => zset i ("cd" ++ str_of_Z codim ++ "_" ++ str_of_Z i)%string d) (concat l) [])
  | _ => Ok named
  end.
Definition ng_codim_lines (tag : string) (names : zdict string) : list string :=
  match names with
  | [] => []
  | (k, _) :: rest =>
      let ncd := fold_left (fun a kv => Z.max a (fst kv)) rest k in
      ["" ; tag; str_of_Z ncd] ++
      map (fun i => (str_of_nat i ++ " " ++ match zget (Z.of_nat i) names with Some s => s | None => "" end)%string) (seq 1 (Z.to_nat ncd))
  end.

(** src/meshio/netgen/_netgen.py:364-455 [write_buffer]; [v] is the version of meshio.  The number of columns of the points is
    taken from the first one (rows of an array); more than three are a ValueError. *)
Definition write_netgen (v : string) (m : ng_mesh fl) : result (list string) :=
  let d := length (hd [] (ng_points m)) in
  do index <- ng_index m;
  let bi := combine (ng_cells m) index in
  do n2 <- ng_count 2 (ng_cells m); do s2 <- ng_section 2 bi;
  do n3 <- ng_count 3 (ng_cells m); do s3 <- ng_section 3 bi;
  do n1 <- ng_count 1 (ng_cells m); do s1 <- ng_section 1 bi;
  do n0 <- ng_count 0 (ng_cells m); do s0 <- ng_section 0 bi;
  if Nat.ltb 3 d then Err ValueError else
  do names <- mapM (fun c => do x <- ng_names m index (Z.of_nat d) (Z.of_nat c); Ok (c, x)) (seq 0 (S d));
  Ok ([("# Generated by meshio " ++ v)%string; "mesh3d"; ""; "dimension"; str_of_nat d; ""; "geomtype"; "0";
       ""; "# surfnr    bcnr   domin  domout      np      p1      p2      p3"; "surfaceelements"; str_of_nat n2] ++ s2 ++
      [""; "#  matnr      np      p1      p2      p3      p4"; "volumeelements"; str_of_nat n3] ++ s3 ++
      [""; "# surfid  0   p1   p2   trignum1    trignum2   domin/surfnr1    domout/surfnr2   ednr1   dist1   ednr2   dist2";
       "edgesegmentsgi2"; str_of_nat n1] ++ s1 ++
      [""; "#          X             Y             Z"; "points"; str_of_nat (length (ng_points m))] ++
      map (fun p => row_line (map ffmt (p ++ repeat (@fzero fl) (3 - d)))) (ng_points m) ++
      [""; "#          pnum             index"; "pointelements"; str_of_nat n0] ++ s0 ++
      match ng_info m with
      | None => []
      | Some (ids, types) => ["" ; "identifications"; str_of_nat (length ids)] ++ map (fun r => row_line (map str_of_Z r)) ids ++
                             [""; "identificationtypes"; str_of_nat (length types); row_line (map str_of_Z types)]
      end ++
      flat_map (fun cx => ng_codim_lines (fst (nth (fst cx) netgen_codims ("", 0%Z))) (snd cx)) names ++
      [""; "endmesh"]).

(** ** Reading *)
(** src/meshio/netgen/_netgen.py:15-26 [_fast_forward_over_blank_lines]; None at the end of the file *)
Fixpoint ng_next (ls : list string) : option (string * list string) :=
  match ls with
  | [] => None
  | l :: ls' => let s := strip l in
                if String.eqb s "" || String.prefix "#" s then ng_next ls' else Some (s, ls')
  end.
(** src/meshio/netgen/_netgen.py:122-143: dimension, first column of the nodes and column of the index of a section *)
Definition ng_kind (s : string) : option (nat * nat * nat) :=
  if String.eqb s "pointelements" then Some (0, 0, 1)
  else if smem s ["edgesegments"; "edgesegmentsgi"; "edgesegmentsgi2"] then Some (1, 2, 0)
  else if smem s ["surfaceelements"; "surfaceelementsgi"; "surfaceelementsuv"] then Some (2, 5, 1)
  else if String.eqb s "volumeelements" then Some (3, 2, 0)
  else None.
Definition ng_types (dim : nat) : zdict string :=
  match dim with 0 => netgen0d_to_meshio_type | 1 => netgen1d_to_meshio_type | 2 => netgen2d_to_meshio_type | _ => netgen3d_to_meshio_type end.
(** src/meshio/netgen/_netgen.py:147-157: type, nodes and index of one cell *)
Definition read_ng_cell (dim pi0 at_ : nat) (l : string) : result (string * cell * Z) :=
  let data := filter (fun w => negb (String.eqb w "")) (split_char " " l) in
  let get k := do w <- of_option IndexError (nth_error data k); int_line w in
  do index <- get at_;
  do nump <- match dim with 0 => Ok 1%Z | 1 => Ok 2%Z | 2 => get 4 | _ => get 1 end;
  do c <- mapM int_line (slice pi0 (pi0 + Z.to_nat nump) data);
  do t <- of_option KeyError (zget nump (ng_types dim));
  Ok (t, c, index).
(** src/meshio/netgen/_netgen.py:146-164: [n] cells; [skip] if there are two lines for each *)
Fixpoint read_ng_cells (dim pi0 at_ : nat) (skip : bool) (n : nat) (ls : list string)
  : result (list (string * cell * Z) * list string) :=
  match n with
  | O => Ok ([], ls)
  | S n' =>
      let lr := match ng_next ls with Some x => x | None => ("", []) end in
      do c <- read_ng_cell dim pi0 at_ (fst lr);
      let rest := if skip then match ng_next (snd lr) with Some x => snd x | None => [] end else snd lr in
      do r <- read_ng_cells dim pi0 at_ skip n' rest;
      Ok (c :: fst r, snd r)
  end.

(** numpy.loadtxt(max_rows=n): rows of equal length; a single row or a single column makes a flat array *)
Definition even_rows {A} (rows : list (list A)) : bool := forallb (fun r => Nat.eqb (length r) (length (hd [] rows))) rows.
Definition squeeze {A} (rows : list (list A)) : ng_array A :=
  match rows with
  | [] => Flat []
  | [r] => Flat r
  | r :: _ => if Nat.eqb (length r) 1 then Flat (concat rows) else Rows rows
  end.
Definition slice_to {A} (d : Z) (l : list A) : list A :=
  if (d <? 0)%Z then firstn (Z.to_nat (Z.of_nat (length l) + d)) l else firstn (Z.to_nat d) l.
(** src/meshio/netgen/_netgen.py:264-269; [dim] is None if the dimension has not been read *)
Definition read_ng_points (dim : option Z) (n : Z) (ls : list string) : result (ng_array fl * list string) :=
  if (0 <? n)%Z then
    let r := gen_rows (Z.to_nat n) ls in
    if even_rows (fst r) then
      do rows <- mapM parse_floats (fst r);
      do d <- of_option UnboundLocalError dim;
      if Z.eqb d 3 then Ok (squeeze rows, snd r)
      else match squeeze rows with
           | Flat _ => Err IndexError
           | Rows rs => Ok (Rows (map (slice_to d) rs), snd r)
           end
    else Err ValueError
  else Ok (Flat [], ls).
(** src/meshio/netgen/_netgen.py:289-297 *)
Fixpoint read_ng_names (edim : Z) (n : nat) (fd : dict (Z * Z)) (ls : list string) : result (dict (Z * Z) * list string) :=
  match n with
  | O => Ok (fd, ls)
  | S n' =>
      match split_ws (line1 ls) with
      | [i; name] => do k <- of_option ValueError (parse_Z i); read_ng_names edim n' (dset name (k, edim) fd) (tl ls)
      | _ => read_ng_names edim n' fd (tl ls)
      end
  end.
(** src/meshio/netgen/_netgen.py:299-311: integers, in rows of [w]; too few or too many are a ValueError *)
Definition read_ng_ints (rows w : nat) (n : nat) (ls : list string) : result (list Z * list string) :=
  let r := gen_rows rows ls in
  if even_rows (fst r) then
    do x <- mapM parse_ints (fst r);
    if Nat.eqb (length (concat x)) (n * w) then Ok (concat x, snd r) else Err ValueError
  else Err ValueError.

(** What the reader has collected: dimension, points, cells with type and index, field data, identifications, their types, and
    whether edges take two lines. *)
Record ng_state : Type := NgState {
  gs_dim : option Z; gs_points : ng_array fl; gs_cells : list (string * cell * Z); gs_field : dict (Z * Z);
  gs_ids : option (list (list Z)); gs_types : option (list Z); gs_two : bool }.

(** src/meshio/netgen/_netgen.py:255-322: one section; [line] is its title and [ls] what follows *)
Definition ng_read_section (st : ng_state) (line : string) (ls : list string) : result (ng_state * list string) :=
  let '(NgState dim pts cs fd ids types two) := st in
  if String.eqb line "dimension" then
    do d <- int_line (line1 ls); Ok (NgState (Some d) pts cs fd ids types two, tl ls)
  else if String.eqb line "geomtype" then
    do _ <- int_line (line1 ls); Ok (st, tl ls)
  else if String.eqb line "points" then
    do n <- int_line (line1 ls);
    if (0 <? n)%Z then do r <- read_ng_points dim n (tl ls); Ok (NgState dim (fst r) cs fd ids types two, snd r)
    else Ok (st, tl ls)
  else match ng_kind line with
  | Some (k, pi0, at_) =>
      do n <- int_line (line1 ls);
      do r <- read_ng_cells k pi0 at_ two (Z.to_nat n) (tl ls);
      Ok (NgState dim pts (cs ++ fst r) fd ids types two, snd r)
  | None =>
      if match split_ws line with ["surf1"; "surf2"; "p1"; "p2"] => true | _ => false end then
        Ok (NgState dim pts cs fd ids types true, ls)
      else match dget line netgen_codims with
      | Some c =>
          do d <- of_option UnboundLocalError dim;
          do n <- int_line (line1 ls);
          do r <- read_ng_names (d - c) (Z.to_nat n) fd (tl ls);
          Ok (NgState dim pts cs (fst r) ids types two, snd r)
      | None =>
          if String.eqb line "identifications" then
            do n <- int_line (line1 ls);
            if (0 <? n)%Z then
              do r <- read_ng_ints (Z.to_nat n) 3 (Z.to_nat n) (tl ls);
              Ok (NgState dim pts cs fd (Some (chunks 3 (fst r))) types two, snd r)
            else Ok (st, tl ls)
          else if String.eqb line "identificationtypes" then
            do n <- int_line (line1 ls);
            if (0 <? n)%Z then
              do r <- read_ng_ints 1 1 (Z.to_nat n) (tl ls);
              Ok (NgState dim pts cs fd ids (Some (fst r)) two, snd r)
            else Ok (st, tl ls)
          else if smem line ["face_colours"; "singular_edge_left"; "singular_edge_right"; "singular_face_inside";
                             "singular_face_outside"; "singular_points"] then
            do n <- int_line (line1 ls); Ok (st, skipn (Z.to_nat n) (tl ls))
          else Err RuntimeError
      end
  end.
Fixpoint ng_loop (fuel : nat) (st : ng_state) (ls : list string) : result ng_state :=
  match fuel with
  | O => Err OutOfFuel
  | S fuel' =>
      match ng_next ls with
      | None => Ok st
      | Some (line, rest) =>
          if String.eqb line "endmesh" then Ok st
          else do r <- ng_read_section st line rest; ng_loop fuel' (fst r) (snd r)
      end
  end.
(** src/meshio/netgen/_netgen.py:324-349: the blocks (cells of a type without a dimension are a KeyError in CellBlock), with the
    nodes reordered and counted from zero *)
Definition ng_finish (st : ng_state) : result (ng_out fl) :=
  let bs := fold_left (fun bs tci => snoc_cell bs (fst (fst tci)) (snd (fst tci))) (gs_cells st) [] in
  do bs' <- mapM (fun b =>
    do p <- of_option KeyError (dget (btype b) netgen_to_meshio_pmap);
    do rows <- mapM (fun c => do r <- of_option ValueError (permute p c); Ok (map (fun i => u32 (i - 1)) r)) (bdata b);
    Ok (Block (btype b) rows)) bs;
  do _ <- mapM (fun b => cellblock_dim (btype b)) bs';
  Ok (NgOut (gs_points st) bs' (split_lens (map blen bs) (map snd (gs_cells st))) (gs_field st)
        (option_map (fun i => (i, gs_types st)) (gs_ids st))).
(** src/meshio/netgen/_netgen.py:238-349 [read_buffer].  Every section takes at least one line. *)
Definition read_netgen (ls : list string) : result (ng_out fl) :=
  match ng_next ls with
  | Some (line, rest) =>
      if String.eqb line "mesh3d" then
        do st <- ng_loop (S (length rest)) (NgState None (Flat []) [] [] None None false) rest; ng_finish st
      else Err RuntimeError
  | None => Err RuntimeError
  end.
End Netgen.
