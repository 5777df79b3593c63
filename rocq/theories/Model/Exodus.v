(** Model of the grouping of variables in src/meshio/exodus/_exodus.py. *)
From Verif.Lib Require Import Base.
From Verif.Model Require Import Core.

(** [names.index(s)], None for a ValueError *)
Fixpoint index_of (s : string) (names : list string) : option nat :=
  match names with
  | [] => None
  | x :: l => if String.eqb x s then Some 0 else option_map S (index_of s l)
  end.

(** [name[:-n]] and [name[-n:]] *)
Definition cut_end (n : nat) (s : string) : string := substring 0 (String.length s - n) s.
Definition tail_end (n : nat) (s : string) : string :=
  substring (String.length s - n) (Nat.min n (String.length s)) s.

(** The truth value of an index or None: zero counts as false. *)
Definition truthy (o : option nat) : option nat :=
  match o with Some 0 => None | _ => o end.

(** The three lists and the flags of src/meshio/exodus/_exodus.py:191-245. *)
Record cats : Type := Cats {
  c_single : list (string * nat);
  c_double : list (string * nat * nat);
  c_triple : list (string * nat * nat * nat);
  c_used : list bool }.

Definition add_single (c : cats) (name : string) (k : nat) : cats :=
  Cats (c_single c ++ [(name, k)]) (c_double c) (c_triple c) (upd k true (c_used c)).

(** src/meshio/exodus/_exodus.py:199-240: one pass of the loop over [k]; [name[-1]] of an
    empty name is an IndexError. *)
Definition cat_step (names : list string) (k : nat) (c : cats) : result cats :=
  if nth k (c_used c) false then Ok c
  else
    let name := nth k names EmptyString in
    if String.eqb name EmptyString then Err IndexError
    else if String.eqb (tail_end 1 name) "X"
    then
      let stem := cut_end 1 name in
      match truthy (index_of (stem ++ "Y")%string names), truthy (index_of (stem ++ "Z")%string names) with
      | Some iy, Some iz =>
          Ok (Cats (c_single c) (c_double c) (c_triple c ++ [(stem, k, iy, iz)])
                (upd iz true (upd iy true (upd k true (c_used c)))))
      | _, _ => Ok (add_single c name k)
      end
    else if String.eqb (tail_end 2 name) "_R"
    then
      let stem := cut_end 2 name in
      match truthy (index_of (stem ++ "_Z")%string names) with
      | Some iz =>
          Ok (Cats (c_single c) (c_double c ++ [(stem, k, iz)]) (c_triple c)
                (upd iz true (upd k true (c_used c))))
      | None => Ok (add_single c name k)
      end
    else Ok (add_single c name k).

Fixpoint cat_loop (names : list string) (ks : list nat) (c : cats) : result cats :=
  match ks with
  | [] => Ok c
  | k :: ks' => do c' <- cat_step names k c; cat_loop names ks' c'
  end.

(** src/meshio/exodus/_exodus.py:191-245 [categorize] *)
Definition categorize (names : list string) : result cats :=
  do c <- cat_loop names (seq 0 (length names)) (Cats [] [] [] (repeat false (length names)));
  if forallb (fun b => b) (c_used c) then Ok c else Err ReadError.

(** ** Files *)
From Verif.Lib Require Import Text.
From Verif.Model Require Import Abaqus.

(** src/meshio/exodus/_exodus.py:20-65 [exodus_to_meshio_type] *)
Definition exodus_to_meshio_type : dict string := [
  ("SPHERE", "vertex"); ("BEAM", "line"); ("BEAM2", "line"); ("BEAM3", "line3"); ("BAR2", "line");
  ("SHELL", "quad"); ("SHELL4", "quad"); ("SHELL8", "quad8"); ("SHELL9", "quad9"); ("QUAD", "quad"); ("QUAD4", "quad");
  ("QUAD5", "quad5"); ("QUAD8", "quad8"); ("QUAD9", "quad9");
  ("TRI", "triangle"); ("TRIANGLE", "triangle"); ("TRI3", "triangle"); ("TRI6", "triangle6"); ("TRI7", "triangle7");
  ("HEX", "hexahedron"); ("HEXAHEDRON", "hexahedron"); ("HEX8", "hexahedron"); ("HEX9", "hexahedron9");
  ("HEX20", "hexahedron20"); ("HEX27", "hexahedron27");
  ("TETRA", "tetra"); ("TETRA4", "tetra4"); ("TET4", "tetra4"); ("TETRA8", "tetra8"); ("TETRA10", "tetra10");
  ("TETRA14", "tetra14"); ("PYRAMID", "pyramid"); ("WEDGE", "wedge") ].
(** src/meshio/exodus/_exodus.py:66 [meshio_to_exodus_type]: the last of several keys wins. *)
Definition meshio_to_exodus_type : dict string := rev (map (fun kv => (snd kv, fst kv)) exodus_to_meshio_type).

Section File.
Context {F : Type} (zero : F).

(** A data array with one value or a row of values per point. *)
Inductive pval : Type :=
| P1 (l : list F)
| P2 (rows : list (list F)).

(** A netCDF variable, as far as the reader looks at it. Character arrays are lists of names:
    unset characters of a row read as empty strings, so joining the row gives the name back
    (names are taken to be ASCII without zero bytes). *)
Inductive nc_var : Type :=
| NcConn (elem_type : string) (rows : list cell)   (* connectivity with the attribute elem_type *)
| NcMat (rows : list (list F))                     (* coord *)
| NcVec (l : list F)                               (* coordx, coordy, coordz *)
| NcNames (l : list string)                        (* name_nod_var, name_elem_var, ns_names *)
| NcNod (steps : list pval)                        (* vals_nod_var..., one entry per time step *)
| NcElem (steps : list (list F))                   (* vals_elem_var... *)
| NcIds (l : list Z)                               (* node_ns..., eb_prop1, ns_prop1 *)
| NcOther.                                         (* time_whole, coor_names *)

(** A netCDF file: the dimension num_nodes and the variables in the order of their creation. *)
Record nc_file : Type := Nc { nc_nodes : nat; nc_vars : list (string * nc_var) }.

(** The mesh given to the writer; cell data are not looked at (the writer ignores them). *)
Record ex_in : Type := ExIn {
  ei_dim : nat;
  ei_points : list (list F);
  ei_cells : list block;
  ei_pd : dict pval;
  ei_sets : dict (list Z) }.
Record ex_out : Type := ExOut {
  eo_points : list (list F);
  eo_cells : list block;
  eo_pd : dict pval;
  eo_cd : dict (list (list F));
  eo_sets : dict (list Z) }.

(** [a.T] for an array whose rows have [w] entries *)
Definition transpose (w : nat) (a : list (list F)) : list (list F) :=
  map (fun j => map (fun r => nth j r zero) a) (seq 0 w).

(** The names of numbered variables count from one. *)
Definition numbered (s : string) (k : nat) : string := (s ++ str_of_nat (S k))%string.

(** Setting the characters of a name one by one; the dimension len_string is 33. *)
Definition put_name (s : string) : result string :=
  if Nat.leb (String.length s) 33 then Ok s else Err IndexError.

(** src/meshio/exodus/_exodus.py:306-320: one block *)
Definition connect_var (kb : nat * block) : result (string * nc_var) :=
  do t <- of_option KeyError (dget (btype (snd kb)) meshio_to_exodus_type);
  Ok (numbered "connect" (fst kb), NcConn t (map (map (fun i => (i + 1)%Z)) (bdata (snd kb)))).

(** src/meshio/exodus/_exodus.py:265-370 [write]. Simplifications: dtypes are supported ones;
    global attributes and dimensions other than num_nodes are left out. *)
Definition write_exodus (m : ex_in) : result nc_file :=
  if Nat.ltb (ei_dim m) 2 then Err IndexError
  else
    do conn <- mapM connect_var (enumerate (ei_cells m));
    do names <- mapM put_name (dkeys (ei_pd m));
    do snames <- mapM put_name (dkeys (ei_sets m));
    Ok (Nc (length (ei_points m))
      ([("time_whole", NcOther); ("coor_names", NcOther);
        ("coord", NcMat (transpose (ei_dim m) (ei_points m)));
        ("eb_prop1", NcIds (map Z.of_nat (seq 0 (length (ei_cells m)))))]
       ++ conn
       ++ match ei_pd m with
          | [] => []
          | _ => ("name_nod_var", NcNames names)
                 :: map (fun kv => (numbered "vals_nod_var" (fst kv), NcNod [snd (snd kv)])) (enumerate (ei_pd m))
          end
       ++ match ei_sets m with
          | [] => []
          | _ => [("ns_prop1", NcIds (map Z.of_nat (seq 0 (length (ei_sets m))))); ("ns_names", NcNames snames)]
                 ++ map (fun kv => (numbered "node_ns" (fst kv), NcIds (map (fun i => (i + 1)%Z) (snd (snd kv)))))
                      (enumerate (ei_sets m))
          end)).

(** The local variables of the reader. *)
Record ex_state : Type := ExState {
  s_points : list (list F);
  s_cells : list block;
  s_pnames : list string;
  s_cnames : list string;
  s_pd : zdict pval;
  s_cd : zdict (zdict (list F));
  s_nsnames : list string;
  s_ns : list (list Z) }.

(** [points[:, j] = value[:]] *)
Definition set_col (j : nat) (vals : list F) (pts : list (list F)) : result (list (list F)) :=
  if Nat.eqb (length vals) (length pts)
  then Ok (map (fun pv => upd j (snd pv) (fst pv)) (combine pts vals))
  else Err ValueError.

(** [key[n:]] *)
Definition drop_str (n : nat) (s : string) : string := substring n (String.length s - n) s.

(** src/meshio/exodus/_exodus.py:131-133: the groups of vals_elem_var(\d+)?(?:eb(\d+))? *)
Fixpoint digits_of (s : string) : string * string :=
  match s with
  | String c s' => match digit_val c with Some _ => let '(d, r) := digits_of s' in (String c d, r) | None => ("", s) end
  | EmptyString => ("", "")
  end.
Definition elem_index (s : string) : Z * Z :=
  let '(d1, r) := digits_of (drop_str 13 s) in
  let g1 := parse_Z d1 in
  let g2 := if startswith r "eb" then parse_Z (fst (digits_of (drop_str 2 r))) else None in
  (match g1 with Some i => i - 1 | None => 0 end, match g2 with Some i => i - 1 | None => 0 end)%Z.

(** src/meshio/exodus/_exodus.py:93-153: one variable. Reading a variable that has another form
    than its name says is a TypeError here (not modelled); [info_records] and [qa_records]
    only give informational text and are skipped. *)
Definition ex_step (st : ex_state) (kv : string * nc_var) : result ex_state :=
  let '(key, v) := kv in
  let '(ExState pts cs pn cn pd cd nn ns) := st in
  if String.eqb key "info_records" || String.eqb key "qa_records" then Ok st
  else if startswith key "connect" then
    match v with
    | NcConn t rows =>
        do ty <- of_option KeyError (dget (upper t) exodus_to_meshio_type);
        Ok (ExState pts (cs ++ [Block ty (map (map (fun i => (i - 1)%Z)) rows)]) pn cn pd cd nn ns)
    | _ => Err TypeError
    end
  else if String.eqb key "coord" then
    match v with NcMat a => Ok (ExState (transpose (length pts) a) cs pn cn pd cd nn ns) | _ => Err TypeError end
  else if String.eqb key "coordx" then
    match v with NcVec l => do p <- set_col 0 l pts; Ok (ExState p cs pn cn pd cd nn ns) | _ => Err TypeError end
  else if String.eqb key "coordy" then
    match v with NcVec l => do p <- set_col 1 l pts; Ok (ExState p cs pn cn pd cd nn ns) | _ => Err TypeError end
  else if String.eqb key "coordz" then
    match v with NcVec l => do p <- set_col 2 l pts; Ok (ExState p cs pn cn pd cd nn ns) | _ => Err TypeError end
  else if String.eqb key "name_nod_var" then
    match v with NcNames l => Ok (ExState pts cs l cn pd cd nn ns) | _ => Err TypeError end
  else if startswith key "vals_nod_var" then
    match v with
    | NcNod steps =>
        do i <- (if Nat.eqb (String.length key) 12 then Ok 0%Z
                 else do z <- of_option ValueError (parse_Z (drop_str 12 key)); Ok (z - 1)%Z);
        do x <- of_option IndexError (nth_error steps 0);
        Ok (ExState pts cs pn cn (zset i x pd) cd nn ns)
    | _ => Err TypeError
    end
  else if String.eqb key "name_elem_var" then
    match v with NcNames l => Ok (ExState pts cs pn l pd cd nn ns) | _ => Err TypeError end
  else if startswith key "vals_elem_var" then
    match v with
    | NcElem steps =>
        let '(i, b) := elem_index key in
        do x <- of_option IndexError (nth_error steps 0);
        let d := match zget i cd with Some d => d | None => [] end in
        Ok (ExState pts cs pn cn pd (zset i (zset b x d) cd) nn ns)
    | _ => Err TypeError
    end
  else if String.eqb key "ns_names" then
    match v with NcNames l => Ok (ExState pts cs pn cn pd cd l ns) | _ => Err TypeError end
  else if startswith key "node_ns" then
    match v with NcIds l => Ok (ExState pts cs pn cn pd cd nn (ns ++ [map (fun i => (i - 1)%Z) l])) | _ => Err TypeError end
  else Ok st.

Fixpoint ex_fold (st : ex_state) (l : list (string * nc_var)) : result ex_state :=
  match l with [] => Ok st | x :: l' => do st' <- ex_step st x; ex_fold st' l' end.

(** [np.column_stack] of one- and two-dimensional arrays: columns side by side *)
Definition rows_of (p : pval) : list (list F) :=
  match p with P1 l => map (fun x => [x]) l | P2 rows => rows end.
Fixpoint column_stack (l : list pval) : result (list (list F)) :=
  match l with
  | [] => Err ValueError
  | [p] => Ok (rows_of p)
  | p :: l' => do r <- column_stack l';
      if Nat.eqb (length (rows_of p)) (length r)
      then Ok (map (fun ab => fst ab ++ snd ab) (combine (rows_of p) r)) else Err ValueError
  end.

(** src/meshio/exodus/_exodus.py:163-169: point data from the groups *)
Definition ex_point_data (pd : zdict pval) (c : cats) : result (dict pval) :=
  let get i := of_option KeyError (zget (Z.of_nat i) pd) in
  do s <- mapM (fun g => do v <- get (snd g); Ok (fst g, v)) (c_single c);
  do d <- mapM (fun g => let '(n, i, j) := g in do a <- get i; do b <- get j; do m <- column_stack [a; b]; Ok (n, P2 m)) (c_double c);
  do t <- mapM (fun g => let '(n, i, j, k) := g in
            do a <- get i; do b <- get j; do c <- get k; do m <- column_stack [a; b; c]; Ok (n, P2 m)) (c_triple c);
  Ok (dupdate [] (s ++ d ++ t)).

(** src/meshio/exodus/_exodus.py:171-179: the concatenated values of every element variable,
    cut at the blocks *)
Fixpoint ex_cell_data (names : list string) (vals : list (list F)) (k : nat) (cs : list block)
    (cd : dict (list (list F))) : dict (list (list F)) :=
  match cs with
  | [] => cd
  | b :: cs' =>
      ex_cell_data names vals (k + blen b) cs'
        (fold_left (fun d nv => dset (fst nv)
                      (match dget (fst nv) d with Some l => l | None => [] end ++ [slice k (k + blen b) (snd nv)]) d)
           (combine names vals) cd)
  end.

(** src/meshio/exodus/_exodus.py:69-188 [read]. Constructing the mesh raises a KeyError for a
    cell type that [CellBlock] does not know; the checks of the lengths of the data are left out. *)
Definition read_exodus (f : nc_file) : result ex_out :=
  do st <- ex_fold (ExState (repeat (repeat zero 3) (nc_nodes f)) [] [] [] [] [] [] []) (nc_vars f);
  let vals := map (fun kv => concat (map snd (snd kv))) (s_cd st) in
  do c <- categorize (s_pnames st);
  do pd <- ex_point_data (s_pd st) c;
  do _ <- mapM (fun b => cellblock_dim (btype b)) (s_cells st);
  Ok (ExOut (s_points st) (s_cells st) pd (ex_cell_data (s_cnames st) vals 0 (s_cells st) [])
        (dupdate [] (combine (s_nsnames st) (s_ns st)))).
End File.
Arguments pval F : clear implicits.
Arguments nc_var F : clear implicits.
Arguments nc_file F : clear implicits.
Arguments ex_in F : clear implicits.
Arguments ex_out F : clear implicits.
Arguments ex_state F : clear implicits.
