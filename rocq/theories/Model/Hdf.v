(** Models of the readers and writers of src/meshio/hmf/_hmf.py, src/meshio/cgns/_cgns.py and src/meshio/h5m/_h5m.py. *)
From Verif.Lib Require Import Base Text.
From Verif.Model Require Import Core Tables Xdmf Numpy Hdf5.

(** The parts of a mesh that the HDF5-based formats use *)
Record hmesh (F : Type) : Type := HMesh {
  hm_dim : nat; hm_points : list (list F); hm_cells : list block; hm_pd : dict (hval F); hm_cd : dict (list (hval F)) }.
Arguments HMesh {F} _ _ _ _ _.
Arguments hm_dim {F} _.
Arguments hm_points {F} _.
Arguments hm_cells {F} _.
Arguments hm_pd {F} _.
Arguments hm_cd {F} _.

Section Hdf.
Context {F : Type}.

Definition point_array (m : hmesh F) : hval F := HReals (Nda [length (hm_points m); hm_dim m] (concat (hm_points m))).
Definition real_rows (v : hval F) : result (nat * list (list F)) :=
  match v with
  | HReals a => do r <- to_rows a; Ok (nth 1 (nd_shape a) 0, r)
  | HInts _ => Err TypeError
  end.
Definition int_rows (v : hval F) : result (list cell) := match v with HInts a => to_rows a | HReals _ => Err TypeError end.
Definition datasets (d : dict (hval F)) : list (string * h5 F) := map (fun kv => (fst kv, Dataset [] (snd kv))) d.
(** [{name: d[()] for name, d in g.items()}] *)
Definition values (x : h5 F) : result (dict (hval F)) :=
  do its <- h5_items x; mapM (fun kv => do v <- h5_value (snd kv); Ok (fst kv, v)) its.
(** src/meshio/_mesh.py:130-187 [Mesh.__init__] *)
Definition make_mesh (dp : nat * list (list F)) (cs : list (string * list cell)) (pd : dict (hval F)) (cd : dict (list (hval F)))
    : result (hmesh F) :=
  do bs <- make_blocks cs;
  do _ <- check_points (length (snd dp)) pd;
  do _ <- check_cells (map blen bs) (map (fun kv => (fst kv, map Some (snd kv))) cd);
  Ok (HMesh (fst dp) (snd dp) bs pd cd).

(** ** HMF *)
(** src/meshio/hmf/_hmf.py:75-82 [_write_points] *)
Definition hmf_geometry (m : hmesh F) : h5 F := Dataset [("GeometryType", AStr (substring 0 (hm_dim m) "XYZ"))] (point_array m).
(** src/meshio/hmf/_hmf.py:85-94 [_write_cells] *)
Definition hmf_topology (kb : nat * block) : result (string * h5 F) :=
  do ts <- of_option KeyError (dget (btype (snd kb)) meshio_to_xdmf_type);
  do t <- of_option IndexError (nth_error ts 0);
  Ok (("Topology" ++ str_of_nat (fst kb))%string, Dataset [("TopologyType", AStr t)] (HInts (of_rows (bdata (snd kb))))).
(** src/meshio/hmf/_hmf.py:58-72,127-146 [write], [_write_point_data], [_write_cell_data] *)
Definition write_hmf (m : hmesh F) : result (h5 F) :=
  do grid1 <- h5_create "Geometry" (hmf_geometry m) (Group [] []);
  do tops <- mapM hmf_topology (enumerate (hm_cells m));
  do grid2 <- h5_create_all tops grid1;
  do na <- h5_create_all (datasets (hm_pd m)) (Group [] []);
  do grid3 <- h5_create "NodeAttributes" na grid2;
  do raw <- mapM (fun kv => do v <- hv_concat (snd kv); Ok (fst kv, v)) (hm_cd m);
  do ca <- h5_create_all (datasets raw) (Group [] []);
  do grid4 <- h5_create "CellAttributes" ca grid3;
  Ok (Group [("type", AStr "hmf"); ("version", AStr "0.1-alpha")] [("domain", Group [] [("grid", grid4)])]).

(** src/meshio/hmf/_hmf.py:21-43: the loop over the members of the grid.  State: points, cells by type, point data, cell data. *)
Record hmf_state : Type := HmfState {
  hs_points : option (nat * list (list F)); hs_cells : dict (list cell); hs_pd : dict (hval F); hs_cd : dict (hval F) }.
Definition hmf_member (kv : string * h5 F) (s : hmf_state) : result hmf_state :=
  let (key, x) := kv in
  if String.eqb (substring 0 8 key) "Topology" then
    do t <- attr_str x "TopologyType";
    do ct <- of_option KeyError (dget t xdmf_to_meshio_type);
    do v <- h5_value x;
    do rows <- int_rows v;
    Ok (HmfState (hs_points s) (dset ct rows (hs_cells s)) (hs_pd s) (hs_cd s))
  else if String.eqb key "Geometry" then
    do t <- attr_str x "GeometryType";
    if negb (smem t ["X"; "XY"; "XYZ"]) then Err AssertionError else
    do v <- h5_value x;
    do p <- real_rows v;
    Ok (HmfState (Some p) (hs_cells s) (hs_pd s) (hs_cd s))
  else if String.eqb key "CellAttributes" then
    do d <- values x;
    Ok (HmfState (hs_points s) (hs_cells s) (hs_pd s) (dupdate (hs_cd s) d))
  else if negb (String.eqb key "NodeAttributes") then Err AssertionError
  else
    do d <- values x;
    Ok (HmfState (hs_points s) (hs_cells s) (dupdate (hs_pd s) d) (hs_cd s)).
Fixpoint hmf_members (its : list (string * h5 F)) (s : hmf_state) : result hmf_state :=
  match its with
  | [] => Ok s
  | kv :: its' => do s1 <- hmf_member kv s; hmf_members its' s1
  end.
(** src/meshio/hmf/_hmf.py:8-52 [read].  The cells are a dictionary, so that [cell_data_from_raw] (line 45) iterates over the names of
    the types and cuts the data at the lengths of these names.  Simplification: a file without points is refused. *)
Definition read_hmf (f : h5 F) : result (hmesh F) :=
  do ty <- attr_str f "type";
  if negb (String.eqb ty "hmf") then Err AssertionError else
  do ve <- attr_str f "version";
  if negb (String.eqb ve "0.1-alpha") then Err AssertionError else
  do fi <- h5_items f;
  if negb (Nat.eqb (length fi) 1) then Err AssertionError else
  do domain <- h5_get f "domain";
  do di <- h5_items domain;
  if negb (Nat.eqb (length di) 1) then Err AssertionError else
  do grid <- h5_get domain "grid";
  do its <- h5_items grid;
  do s <- hmf_members its (HmfState None [] [] []);
  let cs := butlast (cumsum (map String.length (dkeys (hs_cells s)))) in
  do cd <- mapM (fun kv => do l <- hv_split cs (snd kv); Ok (fst kv, l)) (hs_cd s);
  do p <- of_option TypeError (hs_points s);
  make_mesh p (hs_cells s) (hs_pd s) cd.

(** ** CGNS *)
(** src/meshio/cgns/_cgns.py:44-101 [write]; [mesh.points[:, i]] raises IndexError if there is no such column. *)
Definition coordinate (m : hmesh F) (i : nat) : result (h5 F) :=
  if Nat.leb (hm_dim m) i then Err IndexError
  else Ok (Group [] [(" data", Dataset [] (HReals (Nda [length (hm_points m)] (column i (hm_points m)))))]).
Definition tetra_blocks (m : hmesh F) : list block := filter (fun b => String.eqb (btype b) "tetra") (hm_cells m).
Definition ints (l : list Z) : hval F := HInts (Nda [length l] l).
Definition write_cgns (m : hmesh F) : result (h5 F) :=
  do x <- coordinate m 0;
  do y <- coordinate m 1;
  do z <- coordinate m 2;
  do rnge <- h5_create_all (map (fun b => (" data", Dataset [] (ints [1%Z; Z.of_nat (length (bdata b))]))) (tetra_blocks m)) (Group [] []);
  do conn <- h5_create_all (map (fun b => (" data", Dataset [] (ints (map (fun i => i + 1)%Z (concat (bdata b)))))) (tetra_blocks m)) (Group [] []);
  Ok (Group [] [("Base", Group [] [("Zone1", Group [] [
        ("GridCoordinates", Group [] [("CoordinateX", x); ("CoordinateY", y); ("CoordinateZ", z)]);
        ("GridElements", Group [] [("ElementRange", rnge); ("ElementConnectivity", conn)])])])]).
(** src/meshio/cgns/_cgns.py:14-41 [read] *)
Definition data_of (x : h5 F) (name : string) : result (hval F) := do g <- h5_get x name; do d <- h5_get g " data"; h5_value d.
Definition real_list (v : hval F) : result (list F) := match v with HReals (Nda [_] l) => Ok l | _ => Err ValueError end.
Fixpoint stack3 (x y z : list F) : result (list (list F)) :=
  match x, y, z with
  | [], [], [] => Ok []
  | a :: x', b :: y', c :: z' => do r <- stack3 x' y' z'; Ok ([a; b; c] :: r)
  | _, _, _ => Err ValueError
  end.
Definition read_cgns (f : h5 F) : result (hmesh F) :=
  if negb (h5_mem f "Base") then Err ReadError else
  do base <- h5_get f "Base";
  if negb (h5_mem base "Zone1") then Err ReadError else
  do zone <- h5_get base "Zone1";
  do co <- h5_get zone "GridCoordinates";
  do x <- bind (data_of co "CoordinateX") real_list;
  do y <- bind (data_of co "CoordinateY") real_list;
  do z <- bind (data_of co "CoordinateZ") real_list;
  do pts <- stack3 x y z;
  do el <- h5_get zone "GridElements";
  do r <- data_of el "ElementRange";
  do imax <- match r with HInts (Nda [_] [_; b]) => Ok b | _ => Err ValueError end;
  do c <- data_of el "ElementConnectivity";
  do a <- match c with HInts a => reshape_rest (Z.to_nat imax) a | HReals _ => Err TypeError end;
  if negb (Nat.eqb (nth 1 (nd_shape a) 0) 4) then Err ReadError else
  do rows <- to_rows a;
  make_mesh (3, pts) [("tetra", map (map (fun i => i - 1)%Z) rows)] [] [].

(** ** H5M *)
(** src/meshio/h5m/_h5m.py:134-190: the point data.  An n x k array is stored as n k-tuples, which h5py reads as an n x k array.
    The type of the global tag (line 174) is left out. *)
Definition h5m_tags (n : nat) (ids : bool) (pd : dict (hval F)) : dict (hval F) :=
  if ids && negb (dmem "GLOBAL_ID" pd) then pd ++ [("GLOBAL_ID", ints (map Z.of_nat (seq 1 n)))] else pd.
Definition h5m_tag (kv : string * hval F) : result (string * hval F) :=
  match hv_shape (snd kv) with [_] | [_; _] => Ok kv | _ => Err ValueError end.
(** src/meshio/h5m/_h5m.py:226-249: the elements; [id] is the next global id *)
Fixpoint h5m_elements (bs : list block) (id : nat) (g : h5 F) : result (h5 F * nat) :=
  match bs with
  | [] => Ok (g, id)
  | b :: bs' =>
      match dget (btype b) meshio_to_h5m_type with
      | None => h5m_elements bs' id g
      | Some t =>
          let conn := Dataset [("start_id", AInt (Z.of_nat id))] (HInts (of_rows (map (map (fun i => i + 1)%Z) (bdata b)))) in
          do g1 <- h5_create t (Group [] [("connectivity", conn)]) g;
          h5m_elements bs' (id + length (bdata b)) g1
      end
  end.
(** src/meshio/h5m/_h5m.py:116-268 [write].  Cell data (lines 251-262): the code treats the list of arrays of a name as a dictionary;
    [elem_group] is unbound if no block was written. *)
Definition write_h5m (ids : bool) (m : hmesh F) : result (h5 F) :=
  let n := length (hm_points m) in
  do tags <- mapM h5m_tag (h5m_tags n ids (hm_pd m));
  do tg <- h5_create_all (datasets tags) (Group [] []);
  do gt <- h5_create_all (map (fun kv => (fst kv, Group [("class", AInt 2)] [])) tags) (Group [] []);
  let coords := Dataset [("start_id", AInt 1)] (point_array m) in
  let nodes := Group [] (("coordinates", coords) :: match tags with [] => [] | _ => [("tags", tg)] end) in
  do e <- h5m_elements (hm_cells m) (1 + n) (Group [] []);
  if existsb (fun kv => negb (Nat.eqb (length (snd kv)) 0)) (hm_cd m) then
    Err (if existsb (fun b => dmem (btype b) meshio_to_h5m_type) (hm_cells m) then AttributeError else UnboundLocalError)
  else
  Ok (Group [] [("tstt", Group [("max_id", AInt (Z.of_nat (snd e)))]
        [("nodes", nodes); ("tags", gt); ("elements", fst e); ("sets", Group [] [("tags", Group [] [])])])]).
(** src/meshio/h5m/_h5m.py:21-113 [read] *)
Definition h5m_block (kv : string * h5 F) : result (string * list cell) :=
  do t <- of_option KeyError (dget (fst kv) h5m_to_meshio_type);
  do conn <- h5_get (snd kv) "connectivity";
  do v <- h5_value conn;
  do rows <- int_rows v;
  Ok (t, map (map (fun i => i - 1)%Z) rows).
Definition read_h5m (f : h5 F) : result (hmesh F) :=
  do dset <- h5_get f "tstt";
  do nodes <- h5_get dset "nodes";
  do co <- h5_get nodes "coordinates";
  do v <- h5_value co;
  do p <- real_rows v;
  do pd <- (if h5_mem nodes "tags" then bind (h5_get nodes "tags") values else Ok []);
  do el <- h5_get dset "elements";
  do its <- h5_items el;
  do cs <- mapM h5m_block its;
  make_mesh p cs pd [].
End Hdf.
