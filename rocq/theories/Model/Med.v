(** Model of src/meshio/med/_med.py.  Attributes with constant values that the reader does not use are left out. *)
From Verif.Lib Require Import Base Text Lines.
From Verif.Model Require Import Core Tables Abaqus Numpy Hdf5 Hdf.

(** A mesh with the parts that belong to MED files: the names of the components of the fields ([field_data["med:nom"]]), and the
    attributes [point_tags] and [cell_tags] (names of the sets by family number), which exist only on meshes read from MED files. *)
Record med_mesh (F : Type) : Type := MedMesh {
  mm_mesh : hmesh F; mm_nom : option (list (list string));
  mm_point_tags : option (zdict (list string)); mm_cell_tags : option (zdict (list string)) }.
Arguments MedMesh {F} _ _ _ _.
Arguments mm_mesh {F} _.
Arguments mm_nom {F} _.
Arguments mm_point_tags {F} _.
Arguments mm_cell_tags {F} _.

Section Med.
Context {F : Type}.
Definition nat_attr (n : nat) : hattr := AInt (Z.of_nat n).

(** ** Writing *)
Definition med_profile : string := "MED_NO_PROFILE_INTERNAL".
(** src/meshio/med/_med.py:256-268: the points and their tags *)
Definition med_nodes (m : hmesh F) : h5 F :=
  Group [("PFL", AStr med_profile)]
    (("COO", Dataset [("NBR", nat_attr (length (hm_points m)))] (hv_flatten_f (point_array m)))
     :: match dget "point_tags" (hm_pd m) with
        | Some v => [("FAM", Dataset [("NBR", nat_attr (length (hm_points m)))] v)]
        | None => []
        end).
(** src/meshio/med/_med.py:271-295: the cells and their tags *)
Definition med_block (cd : dict (list (hval F))) (kb : nat * block) : result (string * h5 F) :=
  let (k, b) := kb in
  do t <- of_option KeyError (dget (btype b) meshio_to_med_type);
  let nod := of_rows (bdata b) in
  do fam <- match dget "cell_tags" cd with
            | Some l => do v <- of_option IndexError (nth_error l k);
                        Ok [("FAM", Dataset [("NBR", nat_attr (length (bdata b)))] v)]
            | None => Ok []
            end;
  Ok (t, Group [("PFL", AStr med_profile)]
           (("NOD", Dataset [("NBR", nat_attr (length (bdata b)))] (HInts (let a := flatten_f nod in Nda (nd_shape a) (map (fun i => i + 1)%Z (nd_flat a)))))
            :: fam)).
(** src/meshio/med/_med.py:434-455 [_family_name], [_write_families].  A name of more than 80 characters cannot be stored. *)
Definition family_name (id : Z) (names : list string) : string := ("FAM_" ++ str_of_Z id ++ "_" ++ join "_" names)%string.
Fixpoint codes (s : string) : list Z := match s with EmptyString => [] | String a s' => Z.of_N (N_of_ascii a) :: codes s' end.
Definition name_80 (s : string) : result (list Z) :=
  if Nat.leb (String.length s) 80 then Ok (codes s ++ repeat 0%Z (80 - String.length s)) else Err TypeError.
Definition med_family (idn : Z * list string) : result (string * h5 F) :=
  do rows <- mapM name_80 (snd idn);
  Ok (family_name (fst idn) (snd idn),
      Group [("NUM", AInt (fst idn))]
        [("GRO", Group [("NBR", nat_attr (length (snd idn)))] [("NOM", Dataset [] (HInts (Nda [length (snd idn); 80] (concat rows))))])]).
Definition med_families (which : string) (tags : option (zdict (list string))) (g : h5 F) : result (h5 F) :=
  match tags with
  | None | Some [] => Ok g
  | Some l => do fs <- mapM med_family l; do x <- h5_create_all fs (Group [] []); h5_create which x g
  end.

(** src/meshio/med/_med.py:363-425 [_write_data] *)
Inductive support : Type := NOEU | ELNO | ELEM | ELGA.
Definition pad16 (s : string) : string := (s ++ String.concat "" (repeat " " (16 - String.length s)))%string.
Definition med_step : string := "0000000000000000000100000000000000000001".
Definition med_new_field (nom : list string) : h5 F :=
  Group [("NOM", AStr (match nom with [] => pad16 "" | _ => String.concat "" (map pad16 nom) end))] [(med_step, Group [] [])].
Definition supp_name (s : support) (t : string) : string :=
  match s with NOEU => "NOE" | ELNO => ("NOE." ++ t)%string | _ => ("MAI." ++ t)%string end.
Definition med_profile_group (s : support) (v : hval F) : h5 F :=
  Group [("PFL", AStr med_profile)]
    [(med_profile, Group [("NBR", nat_attr (nth 0 (hv_shape v) 0)); ("NGA", nat_attr (match s with ELNO => nth 1 (hv_shape v) 0 | _ => 1 end))]
                     [("CO", Dataset [] (hv_flatten_f v))])].
(** The last of the time steps in the order of their names (line 403) gets the new member. *)
Definition med_add (s : support) (t : string) (v : hval F) (field : h5 F) : result (h5 F) :=
  match field with
  | Group a its =>
      do ts <- of_option IndexError (nth_error (rev (sorted_items its)) 0);
      do x <- h5_create (supp_name s t) (med_profile_group s v) (snd ts);
      Ok (Group a (dset (fst ts) x its))
  | Dataset _ _ => Err AttributeError
  end.
Definition write_data (nom : list string) (name : string) (s : support) (t : string) (v : hval F) (fields : h5 F) : result (h5 F) :=
  match s with
  | ELGA => Ok fields
  | _ =>
      edit (split_char "/" name)
        (fun o => med_add s t v (match o with None => med_new_field nom | Some x => x end)) (Some fields)
  end.
(** src/meshio/med/_med.py:321-360: nodal data and cell data.  [names]: the list [field_data["med:nom"]] (empty if there is none);
    [idx]: the position in it. *)
Definition nom_at (names : list (list string)) (idx : nat) : result (list string) :=
  match names with [] => Ok [] | _ => of_option IndexError (nth_error names idx) end.
Fixpoint write_point_fields (names : list (list string)) (pd : dict (hval F)) (idx : nat) (fields : h5 F) : result (h5 F * nat) :=
  match pd with
  | [] => Ok (fields, idx)
  | (name, v) :: pd' =>
      if String.eqb name "point_tags" then write_point_fields names pd' idx fields else
      do nom <- nom_at names idx;
      do f1 <- write_data nom name NOEU "" v fields;
      write_point_fields names pd' (S idx) f1
  end.
Definition support_of (t : string) (v : hval F) : result support :=
  if Nat.leb (length (hv_shape v)) 2 then Ok ELEM else
  do n <- of_option KeyError (dget t num_nodes_per_cell);
  Ok (if Nat.eqb (nth 1 (hv_shape v) 0) n then ELNO else ELGA).
Fixpoint write_cell_field (nom : result (list string)) (name : string) (bs : list block) (data : list (hval F)) (fields : h5 F) : result (h5 F) :=
  match bs, data with
  | b :: bs', v :: data' =>
      do t <- of_option KeyError (dget (btype b) meshio_to_med_type);
      do s <- support_of (btype b) v;
      do n <- nom;
      do f1 <- write_data n name s t v fields;
      write_cell_field nom name bs' data' f1
  | _, _ => Ok fields
  end.
Fixpoint write_cell_fields (names : list (list string)) (bs : list block) (cd : dict (list (hval F))) (idx : nat) (fields : h5 F) : result (h5 F) :=
  match cd with
  | [] => Ok fields
  | (name, data) :: cd' =>
      if String.eqb name "cell_tags" then write_cell_fields names bs cd' idx fields else
      do f1 <- write_cell_field (nom_at names idx) name bs data fields;
      write_cell_fields names bs cd' (S idx) f1
  end.
(** src/meshio/med/_med.py:213-360 [write] *)
Definition mesh_step : string := "-0000000000000000001-0000000000000000001".
Definition write_med (mm : med_mesh F) : result (h5 F) :=
  let m := mm_mesh mm in
  let types := map btype (hm_cells m) in
  if negb (Nat.eqb (length types) (length (nodup string_dec types))) then Err WriteError else
  do bl <- mapM (med_block (hm_cd m)) (enumerate (hm_cells m));
  do mai <- h5_create_all bl (Group [] []);
  let step := Group [] [("NOE", med_nodes m); ("MAI", mai)] in
  do fam1 <- med_families "NOEUD" (mm_point_tags mm) (Group [] [("FAMILLE_ZERO", Group [("NUM", AInt 0)] [])]);
  do fam2 <- med_families "ELEME" (mm_cell_tags mm) fam1;
  let names := match mm_nom mm with Some l => l | None => [] end in
  do fi <- write_point_fields names (hm_pd m) 0 (Group [] []);
  do cha <- write_cell_fields names (hm_cells m) (hm_cd m) (snd fi) (fst fi);
  Ok (Group [] [("ENS_MAA", Group [] [("mesh", Group [("ESP", nat_attr (hm_dim m))] [(mesh_step, step)])]);
                ("FAS", Group [] [("mesh", fam2)]); ("CHA", cha)]).

(** ** Reading *)
(** src/meshio/med/_med.py:199-210 [_read_families]: [chr(x)] for every number, then [strip] and removal of trailing zero characters *)
Definition chars (l : list Z) : string := fold_right (fun z s => String (ascii_of_N (Z.to_N z)) s) "" l.
Definition rstrip_null (s : string) : string := rstrip_char Ascii.zero s.
Definition read_family (x : h5 F) : result (Z * list string) :=
  do id <- attr_int x "NUM";
  do gro <- h5_get x "GRO";
  do n <- attr_int gro "NBR";
  do nom <- h5_get gro "NOM";
  do v <- h5_value nom;
  do rows <- int_rows v;
  do rs <- mapM (fun i => of_option IndexError (nth_error rows i)) (seq 0 (Z.to_nat n));
  Ok (id, map (fun r => rstrip_null (strip (chars r))) rs).
Definition read_families (x : h5 F) : result (zdict (list string)) :=
  do its <- h5_items x;
  do l <- mapM (fun kv => read_family (snd kv)) its;
  Ok (fold_left (fun d kv => zset (fst kv) (snd kv) d) l []).

(** src/meshio/med/_med.py:156-196 [_read_nodal_data], [_read_cell_data].  Simplification: only the default profile. *)
Definition squeeze_last {A} (a : nda A) : nda A := match nd_shape a with [n; 1] => Nda [n] (nd_flat a) | _ => a end.
Definition nodal_array {A} (n : nat) (a : nda A) : result (nda A) := do b <- reshape_f_rest [n] a; Ok (squeeze_last b).
Definition cell_array {A} (n g : nat) (a : nda A) : result (nda A) :=
  do b <- reshape_f_rest [n; g] a;
  Ok (if Nat.eqb g 1 then squeeze_last (Nda [n; nth 2 (nd_shape b) 0] (nd_flat b)) else b).
Definition profile_of (x : h5 F) : result (h5 F) :=
  do p <- attr_str x "PFL"; if String.eqb p med_profile then h5_get x p else Err KeyError.
Definition read_nodal (x : h5 F) : result (hval F) :=
  do p <- profile_of x;
  do n <- attr_int p "NBR";
  do co <- h5_get p "CO";
  do v <- h5_value co;
  hv_map (fun A => nodal_array (Z.to_nat n)) v.
Definition read_cellwise (x : h5 F) : result (hval F) :=
  do p <- profile_of x;
  do n <- attr_int p "NBR";
  do g <- attr_int p "NGA";
  do co <- h5_get p "CO";
  do v <- h5_value co;
  hv_map (fun A => cell_array (Z.to_nat n) (Z.to_nat g)) v.
(** src/meshio/med/_med.py:123-153 [_read_data].  Simplification: fields with several time steps are refused (the names of their data
    contain a formatted time). *)
Definition after_dot (s : string) : string := match split_char "." s with _ :: (_ :: _) as l => String.concat "." l | _ => "" end.
Record med_data : Type := MedData {
  md_pd : dict (hval F); md_cd : dict (list (option (hval F))); md_nom : option (list (list string)) }.
Definition read_support (types : list string) (name : string) (kv : string * h5 F) (d : med_data) : result med_data :=
  if String.eqb (fst kv) "NOE" then
    do v <- read_nodal (snd kv); Ok (MedData (dset name v (md_pd d)) (md_cd d) (md_nom d))
  else
    do t <- of_option KeyError (dget (after_dot (fst kv)) med_to_meshio_type);
    if negb (smem t types) then Err AssertionError else
    do v <- read_cellwise (snd kv);
    let old := match dget name (md_cd d) with Some l => l | None => repeat None (length types) end in
    let i := hd 0 (where_ (String.eqb t) types) in
    Ok (MedData (md_pd d) (dset name (upd i (Some v) old) (md_cd d)) (md_nom d)).
Fixpoint read_supports (types : list string) (name : string) (its : list (string * h5 F)) (d : med_data) : result med_data :=
  match its with
  | [] => Ok d
  | kv :: its' => do d1 <- read_support types name kv d; read_supports types name its' d1
  end.
Definition read_field (types : list string) (kv : string * h5 F) (d : med_data) : result med_data :=
  let nom := match dget "NOM" (h5_attrs (snd kv)) with
             | Some (AStr s) => Some (match md_nom d with Some l => l | None => [] end ++ [split_ws s])
             | _ => md_nom d
             end in
  do ts <- h5_items (snd kv);
  match ts with
  | [(_, step)] =>
      do its <- h5_items step;
      read_supports types (fst kv) its (MedData (md_pd d) (md_cd d) nom)
  | _ => Err RuntimeError
  end.
Fixpoint read_fields (types : list string) (its : list (string * h5 F)) (d : med_data) : result med_data :=
  match its with
  | [] => Ok d
  | kv :: its' => do d1 <- read_field types kv d; read_fields types its' d1
  end.

(** src/meshio/med/_med.py:81-98: one group of cells; the tags are collected in the order of the groups *)
Definition read_med_block (kv : string * h5 F) : result (string * list cell * option (hval F)) :=
  do t <- of_option KeyError (dget (fst kv) med_to_meshio_type);
  do nod <- h5_get (snd kv) "NOD";
  do n <- attr_int nod "NBR";
  do v <- h5_value nod;
  do a <- match v with HInts a => reshape_f_rest [Z.to_nat n] a | HReals _ => Err TypeError end;
  do rows <- to_rows a;
  do tags <- (if h5_mem (snd kv) "FAM" then do x <- h5_get (snd kv) "FAM"; do w <- h5_value x; Ok (Some w) else Ok None);
  Ok (t, map (map (fun i => i - 1)%Z) rows, tags).
(** src/meshio/med/_med.py:35-120 [read] *)
Definition read_med (f : h5 F) : result (med_mesh F) :=
  do ens <- h5_get f "ENS_MAA";
  do ms <- h5_items ens;
  match ms with
  | [(mesh_name, mesh0)] =>
      do dim <- attr_int mesh0 "ESP";
      do mesh <- (if h5_mem mesh0 "NOE" then Ok mesh0 else
                  do ts <- h5_items mesh0; match ts with [(_, x)] => Ok x | _ => Err ReadError end);
      do noe <- h5_get mesh "NOE";
      do coo <- h5_get noe "COO";
      do n <- attr_int coo "NBR";
      do v <- h5_value coo;
      do a <- hv_map (fun A => reshape_f [Z.to_nat n; Z.to_nat dim]) v;
      do pts <- real_rows a;
      do pd <- (if h5_mem noe "FAM" then do x <- h5_get noe "FAM"; do w <- h5_value x; Ok [("point_tags", w)] else Ok []);
      do fas <- (if h5_mem mesh "FAS" then h5_get mesh "FAS" else do fa <- h5_get f "FAS"; h5_get fa mesh_name);
      do ptags <- (if h5_mem fas "NOEUD" then bind (h5_get fas "NOEUD") read_families else Ok []);
      do mai <- h5_get mesh "MAI";
      do its <- h5_items mai;
      do bl <- mapM read_med_block its;
      let cells := map fst bl in
      let types := map fst cells in
      let tags := flat_map (fun x => match snd x with Some w => [w] | None => [] end) bl in
      let cd := match tags with [] => [] | _ => [("cell_tags", map Some tags)] end in
      do ctags <- (if h5_mem fas "ELEME" then bind (h5_get fas "ELEME") read_families else Ok []);
      do d <- (if h5_mem f "CHA" then do cha <- h5_get f "CHA"; do fi <- h5_items cha; read_fields types fi (MedData pd cd None)
               else Ok (MedData pd cd None));
      do bs <- make_blocks cells;
      do _ <- check_points (length (snd pts)) (md_pd d);
      do _ <- check_cells (map blen bs) (md_cd d);
      do cd' <- mapM (fun kv => do l <- mapM (of_option TypeError) (snd kv); Ok (fst kv, l)) (md_cd d);
      Ok (MedMesh (HMesh (fst pts) (snd pts) bs (md_pd d) cd') (md_nom d) (Some ptags) (Some ctags))
  | _ => Err ReadError
  end.
End Med.
