(** Model of src/meshio/mdpa/_mdpa.py (Kratos). *)
From Verif.Lib Require Import Base Text Lines.
From Verif.Model Require Import Core Tetgen Snoc.

(** src/meshio/mdpa/_mdpa.py:24-46 [_mdpa_to_meshio_type] *)
Definition mdpa_to_meshio_type : dict string := [
  ("Line2D2", "line"); ("Line3D2", "line"); ("Triangle2D3", "triangle"); ("Triangle3D3", "triangle");
  ("Quadrilateral2D4", "quad"); ("Quadrilateral3D4", "quad"); ("Tetrahedra3D4", "tetra"); ("Hexahedra3D8", "hexahedron");
  ("Prism3D6", "wedge"); ("Line2D3", "line3"); ("Triangle2D6", "triangle6"); ("Triangle3D6", "triangle6");
  ("Quadrilateral2D9", "quad9"); ("Quadrilateral3D9", "quad9"); ("Tetrahedra3D10", "tetra10");
  ("Hexahedra3D27", "hexahedron27"); ("Point2D", "vertex"); ("Point3D", "vertex"); ("Quadrilateral2D8", "quad8");
  ("Quadrilateral3D8", "quad8"); ("Hexahedra3D20", "hexahedron20") ].
(** src/meshio/mdpa/_mdpa.py:48-63 [_meshio_to_mdpa_type] *)
Definition meshio_to_mdpa_type : dict string := [
  ("line", "Line2D2"); ("triangle", "Triangle2D3"); ("quad", "Quadrilateral2D4"); ("tetra", "Tetrahedra3D4");
  ("hexahedron", "Hexahedra3D8"); ("wedge", "Prism3D6"); ("line3", "Line2D3"); ("triangle6", "Triangle2D6");
  ("quad9", "Quadrilateral2D9"); ("tetra10", "Tetrahedra3D10"); ("hexahedron27", "Hexahedra3D27"); ("vertex", "Point2D");
  ("quad8", "Quadrilateral2D8"); ("hexahedron20", "Hexahedra3D20") ].
(** src/meshio/mdpa/_mdpa.py:64 [inverse_num_nodes_per_cell]: the last type with a number of nodes wins. *)
Definition inverse_num_nodes : zdict string := rev (map (fun kv => (Z.of_nat (snd kv), fst kv)) num_nodes_per_cell).
(** src/meshio/mdpa/_mdpa.py:66-88 [local_dimension_types] *)
Definition local_dimension_types : dict nat := [
  ("Line2D2", 1); ("Line3D2", 1); ("Triangle2D3", 2); ("Triangle3D3", 2); ("Quadrilateral2D4", 2); ("Quadrilateral3D4", 2);
  ("Tetrahedra3D4", 3); ("Hexahedra3D8", 3); ("Prism3D6", 3); ("Line2D3", 1); ("Triangle2D6", 2); ("Triangle3D6", 2);
  ("Quadrilateral2D9", 2); ("Quadrilateral3D9", 2); ("Tetrahedra3D10", 3); ("Hexahedra3D27", 3); ("Point2D", 0); ("Point3D", 0);
  ("Quadrilateral2D8", 2); ("Quadrilateral3D8", 2); ("Hexahedra3D20", 3) ].

(** [s.replace(old, new)] *)
Fixpoint replace_from (old new : string) (skip : nat) (s : string) : string :=
  match s with
  | EmptyString => EmptyString
  | String c s' =>
      match skip with
      | S k => replace_from old new k s'
      | O => if String.prefix old s then (new ++ replace_from old new (String.length old - 1) s')%string
             else String c (replace_from old new 0 s')
      end
  end.
Definition replace_str (s old new : string) : string := replace_from old new 0 s.

(** src/meshio/mdpa/_mdpa.py:378-395: the name of a block in the file; [dim3] for three dimensions *)
Definition entity_name (dim3 : bool) (t : string) : result string :=
  do n <- of_option KeyError (dget t meshio_to_mdpa_type);
  Ok (if dim3 then replace_str n "2D" "3D" else replace_str n "3D" "2D").

(** src/meshio/mdpa/_mdpa.py:477-484: two or three dimensions; the loop stops at the first block
    of dimension three (unsupported types after it are a KeyError later) *)
Fixpoint file_dim3 (bs : list block) : result bool :=
  match bs with
  | [] => Ok false
  | b :: bs' =>
      do n <- of_option KeyError (dget (btype b) meshio_to_mdpa_type);
      do d <- of_option KeyError (dget n local_dimension_types);
      if Nat.eqb d 3 then Ok true else file_dim3 bs'
  end.

Record mdpa_mesh (F : Type) : Type := MdpaMesh {
  mm_points : list (list F);
  mm_cells : list block;
  (** names and rows of already printed values: they are written but never read *)
  mm_point_data : dict (list (list string));
  mm_cell_data : dict (list (list string)) }.
Arguments MdpaMesh {F} _ _ _ _.
Arguments mm_points {F} _.
Arguments mm_cells {F} _.
Arguments mm_point_data {F} _.
Arguments mm_cell_data {F} _.

Section Mdpa.
Context {fl : floats}.

(** src/meshio/mdpa/_mdpa.py:363-371 [_write_nodes] *)
Definition node_line (kx : nat * list fl) : result string :=
  match snd kx with
  | x :: y :: z :: _ => Ok (" " ++ row_line (str_of_nat (S (fst kx)) :: map ffmt [x; y; z]))%string
  | _ => Err IndexError
  end.

(** src/meshio/mdpa/_mdpa.py:399-408: one line of a block; there are no tags, so that the number of
    tags, which stands in the place of the property id, is 0 and is followed by two blanks *)
Definition elem_line (ki : nat * cell) : string :=
  (" " ++ str_of_nat (S (fst ki)) ++ " 0  " ++ row_line (map (fun c => str_of_Z (c + 1)) (snd ki)))%string.

(** src/meshio/mdpa/_mdpa.py:374-412 [_write_elements_and_conditions] *)
Fixpoint write_elements (dim3 : bool) (consecutive : nat) (bs : list block) : result (list string) :=
  match bs with
  | [] => Ok []
  | b :: bs' =>
      do n <- entity_name dim3 (btype b);
      do r <- write_elements dim3 (consecutive + blen b) bs';
      Ok ((("Begin Elements " ++ n)%string
           :: map elem_line (combine (seq consecutive (blen b)) (bdata b)))
          ++ ["End Elements"; ""] ++ r)
  end.

(** src/meshio/mdpa/_mdpa.py:415-439 [_write_data] *)
Definition data_lines (tag : string) (nd : string * list (list string)) : list string :=
  [("Begin " ++ tag ++ " " ++ fst nd)%string; ""]
    ++ map (fun kr => row_line (str_of_nat (S (fst kr)) :: snd kr)) (enumerate (snd nd))
    ++ [("End " ++ tag ++ " " ++ fst nd)%string; ""].

(** src/meshio/mdpa/_mdpa.py:442-529 [write]. The reordering of hexahedron20 and hexahedron27 never
    happens: the test compares a string with cell blocks. *)
Definition write_mdpa (m : mdpa_mesh fl) : result (list string) :=
  let pts := map (fun p => if Nat.eqb (length p) 2 then p ++ [fzero] else p) (mm_points m) in
  do dim3 <- file_dim3 (mm_cells m);
  do nodes <- mapM node_line (enumerate pts);
  do elems <- write_elements dim3 0 (mm_cells m);
  Ok (["Begin ModelPartData"; "//  VARIABLE_NAME value"; "End ModelPartData"; ""; "Begin Properties 0"; "End Properties"; "";
       "Begin Nodes"] ++ nodes ++ ["End Nodes"; ""] ++ elems
      ++ flat_map (data_lines "NodalData") (mm_point_data m)
      ++ flat_map (data_lines "ElementalData") (mm_cell_data m)).

(** src/meshio/mdpa/_mdpa.py:108-114: lines up to the one containing End Nodes; a missing end
    makes the code read empty lines forever *)
Fixpoint count_nodes (ls : list string) : result nat :=
  match ls with
  | [] => Err OutOfFuel
  | l :: ls' => if contains "End Nodes" l then Ok 0 else do n <- count_nodes ls'; Ok (S n)
  end.

(** src/meshio/mdpa/_mdpa.py:101-124 [_read_nodes] *)
Definition read_mdpa_nodes (ls : list string) : result (list (list fl) * list string) :=
  do n <- count_nodes ls;
  do r <- of_option ValueError (take_tokens (n * 4) ls);
  do xs <- parse_floats (fst r);
  if String.eqb (strip (line1 (snd r))) "End Nodes"
  then Ok (map (@tl fl) (chunks 4 xs), tl (snd r))
  else Err ReadError.

(** src/meshio/mdpa/_mdpa.py:132-147: the type from the name, the first key that occurs in it *)
Definition entity_type (environ : string) : option string :=
  let find name := option_map snd (List.find (fun kv => contains (fst kv) name) mdpa_to_meshio_type) in
  let rest n := substring n (String.length environ - n) environ in
  if startswith environ "Begin Elements " then find (rest 15)
  else if startswith environ "Begin Conditions " then find (rest 17)
  else None.

(** src/meshio/mdpa/_mdpa.py:149-172: the lines of a block; the property ids are collected in a table
    that the caller drops, so only the access to them is modelled *)
Fixpoint read_elem_lines (t : option string) (bs : list block) (ls : list string) : result (list block * list string * string) :=
  match ls with
  | [] => match t with None => Err KeyError | Some _ => Err IndexError end
  | line :: ls' =>
      if startswith line "End Elements" || startswith line "End Conditions" then Ok (bs, ls', line)
      else
        do data <- parse_ints (split_ws line);
        let n := (Z.of_nat (length data) - 2)%Z in
        do ty <- match t with Some ty => Ok ty | None => of_option KeyError (zget n inverse_num_nodes) end;
        let row := if Z.eqb n 0 then data else skipn 2 data in
        if Z.ltb n 0 then Err IndexError
        else read_elem_lines (Some ty) (snoc_cell bs ty (map (fun i => (i - 1)%Z) row)) ls'
  end.

(** src/meshio/mdpa/_mdpa.py:127-178 [_read_cells] *)
Definition read_mdpa_cells (environ : string) (bs : list block) (ls : list string) : result (list block * list string) :=
  do r <- read_elem_lines (entity_type environ) bs ls;
  let '(bs', rest, line) := r in
  if smem (strip line) ["End Elements"; "End Conditions"] then Ok (bs', rest) else Err ReadError.

Fixpoint mdpa_loop (fuel : nat) (pts : list (list fl)) (bs : list block) (ls : list string) : result (list (list fl) * list block) :=
  match fuel with
  | O => match ls with [] => Ok (pts, bs) | _ => Err OutOfFuel end
  | S fuel' =>
      match ls with
      | [] => Ok (pts, bs)
      | line :: ls' =>
          let environ := strip line in
          if startswith environ "Begin Nodes" then do r <- read_mdpa_nodes ls'; mdpa_loop fuel' (fst r) bs (snd r)
          else if startswith environ "Begin Elements" || startswith environ "Begin Conditions"
          then do r <- read_mdpa_cells environ bs ls'; mdpa_loop fuel' pts (fst r) (snd r)
          else mdpa_loop fuel' pts bs ls'
      end
  end.

(** src/meshio/mdpa/_mdpa.py:276-350 [read_buffer] *)
Definition read_mdpa (ls : list string) : result (list (list fl) * list block) :=
  do r <- mdpa_loop (length ls) [] [] ls;
  do _ <- mapM (fun b => cellblock_dim (btype b)) (snd r);
  Ok r.
End Mdpa.
