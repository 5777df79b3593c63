(** Specification vocabulary for whole legacy VTK files (C67-C69, C81). *)
From Coq Require Import ZArith NArith List String Ascii Bool.
From Verif.Lib Require Import Base Text Lines Bytes File.
From Verif.Model Require Import Core VtkFile.
From Verif.Spec Require Import Core Blocks Vtk.
Import ListNotations.

(** Numbers survive the printing and parsing of numpy, or the conversion to bytes and back.  [fits dt v] says that an
    array of dtype [dt] can hold [v]. *)
Definition ascii_nums {V} (nk : nums V) (fits : string -> V -> Prop) : Prop :=
  forall dt v, fits dt v -> word (n_fmt nk dt v) = true /\ n_parse nk dt (n_fmt nk dt v) = Some v.
Definition binary_nums {V} (nk : nums V) (fits : string -> V -> Prop) : Prop :=
  forall dt v, fits dt v -> length (enc (n_codec nk dt) v) = width_of dt /\ Forall is_byte (enc (n_codec nk dt) v) /\
    dec (n_codec nk dt) (enc (n_codec nk dt) v) = v.

(** Data types with a name in the two versions. *)
Definition known_42 : list string :=
  ["bool"; "uint8"; "int8"; "uint16"; "int16"; "uint32"; "int32"; "uint64"; "int64"; "float32"; "float64"].
Definition known_51 : list string :=
  ["uint8"; "int8"; "uint16"; "int16"; "uint32"; "int32"; "uint64"; "int64"; "float32"; "float64"].
Definition known (v51 : bool) : list string := if v51 then known_51 else known_42.

Definition name_ok (s : string) : Prop := word s = true /\ s <> "METADATA".

Section Spec.
Context {V : Type} (nk : nums V) (fits : string -> V -> Prop).

(** An array with one number, or at least one, for each point: a known type, numbers that fit. *)
Definition array_ok (v51 : bool) (dt : string) (tail : list nat) (rows : list (list V)) : Prop :=
  In dt (known v51) /\ (tail = [] \/ exists k, tail = [S k]) /\
  Forall (fun r => length r = fold_right Nat.mul 1 tail /\ Forall (fits dt) r) rows.

(** Indices that fit into a signed integer of [w] bytes. *)
Definition index_fits (w : nat) (z : Z) : Prop := (- 2 ^ (8 * Z.of_nat w - 1) <= z < 2 ^ (8 * Z.of_nat w - 1))%Z.

(** Meshes that the formats can hold.  [fits dt 0] concerns the added third components. *)
Record vtk_mesh (v51 : bool) (m : vmesh V) : Prop := VtkMesh {
  vk_points_type : In (vm_dtype m) (known v51);
  vk_points : (Forall (fun q => length q = 2) (vm_points m) \/ Forall (fun q => length q = 3) (vm_points m)) /\
    Forall (Forall (fits (vm_dtype m))) (vm_points m);
  vk_zero : forall dt v, fits dt v -> fits dt (n_zero nk);
  vk_index : Forall (fun b => Forall (Forall (index_fits (if v51 then 8 else 4))) (bdata b)) (vm_cells m);
  vk_sizes : Forall (fun b => Forall (fun c => index_fits (if v51 then 8 else 4) (Z.of_nat (length c))) (bdata b)) (vm_cells m);
  vk_total : index_fits 8 (Z.of_nat (length (concat (map snd (all_cells (vm_cells m))))));
  vk_pdata : Forall (fun na => name_ok (fst na) /\ array_ok v51 (va_dtype (snd na)) (va_tail (snd na)) (va_rows (snd na)) /\
                      length (va_rows (snd na)) = length (vm_points m)) (vm_pdata m);
  vk_pnames : NoDup (dkeys (vm_pdata m));
  vk_pnone : vm_pdata m <> [] -> vm_points m <> [];
  vk_cdata : Forall (fun nc => name_ok (fst nc) /\
                      array_ok v51 (vc_dtype (snd nc)) (vc_tail (snd nc)) (concat (vc_rows (snd nc))) /\
                      map (@length _) (vc_rows (snd nc)) = map blen (vm_cells m)) (vm_cdata m);
  vk_cnames : NoDup (dkeys (vm_cdata m));
  vk_cnone : vm_cdata m <> [] -> all_cells (vm_cells m) <> [] }.

(** A third component 0 for two-dimensional points and vectors; columns of width 1 lose their second dimension. *)
Definition in_3d (r : list V) : list V := match r with [x; y] => [x; y; n_zero nk] | _ => r end.
Definition vtk_tail (tail : list nat) : list nat := match tail with [1] => [] | [2] => [3] | _ => tail end.
Definition vtk_row (tail : list nat) (r : list V) : list V := match tail with [2] => in_3d r | _ => r end.
Definition vtk_array (a : varr V) : varr V :=
  VArr (va_dtype a) (vtk_tail (va_tail a)) (map (vtk_row (va_tail a)) (va_rows a)).
(** The data of the cells, divided among blocks [bs] *)
Definition vtk_cdata (bs : list block) (c : vcd V) : vcd V :=
  VCd (vc_dtype c) (vtk_tail (vc_tail c)) (data_for bs (map (vtk_row (vc_tail c)) (concat (vc_rows c)))).

(** The mesh that comes back, with or without cell data. *)
Definition vtk_image (keep : bool) (m : vmesh V) : vmesh V :=
  let bs := regroup (all_cells (vm_cells m)) in
  VMesh (vm_dtype m) (map in_3d (vm_points m)) bs
    (map (fun na => (fst na, vtk_array (snd na))) (vm_pdata m))
    (if keep then map (fun nc => (fst nc, vtk_cdata bs (snd nc))) (vm_cdata m) else []) [].
End Spec.

(** Structured grids: lines, quadrilaterals or hexahedra. *)
Definition box_type (ax : list gridpos) : string :=
  match ax with [_] => "line" | [_; _] => "quad" | _ => "hexahedron" end.
(** [cells] are the boxes of a grid with [nx], [ny], [nz] points along the axes, the first axis running fastest. *)
Definition is_boxes (nx ny nz : nat) (cells : list cell) : Prop :=
  length cells = boxes nx * boxes ny * boxes nz /\
  (forall i j k, i < boxes nx -> j < boxes ny -> k < boxes nz ->
     nth_error cells (i + boxes nx * (j + boxes ny * k)) =
       Some (map (point_index nx ny) (box_corners (axes nx ny nz) (i, j, k)))).
(** [pts] and [cells] are the points and the boxes of the grid with coordinates [xs], [ys], [zs], the first axis running fastest. *)
Definition is_grid {V} (xs ys zs : list V) (pts : list (list V)) (cells : list cell) : Prop :=
  let nx := length xs in let ny := length ys in let nz := length zs in
  length pts = nx * ny * nz /\
  (forall i j k x y z, nth_error xs i = Some x -> nth_error ys j = Some y -> nth_error zs k = Some z ->
     nth_error pts (i + nx * (j + ny * k)) = Some [x; y; z]) /\
  is_boxes nx ny nz cells.
(** Versions of the format that the older reader is used for, and their names of the types of numbers *)
Definition old_versions : list string := ["2.0"; "3.0"; "4.0"; "4.1"; "4.2"].
Definition old_type_name (dt : string) : string :=
  match dget dt [("bool", "bit"); ("uint8", "unsigned_char"); ("int8", "char"); ("uint16", "unsigned_short"); ("int16", "short");
                 ("uint32", "unsigned_int"); ("int32", "int"); ("uint64", "unsigned_long"); ("int64", "long"); ("float32", "float");
                 ("float64", "double")] with
  | Some t => t
  | None => ""
  end.
(** The lines of a file with a structured grid *)
Section Grids.
Context {V : Type} (p : vport V).
Definition vtk_header (ver title : string) : list (vunt p) :=
  v_line p ("# vtk DataFile Version " ++ ver)%string ++ v_line p title ++ v_line p (v_mode p).
Definition dimensions (nx ny nz : nat) : list (vunt p) := v_line p (row_line ("DIMENSIONS" :: map str_of_nat [nx; ny; nz])).
Definition structured_points (nx ny nz : nat) (origin spacing : list string) : list (vunt p) :=
  v_line p (row_line ["DATASET"; "STRUCTURED_POINTS"]) ++ dimensions nx ny nz ++
  v_line p (row_line ("ORIGIN" :: origin)) ++ v_line p (row_line ("SPACING" :: spacing)).
Definition coordinates (key dt : string) (xs : list V) : list (vunt p) :=
  v_line p (row_line [key; str_of_nat (length xs); old_type_name dt]) ++ v_put p dt xs.
Definition rectilinear_grid (dt : string) (xs ys zs : list V) : list (vunt p) :=
  v_line p (row_line ["DATASET"; "RECTILINEAR_GRID"]) ++ dimensions (length xs) (length ys) (length zs) ++
  coordinates "X_COORDINATES" dt xs ++ coordinates "Y_COORDINATES" dt ys ++ coordinates "Z_COORDINATES" dt zs.
Definition structured_grid (nx ny nz : nat) (dt : string) (pts : list (list V)) : list (vunt p) :=
  v_line p (row_line ["DATASET"; "STRUCTURED_GRID"]) ++ dimensions nx ny nz ++
  v_line p (row_line ["POINTS"; str_of_nat (length pts); old_type_name dt]) ++ v_put p dt (concat pts).
(** Data of the points and the cells: arrays of scalars, or of vectors with two components or more *)
Definition data_lines (title : string) (n : nat) (d : dict (varr V)) : list (vunt p) :=
  match d with
  | [] => []
  | _ => v_line p (row_line [title; str_of_nat n]) ++ v_line p (row_line ["FIELD"; "FieldData"; str_of_nat (length d)]) ++
         concat (map (fun na => v_line p (row_line [fst na; str_of_nat (fold_right Nat.mul 1 (va_tail (snd na)));
                                                    str_of_nat (length (va_rows (snd na))); old_type_name (va_dtype (snd na))])
                                ++ v_put p (va_dtype (snd na)) (concat (va_rows (snd na)))) d)
  end.
Definition grid_file (ver title : string) (grid : list (vunt p)) (np : nat) (pd : dict (varr V)) (nc : nat) (cd : dict (varr V)) :
    list (vunt p) :=
  vtk_header ver title ++ grid ++ data_lines "POINT_DATA" np pd ++ data_lines "CELL_DATA" nc cd.
Definition grid_data (fits : string -> V -> Prop) (n : nat) (d : dict (varr V)) : Prop :=
  NoDup (dkeys d) /\
  Forall (fun na => name_ok (fst na) /\ array_ok fits false (va_dtype (snd na)) (va_tail (snd na)) (va_rows (snd na)) /\
                    va_tail (snd na) <> [1] /\ length (va_rows (snd na)) = n) d.
(** The mesh: one block with all cells, and the data as in the file *)
Definition grid_mesh (dt : string) (pts : list (list V)) (type : string) (cells : list cell) (pd cd : dict (varr V)) : vmesh V :=
  VMesh dt pts [Block type cells] pd (map (fun na => (fst na, VCd (va_dtype (snd na)) (va_tail (snd na)) [va_rows (snd na)])) cd) [].
End Grids.

(** Attributes of points and cells in the files of other programs (C81) *)
Definition new_type_name (dt : string) : string :=
  match dget dt [("float32", "float"); ("float64", "double"); ("int8", "vtktypeint8"); ("int16", "vtktypeint16"); ("int32", "vtktypeint32");
                 ("int64", "vtktypeint64"); ("uint8", "vtktypeuint8"); ("uint16", "vtktypeuint16"); ("uint32", "vtktypeuint32");
                 ("uint64", "vtktypeuint64")] with
  | Some t => t
  | None => ""
  end.
Definition type_name (v51 : bool) (dt : string) : string := if v51 then new_type_name dt else old_type_name dt.
(** One attribute of the points or cells.  [shown]: the number of components stands in the file; [Field]: a list of arrays,
    each after an optional block of metadata; a block of metadata may also stand alone. *)
Inductive attribute (V : Type) : Type :=
| Scalars (name dt : string) (components : nat) (shown : bool) (table : string) (rows : list (list V))
| Vectors (name dt : string) (rows : list (list V))
| Tensors (name dt : string) (rows : list (list V))
| Field (title : string) (arrays : list (option (list string) * (string * varr V)))
| Metadata (lines : list string).
Arguments Scalars {V} _ _ _ _ _ _.
Arguments Vectors {V} _ _ _.
Arguments Tensors {V} _ _ _.
Arguments Field {V} _ _.
Arguments Metadata {V} _.
Section Attributes.
Context {V : Type} (nk : nums V) (p : vport V) (fits : string -> V -> Prop) (v51 : bool).
Definition metadata (ls : list string) : list (vunt p) :=
  v_line p (row_line ["METADATA"]) ++ concat (map (v_line p) ls) ++ v_line p "".
Definition field_lines (x : option (list string) * (string * varr V)) : list (vunt p) :=
  let '(meta, (name, a)) := x in
  match meta with Some ls => metadata ls | None => [] end ++
  v_line p (row_line [name; str_of_nat (fold_right Nat.mul 1 (va_tail a)); str_of_nat (length (va_rows a)); type_name v51 (va_dtype a)]) ++
  v_put p (va_dtype a) (concat (va_rows a)).
Definition attribute_lines (a : attribute V) : list (vunt p) :=
  match a with
  | Scalars name dt nc shown table rows =>
      v_line p (row_line (["SCALARS"; name; type_name v51 dt] ++ if shown then [str_of_nat nc] else [])) ++
      v_line p (row_line ["LOOKUP_TABLE"; table]) ++ v_put p dt (concat rows)
  | Vectors name dt rows => v_line p (row_line ["VECTORS"; name; type_name v51 dt]) ++ v_put p dt (concat rows)
  | Tensors name dt rows => v_line p (row_line ["TENSORS"; name; type_name v51 dt]) ++ v_put p dt (concat rows)
  | Field title l => v_line p (row_line ["FIELD"; title; str_of_nat (length l)]) ++ concat (map field_lines l)
  | Metadata ls => metadata ls
  end.
(** The arrays of an attribute: scalars always with a second dimension, tensors with three *)
Definition attribute_arrays (a : attribute V) : dict (varr V) :=
  match a with
  | Scalars name dt nc _ _ rows => [(name, VArr dt [nc] rows)]
  | Vectors name dt rows => [(name, VArr dt [3] rows)]
  | Tensors name dt rows => [(name, VArr dt [3; 3] rows)]
  | Field _ l => map snd l
  | Metadata _ => []
  end.
(** [n] rows of [k] numbers *)
Definition rows_ok (n : nat) (dt : string) (k : nat) (rows : list (list V)) : Prop :=
  In dt (known v51) /\ length rows = n /\ Forall (fun r => length r = k /\ Forall (fits dt) r) rows.
Definition metadata_ok (ls : list string) : Prop := Forall (fun l => one_line l /\ blank l = false) ls.
Definition attribute_ok (n : nat) (a : attribute V) : Prop :=
  match a with
  | Scalars name dt nc shown table rows =>
      word name = true /\ word table = true /\ 1 <= nc <= 4 /\ (shown = false -> nc = 1) /\ rows_ok n dt nc rows
  | Vectors name dt rows => word name = true /\ rows_ok n dt 3 rows
  | Tensors name dt rows => word name = true /\ rows_ok n dt 9 rows
  | Field title l =>
      word title = true /\ NoDup (map (fun x => fst (snd x)) l) /\
      Forall (fun x => match fst x with Some ls => metadata_ok ls | None => True end /\ name_ok (fst (snd x)) /\
                (va_tail (snd (snd x)) = [] \/ exists k, va_tail (snd (snd x)) = [S (S k)]) /\
                rows_ok n (va_dtype (snd (snd x))) (fold_right Nat.mul 1 (va_tail (snd (snd x)))) (va_rows (snd (snd x)))) l
  | Metadata ls => metadata_ok ls
  end.
(** Sections with data of [np] points ([true]) and [nc] cells ([false]), in any order *)
Definition section_lines (np nc : nat) (x : bool * list (attribute V)) : list (vunt p) :=
  v_line p (row_line (if fst x then ["POINT_DATA"; str_of_nat np] else ["CELL_DATA"; str_of_nat nc])) ++
  concat (map attribute_lines (snd x)).
Definition section_ok (np nc : nat) (x : bool * list (attribute V)) : Prop :=
  Forall (attribute_ok (if fst x then np else nc)) (snd x) /\ (snd x <> [] -> 1 <= if fst x then np else nc).
Definition section_arrays (points : bool) (x : bool * list (attribute V)) : dict (varr V) :=
  if Bool.eqb (fst x) points then flat_map attribute_arrays (snd x) else [].
(** [m], in three dimensions and with its cells as after reading, and the data of the sections *)
Definition with_attributes (m : vmesh V) (l : list (bool * list (attribute V))) : vmesh V :=
  let bs := regroup (all_cells (vm_cells m)) in
  VMesh (vm_dtype m) (map (in_3d nk) (vm_points m)) bs (flat_map (section_arrays true) l)
    (map (fun na => (fst na, VCd (va_dtype (snd na)) (va_tail (snd na)) (data_for bs (va_rows (snd na))))) (flat_map (section_arrays false) l)) [].
Definition sections_ok (m : vmesh V) (l : list (bool * list (attribute V))) : Prop :=
  Forall (section_ok (length (vm_points m)) (length (all_cells (vm_cells m)))) l /\
  NoDup (dkeys (flat_map (section_arrays true) l)) /\ NoDup (dkeys (flat_map (section_arrays false) l)).
(** The file [s] with a mesh, followed by sections *)
Definition add_sections (s : list (vunt p)) (m : vmesh V) (l : list (bool * list (attribute V))) : list (vunt p) :=
  s ++ concat (map (section_lines (length (vm_points m)) (length (all_cells (vm_cells m)))) l).
End Attributes.
(** Names of types in files of other programs *)
Definition standard_type_names : list string :=
  ["bit"; "unsigned_char"; "char"; "unsigned_short"; "short"; "unsigned_int"; "unsigned_long"; "long"; "vtkidtype"].
Definition other_attributes : list string := ["NORMALS"; "TEXTURE_COORDINATES"; "TENSORS6"; "GLOBAL_IDS"; "PEDIGREE_IDS"].
