(** Specification vocabulary for the volume formats. *)
From Verif.Lib Require Import Base Text Lines.
From Verif.Model Require Import Core.

(** The arrays [cols] under the names [name 0], [name 1], ... *)
Definition named {A} (name : nat -> string) (cols : list A) : list (string * A) :=
  combine (map name (seq 0 (length cols))) cols.
(** tetgen:attr1, tetgen:attr2, ... and tetgen:ref, tetgen:ref2, ... *)
Definition tetgen_attr (k : nat) : string := ("tetgen:attr" ++ str_of_nat (S k))%string.
Definition tetgen_ref (k : nat) : string :=
  match k with 0 => "tetgen:ref" | _ => ("tetgen:ref" ++ str_of_nat (S k))%string end.

(** UGRID: the types in the order of the file, surface types first, with their numbers of nodes. *)
Definition ugrid_surface : list (string * nat) := [("triangle", 3); ("quad", 4)].
Definition ugrid_volume : list (string * nat) := [("tetra", 4); ("pyramid", 5); ("wedge", 6); ("hexahedron", 8)].
(** One block for every type with cells. *)
Definition blocks_for (types : list (string * nat)) (R : string -> list cell) : list block :=
  flat_map (fun t => match R (fst t) with [] => [] | rows => [Block (fst t) rows] end) types.
(** The same label for every cell of these blocks. *)
Definition labelled (z : Z) (bs : list block) : list (list Z) := map (fun b => repeat z (blen b)) bs.

(** SU2: cells as (type, nodes); [su2_code] gives the codes and numbers of nodes. *)
Definition su2_codes : list (string * (Z * nat)) :=
  [("line", (3%Z, 2)); ("triangle", (5%Z, 3)); ("quad", (9%Z, 4)); ("tetra", (10%Z, 4));
   ("hexahedron", (12%Z, 8)); ("wedge", (13%Z, 6)); ("pyramid", (14%Z, 5))].
Definition su2_cell (tc : string * cell) : Prop :=
  exists code, In (fst tc, (code, length (snd tc))) su2_codes.
Definition su2_code (t : string) : Z := match dget t su2_codes with Some (c, _) => c | None => 0%Z end.
(** The lines of a list of cells; some programs add a running number ([extra]). *)
Definition su2_rows (extra : bool) (cells : list (string * cell)) : list string :=
  map (fun kc => row_line (map str_of_Z
         (su2_code (fst (snd kc)) :: snd (snd kc) ++ (if extra then [Z.of_nat (fst kc)] else []))))
    (enumerate cells).
(** A marker is given by a number or by a name; a name gets the number after the one of the marker before it. *)
Inductive su2_label : Type := Tag (z : Z) | Name (s : string).
Definition label_text (l : su2_label) : string := match l with Tag z => str_of_Z z | Name s => s end.
Definition label_ok (l : su2_label) : Prop :=
  match l with Tag _ => True | Name s => s <> "" /\ strip s = s /\ char_in "=" s = false /\ parse_Z s = None end.
Fixpoint su2_tags (prev : Z) (markers : list (su2_label * list (string * cell))) : list (Z * list (string * cell)) :=
  match markers with
  | [] => []
  | (l, cells) :: ms => let z := match l with Tag z => z | Name _ => (prev + 1)%Z end in (z, cells) :: su2_tags z ms
  end.
(** A file: dimension, points, elements, markers. *)
Definition su2_file {fl : floats} (dim : nat) (extra : bool) (pts : list (list fl)) (elems : list (string * cell))
    (markers : list (su2_label * list (string * cell))) : list string :=
  [("NDIME= " ++ str_of_nat dim)%string; ("NPOIN= " ++ str_of_nat (length pts))%string] ++
  map (fun p => row_line (map ffmt p)) pts ++
  [("NELEM= " ++ str_of_nat (length elems))%string] ++ su2_rows extra elems ++
  [("NMARK= " ++ str_of_nat (length markers))%string] ++
  flat_map (fun m => [("MARKER_TAG= " ++ label_text (fst m))%string;
                      ("MARKER_ELEMS= " ++ str_of_nat (length (snd m)))%string] ++ su2_rows extra (snd m)) markers.
(** The cells of the file with their tags, elements first with tag 0. *)
Definition su2_tagged (elems : list (string * cell)) (markers : list (su2_label * list (string * cell))) : list (string * cell * Z) :=
  map (fun tc => (tc, 0%Z)) elems ++ flat_map (fun m => map (fun tc => (tc, fst m)) (snd m)) (su2_tags 0 markers).
(** The cells of type [t] of a list of cells, and of blocks with tags, in order. *)
Definition tagged_type (t : string) (l : list (string * cell * Z)) : list (cell * Z) :=
  map (fun x => (snd (fst x), snd x)) (filter (fun x => String.eqb (fst (fst x)) t) l).
Definition tagged_blocks (t : string) (bs : list block) (tags : list (list Z)) : list (cell * Z) :=
  flat_map (fun bt => if String.eqb (btype (fst bt)) t then combine (bdata (fst bt)) (snd bt) else []) (combine bs tags).
(** SU2: the types of boundary and of inner cells. *)
Definition boundary_types (dim : nat) : list string := if Nat.eqb dim 2 then ["line"] else ["triangle"; "quad"].
Definition internal_types (dim : nat) : list string := if Nat.eqb dim 2 then ["triangle"; "quad"] else ["tetra"; "hexahedron"; "wedge"; "pyramid"].
