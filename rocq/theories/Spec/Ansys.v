(** Meshes that an ANSYS file can hold, and the layout of the file (C52). *)
From Coq Require Import List String ZArith.
From Verif.Lib Require Import Base Text Lines Bytes BytesFacts File.
From Verif.Model Require Import Core Ansys.

(** The supported types with their numbers of nodes. *)
Definition ansys_types : list (string * nat) := [("triangle", 3); ("tetra", 4); ("quad", 4); ("hexahedron", 8); ("pyramid", 5); ("wedge", 6)].
Definition ansys_block (b : block) : Prop := exists w, In (btype b, w) ansys_types /\ Forall (fun c => length c = w) (bdata b).
(** Node numbers, counted from one, fit the integers of the block. *)
Definition fits_kind (k : int_kind) (i : Z) : Prop :=
  match k with I32 => sint_range 4 (i + 1) | I64 => sint_range 8 (i + 1) | OtherInt => False end.
Definition ansys_good {F} (binary : bool) (c8 : codec F) (m : ansys_mesh F) : Prop :=
  (an_dim m = 2 \/ an_dim m = 3) /\ Forall (fun p => length p = an_dim m) (an_points m) /\
  Forall (fun kb => ansys_block (snd kb)) (an_cells m) /\
  (binary = true -> an_single m = false /\ codec_width c8 8 /\ (forall x, Forall is_byte (enc c8 x)) /\ Forall (Forall (exact c8)) (an_points m) /\
                    Forall (fun kb => fst kb <> OtherInt /\ Forall (Forall (fits_kind (fst kb))) (bdata (snd kb))) (an_cells m)).
(** The version contains no brackets and no line feed. *)
Definition plain_version (v : string) : Prop := char_in "(" v = false /\ char_in ")" v = false /\ one_line v.
(** The number of cells in the first [k] blocks. *)
Definition cells_before (m : list block) (k : nat) : nat := sum_nat (map blen (firstn k m)).

(** Files of other programs, in ASCII: point sections numbered from [first] on, one after the other, and cell sections whose nodes are
    numbered in the same way.  A point section has a zone, a type and its points; a cell section has a zone, a first index, a type of its
    zone and its cells. *)
Definition section_line (key : string) (args : list Z) : string := ("(" ++ key ++ " (" ++ join " " (map Hex.hex_of_Z args) ++ ")(" ++ String newline "")%string.
Definition section_end : string := ("))" ++ String newline "")%string.
Definition point_section {fl : floats} (d : nat) (zone first kind : Z) (ps : list (list fl)) : string :=
  (section_line "10" [zone; first; first + Z.of_nat (length ps) - 1; kind; Z.of_nat d]%Z ++ text_of (map (fun p => row_line (map ffmt p)) ps) ++ section_end)%string.
Fixpoint point_sections {fl : floats} (d : nat) (first : Z) (parts : list (Z * Z * list (list fl))) : string :=
  match parts with
  | [] => ""
  | (zone, kind, ps) :: rest => (point_section d zone first kind ps ++ point_sections d (first + Z.of_nat (length ps)) rest)%string
  end.
Definition cell_section (offset zone first kind : Z) (code : Z) (cs : list cell) : string :=
  (section_line "12" [zone; first; first + Z.of_nat (length cs) - 1; kind; code]%Z ++
   text_of (map (fun c => row_line (map (fun i => Hex.hex_of_Z (i + offset)) c)) cs) ++ section_end)%string.
(** The codes of the types of cells *)
Definition ansys_codes : list (Z * (string * nat)) :=
  [(1%Z, ("triangle", 3)); (2%Z, ("tetra", 4)); (3%Z, ("quad", 4)); (4%Z, ("hexahedron", 8)); (5%Z, ("pyramid", 5)); (6%Z, ("wedge", 6))].
Record cell_part : Type := CellPart { cp_zone : Z; cp_first : Z; cp_kind : Z; cp_code : Z; cp_cells : list cell }.
Definition cell_part_text (offset : Z) (c : cell_part) : string := cell_section offset (cp_zone c) (cp_first c) (cp_kind c) (cp_code c) (cp_cells c).
Definition cell_part_block (c : cell_part) (b : block) : Prop :=
  exists t w, In (cp_code c, (t, w)) ansys_codes /\ cp_kind c <> 0%Z /\ Forall (fun r => length r = w) (cp_cells c) /\ b = Block t (cp_cells c).
