(** Specification vocabulary for Medit files: what a file with given contents looks like. *)
From Verif.Lib Require Import Base Text Lines Bytes File.
From Verif.Model Require Import Core Medit.

(** The cell types of the format with their numbers of nodes, keyword numbers and keywords. *)
Definition medit_types : list (string * (nat * Z * string)) :=
  [("line", (2, 5%Z, "Edges")); ("triangle", (3, 6%Z, "Triangles")); ("quad", (4, 7%Z, "Quadrilaterals")); ("tetra", (4, 8%Z, "Tetrahedra"));
   ("wedge", (6, 9%Z, "Prisms")); ("hexahedron", (8, 10%Z, "Hexahedra")); ("pyramid", (5, 49%Z, "Pyramids"))].
Definition medit_type (t : string) : bool := existsb (fun x => String.eqb (fst x) t) medit_types.
Definition medit_key (t : string) : Z := match dget t medit_types with Some (_, k, _) => k | None => 0%Z end.
Definition medit_nodes (t : string) : nat := match dget t medit_types with Some (n, _, _) => n | None => 0 end.
Definition medit_word (t : string) : string := match dget t medit_types with Some (_, _, w) => w | None => "" end.

(** The first entry of a dictionary that consists of integers. *)
Definition first_integer {A B} (ints : A -> option B) (d : list (string * A)) : option B :=
  fold_right (fun kv r => match ints (snd kv) with Some l => Some l | None => r end) None d.
Definition ints_of {F} (a : darr F) : option (list Z) := match a with IntArr l => Some l | RealArr _ => None end.
(** The labels of the points and of the blocks: the first integer data, or ones. *)
Definition point_refs {F} (m : medit_in F) : list Z :=
  match first_integer ints_of (mi_point_data m) with Some l => l | None => repeat 1%Z (length (mi_points m)) end.
Definition cell_refs {F} (m : medit_in F) : list (list Z) :=
  match first_integer (mapO ints_of) (mi_cell_data m) with Some ls => ls | None => map (fun b => repeat 1%Z (blen b)) (mi_cells m) end.
(** The blocks of supported types with their labels. *)
Definition kept {F} (m : medit_in F) : list (block * list Z) :=
  filter (fun bl => medit_type (btype (fst bl))) (combine (mi_cells m) (cell_refs m)).
(** A mesh as the constructor accepts it, with points of [dim] coordinates, cells with as many nodes as their
    type has, and data that are not empty, have names, and are of one kind for all blocks. *)
Record medit_mesh {F} (m : medit_in F) : Prop := {
  mm_points : Forall (fun p => length p = mi_dim m) (mi_points m);
  mm_cells : Forall (fun b => medit_type (btype b) = true -> Forall (fun c => length c = medit_nodes (btype b)) (bdata b)) (mi_cells m);
  mm_point_names : NoDup (map fst (mi_point_data m)) /\ ~ In "" (map fst (mi_point_data m));
  mm_cell_names : NoDup (map fst (mi_cell_data m)) /\ ~ In "" (map fst (mi_cell_data m));
  mm_point_data : Forall (fun kv => dlen (snd kv) = length (mi_points m) /\ mi_points m <> []) (mi_point_data m);
  mm_cell_data : Forall (fun kv => map dlen (snd kv) = map blen (mi_cells m) /\ mi_cells m <> [] /\
     (Forall (fun a => is_int a = true) (snd kv) \/ Forall (fun a => is_int a = false) (snd kv))) (mi_cell_data m) }.

(** Numbers, counts, nodes and labels can be represented in a file. *)
Record medit_fits {F} (good : F -> Prop) (fits : Z -> Prop) (m : medit_in F) : Prop := {
  mf_dim : mi_dim m = 2 \/ mi_dim m = 3;
  mf_points : Forall (Forall good) (mi_points m);
  mf_counts : fits (Z.of_nat (length (mi_points m))) /\ Forall (fun b => fits (Z.of_nat (blen b))) (mi_cells m);
  mf_nodes : Forall (fun b => Forall (Forall (fun v => fits (v + 1)%Z)) (bdata b)) (mi_cells m);
  mf_refs : Forall fits (point_refs m) /\ Forall (Forall fits) (cell_refs m) }.

(** ** Binary files *)
(** Bytes of an integer, of a position and of a number for every version of the format. *)
Definition medit_widths : list (Z * (nat * nat * nat)) := [(1%Z, (4, 4, 4)); (2%Z, (4, 8, 4)); (3%Z, (4, 8, 8)); (4%Z, (8, 8, 8))].

(** Sections with their position entries.  [SMarks]: corners, ridges, required vertices, edges,
    triangles and quadrilaterals, which are lists of numbers and are not kept. *)
Inductive medit_sec (F : Type) : Type :=
  | SVertices (pos : Z) (ps : list (list F * Z))
  | SCells (pos : Z) (t : string) (cs : list (cell * Z))
  | SMarks (pos : Z) (key : Z) (ids : list Z).
Arguments SVertices {F} _ _.
Arguments SCells {F} _ _ _.
Arguments SMarks {F} _ _ _.
Definition sec_key {F} (s : medit_sec F) : Z := match s with SVertices _ _ => 4%Z | SCells _ t _ => medit_key t | SMarks _ k _ => k end.
Definition sec_pos {F} (s : medit_sec F) : Z := match s with SVertices p _ => p | SCells p _ _ => p | SMarks p _ _ => p end.
Definition sec_len {F} (s : medit_sec F) : nat := match s with SVertices _ l => length l | SCells _ _ l => length l | SMarks _ _ l => length l end.

Section Render.
Context {F : Type}.
Variable num : F -> bytes.
Variable big : bool.
Variable iw pw : nat.
Definition sec_bytes (s : medit_sec F) : bytes :=
  sint_bytes big 4 (sec_key s) ++ sint_bytes big pw (sec_pos s) ++ sint_bytes big iw (Z.of_nat (sec_len s)) ++
  match s with
  | SVertices _ ps => flat_map (fun pl => flat_map num (fst pl) ++ sint_bytes big iw (snd pl)) ps
  | SCells _ _ cs => flat_map (fun cl => flat_map (fun v => sint_bytes big iw (v + 1)) (fst cl) ++ sint_bytes big iw (snd cl)) cs
  | SMarks _ _ ids => flat_map (sint_bytes big iw) ids
  end.
Definition medit_bytes (version pos : Z) (dim : nat) (secs : list (medit_sec F)) (tail : bytes) : bytes :=
  sint_bytes big 4 1 ++ sint_bytes big 4 version ++ sint_bytes big 4 3 ++ sint_bytes big pw pos ++ sint_bytes big 4 (Z.of_nat dim) ++
  flat_map sec_bytes secs ++ tail.
End Render.

(** Every integer fits into its field, and rows have the right lengths. *)
Definition sec_fits {F} (good : F -> Prop) (fits : Z -> Prop) (dim : nat) (s : medit_sec F) : Prop :=
  fits (Z.of_nat (sec_len s)) /\
  match s with
  | SVertices _ ps => Forall (fun pl => length (fst pl) = dim /\ Forall good (fst pl) /\ fits (snd pl)) ps
  | SCells _ t cs => medit_type t = true /\ Forall (fun cl => length (fst cl) = medit_nodes t /\ Forall (fun v => fits (v + 1)%Z) (fst cl) /\ fits (snd cl)) cs
  | SMarks _ k ids => In k [13; 14; 15; 16; 17; 18]%Z /\ Forall fits ids
  end.
Definition no_vertices {F} (s : medit_sec F) : bool := match s with SVertices _ _ => false | _ => true end.
(** The blocks and the labels of the sections. *)
Definition sec_blocks {F} (secs : list (medit_sec F)) : list block :=
  flat_map (fun s => match s with SCells _ t cs => [Block t (map fst cs)] | _ => [] end) secs.
Definition sec_refs {F} (secs : list (medit_sec F)) : list (list Z) :=
  flat_map (fun s => match s with SCells _ _ cs => [map snd cs] | _ => [] end) secs.

(** A file ends with the End keyword, whatever follows it, or without it. *)
Definition medit_tail (big : bool) (tail : bytes) : Prop := tail = [] \/ exists junk, tail = sint_bytes big 4 54 ++ junk.

(** Following the positions from offset [o]: at [o] there is a keyword (4 bytes), then 8 bytes that hold
    the offset of the next keyword; the last keyword is End (54) and ends the file. *)
Inductive keyword_chain (file : bytes) : nat -> list Z -> Prop :=
  | chain_end o : sint_value false (slice o (o + 4) file) = 54%Z -> o + 12 = length file -> keyword_chain file o [54%Z]
  | chain_next o o' k ks : sint_value false (slice o (o + 4) file) = k -> o + 12 <= o' -> sint_value false (slice (o + 4) (o + 12) file) = Z.of_nat o' ->
      keyword_chain file o' ks -> keyword_chain file o (k :: ks).

(** ** ASCII files *)
(** [ANumbers]: sections of numbers that are not kept; [ALines]: as many lines as the count says;
    [ANote]: a blank line or a comment. *)
Inductive medit_part (F : Type) : Type :=
  | AVertices (ps : list (list F * Z))
  | ACells (word t : string) (cs : list (cell * Z))
  | ANumbers (word : string) (rows : list (list Z))
  | ALines (word : string) (lines : list string)
  | ANote (line : string).
Arguments AVertices {F} _.
Arguments ACells {F} _ _ _.
Arguments ANumbers {F} _ _.
Arguments ALines {F} _ _.
Arguments ANote {F} _.
Definition part_lines {fl : floats} (p : medit_part fl) : list string :=
  match p with
  | AVertices ps => ["Vertices"; str_of_nat (length ps)] ++ map (fun pl => row_line (map ffmt (fst pl) ++ [str_of_Z (snd pl)])) ps
  | ACells w _ cs => [w; str_of_nat (length cs)] ++ map (fun cl => row_line (map str_of_Z (map (fun i => i + 1)%Z (fst cl) ++ [snd cl]))) cs
  | ANumbers w rows => [w; str_of_nat (length rows)] ++ map (fun r => row_line (map str_of_Z r)) rows
  | ALines w ls => [w; str_of_nat (length ls)] ++ ls
  | ANote l => [l]
  end.
Definition number_words : list (string * nat) :=
  [("NormalAtVertices", 2); ("SubDomainFromMesh", 4); ("VertexOnGeometricVertex", 2); ("EdgeOnGeometricEdge", 2)].
Definition line_words : list string := ["RequiredVertices"; "TangentAtVertices"; "Tangents"; "Ridges"].
(** The label is recovered from its decimal digits by way of a floating point number. *)
Definition label_reads {fl : floats} (to_int : fl -> Z) (l : Z) : Prop := exists v : fl, fparse (str_of_Z l) = Some v /\ to_int v = l.
(** [reads l]: the label [l] survives being read as a floating point number. *)
Definition part_ok {fl : floats} (reads : Z -> Prop) (dim : nat) (p : medit_part fl) : Prop :=
  match p with
  | AVertices ps => Forall (fun pl => length (fst pl) = dim /\ reads (snd pl)) ps
  | ACells w t cs => medit_type t = true /\ (w = medit_word t \/ (w = "Hexaedra" /\ t = "hexahedron")) /\ Forall (fun cl => length (fst cl) = medit_nodes t) cs
  | ANumbers w rows => exists k, In (w, k) number_words /\ Forall (fun r => length r = k) rows
  | ALines w _ => In w line_words
  | ANote l => blank l = true \/ exists l', lstrip l = String "#" l'
  end.
Definition no_verts {F} (p : medit_part F) : bool := match p with AVertices _ => false | _ => true end.
Definition part_blocks {F} (ps : list (medit_part F)) : list block :=
  flat_map (fun s => match s with ACells _ t cs => [Block t (map fst cs)] | _ => [] end) ps.
Definition part_refs {F} (ps : list (medit_part F)) : list (list Z) :=
  flat_map (fun s => match s with ACells _ _ cs => [map snd cs] | _ => [] end) ps.
