(** Model of src/meshio/_mesh.py and src/meshio/_common.py (data handling). *)
From Verif.Lib Require Import Base Text.

(** src/meshio/_common.py:10-87 [num_nodes_per_cell] *)
Definition num_nodes_per_cell : dict nat := [
  ("vertex", 1); ("line", 2); ("triangle", 3); ("quad", 4); ("quad8", 8); ("tetra", 4);
  ("hexahedron", 8); ("hexahedron20", 20); ("hexahedron24", 24); ("wedge", 6); ("pyramid", 5);
  ("line3", 3); ("triangle6", 6); ("quad9", 9); ("tetra10", 10); ("hexahedron27", 27);
  ("wedge15", 15); ("wedge18", 18); ("pyramid13", 13); ("pyramid14", 14);
  ("line4", 4); ("triangle10", 10); ("quad16", 16); ("tetra20", 20); ("wedge40", 40); ("hexahedron64", 64);
  ("line5", 5); ("triangle15", 15); ("quad25", 25); ("tetra35", 35); ("wedge75", 75); ("hexahedron125", 125);
  ("line6", 6); ("triangle21", 21); ("quad36", 36); ("tetra56", 56); ("wedge126", 126); ("hexahedron216", 216);
  ("line7", 7); ("triangle28", 28); ("quad49", 49); ("tetra84", 84); ("wedge196", 196); ("hexahedron343", 343);
  ("line8", 8); ("triangle36", 36); ("quad64", 64); ("tetra120", 120); ("wedge288", 288); ("hexahedron512", 512);
  ("line9", 9); ("triangle45", 45); ("quad81", 81); ("tetra165", 165); ("wedge405", 405); ("hexahedron729", 729);
  ("line10", 10); ("triangle55", 55); ("quad100", 100); ("tetra220", 220); ("wedge550", 550);
  ("hexahedron1000", 1000); ("hexahedron1331", 1331);
  ("line11", 11); ("triangle66", 66); ("quad121", 121); ("tetra286", 286) ].

(** src/meshio/_mesh.py:10-82 [topological_dimension] *)
Definition topological_dimension : dict nat := [
  ("line", 1); ("polygon", 2); ("triangle", 2); ("quad", 2); ("tetra", 3); ("hexahedron", 3);
  ("wedge", 3); ("pyramid", 3); ("line3", 1); ("triangle6", 2); ("quad9", 2); ("tetra10", 3);
  ("hexahedron27", 3); ("wedge18", 3); ("pyramid14", 3); ("vertex", 0); ("quad8", 2);
  ("hexahedron20", 3); ("triangle10", 2); ("triangle15", 2); ("triangle21", 2);
  ("line4", 1); ("line5", 1); ("line6", 1); ("tetra20", 3); ("tetra35", 3); ("tetra56", 3);
  ("quad16", 2); ("quad25", 2); ("quad36", 2); ("triangle28", 2); ("triangle36", 2);
  ("triangle45", 2); ("triangle55", 2); ("triangle66", 2); ("quad49", 2); ("quad64", 2);
  ("quad81", 2); ("quad100", 2); ("quad121", 2); ("line7", 1); ("line8", 1); ("line9", 1);
  ("line10", 1); ("line11", 1); ("tetra84", 3); ("tetra120", 3); ("tetra165", 3);
  ("tetra220", 3); ("tetra286", 3); ("wedge40", 3); ("wedge75", 3); ("hexahedron64", 3);
  ("hexahedron125", 3); ("hexahedron216", 3); ("hexahedron343", 3); ("hexahedron512", 3);
  ("hexahedron729", 3); ("hexahedron1000", 3); ("wedge126", 3); ("wedge196", 3);
  ("wedge288", 3); ("wedge405", 3); ("wedge550", 3);
  ("VTK_LAGRANGE_CURVE", 1); ("VTK_LAGRANGE_TRIANGLE", 2); ("VTK_LAGRANGE_QUADRILATERAL", 2);
  ("VTK_LAGRANGE_TETRAHEDRON", 3); ("VTK_LAGRANGE_HEXAHEDRON", 3); ("VTK_LAGRANGE_WEDGE", 3);
  ("VTK_LAGRANGE_PYRAMID", 3) ].

(** A cell is a row of node indices; a block is a cell type with its rows.
    Simplification: polyhedra (lists of faces) are modelled in Model/Vtu.v only. *)
Notation cell := (list Z).
Record block : Type := Block { btype : string; bdata : list cell }.
Definition blen (b : block) : nat := length (bdata b).

(** [str.startswith] *)
Definition startswith (s p : string) : bool := String.prefix p s.

(** src/meshio/_mesh.py:86-101 [CellBlock.__init__]: [Ok dim], or KeyError if the
    type is not in [topological_dimension]. *)
Definition cellblock_dim (t : string) : result nat :=
  if startswith t "polyhedron" then Ok 3
  else of_option KeyError (dget t topological_dimension).

(** A numpy data array as far as the modelled code looks at it: of integer kind
    (dtype.kind 'i' or 'u') with its values, or of another kind with entries of an
    abstract type [F]. *)
Inductive arr (F : Type) : Type :=
| AInt (l : list Z)
| AOther (l : list F).
Arguments AInt {F} l.
Arguments AOther {F} l.
Definition alen {F} (a : arr F) : nat :=
  match a with AInt l => length l | AOther l => length l end.

(** The attributes of a mesh that the modelled methods touch.  Points (rows of
    coordinates) are values of an abstract type [F]. *)
Record mesh (F : Type) : Type := Mesh {
  points : list F;
  cells : list block;
  point_data : dict (arr F);
  cell_data : dict (list (arr F));
  point_sets : dict (list nat);
  cell_sets : dict (list (option (list nat)))
}.
Arguments Mesh {F} _ _ _ _ _ _.
Arguments points {F} _.
Arguments cells {F} _.
Arguments point_data {F} _.
Arguments cell_data {F} _.
Arguments point_sets {F} _.
Arguments cell_sets {F} _.

Section Constructor.
Context {F : Type}.

(** src/meshio/_mesh.py:142-152: every (type, data) tuple becomes a CellBlock. *)
Fixpoint make_blocks (cs : list (string * list cell)) : result (list block) :=
  match cs with
  | [] => Ok []
  | (t, d) :: cs' => do _ <- cellblock_dim t; do bs <- make_blocks cs'; Ok (Block t d :: bs)
  end.

(** src/meshio/_mesh.py:163-169 point data length check. *)
Fixpoint check_point_data (np : nat) (pd : dict (arr F)) : result unit :=
  match pd with
  | [] => Ok tt
  | (_, item) :: pd' =>
      if Nat.eqb (alen item) np then check_point_data np pd' else Err ValueError
  end.

(** src/meshio/_mesh.py:179-187 the inner loop over blocks. *)
Fixpoint check_lengths (data : list (arr F)) (bs : list block) : result unit :=
  match data, bs with
  | [], _ => Ok tt
  | d :: data', b :: bs' =>
      if Nat.eqb (alen d) (blen b) then check_lengths data' bs' else Err ValueError
  | _ :: _, [] => Err IndexError
  end.

(** src/meshio/_mesh.py:172-187 cell data checks. *)
Fixpoint check_cell_data (bs : list block) (cd : dict (list (arr F))) : result unit :=
  match cd with
  | [] => Ok tt
  | (_, data) :: cd' =>
      if Nat.eqb (length data) (length bs)
      then do _ <- check_lengths data bs; check_cell_data bs cd'
      else Err ValueError
  end.

(** src/meshio/_mesh.py:117-187 [Mesh.__init__].  Simplification: conversion of the
    arguments with [np.asarray] is the identity; [field_data], [gmsh_periodic] and
    [info] are carried along unchecked by the code and are left out. *)
Definition mk_mesh (pts : list F) (cs : list (string * list cell))
    (pd : dict (arr F)) (cd : dict (list (arr F)))
    (ps : dict (list nat)) (csets : dict (list (option (list nat)))) : result (mesh F) :=
  do bs <- make_blocks cs;
  do _ <- check_point_data (length pts) pd;
  do _ <- check_cell_data bs cd;
  Ok (Mesh pts bs pd cd ps csets).
End Constructor.

(** src/meshio/_mesh.py:243-246 [get_cells_type].  KeyError for an unknown type that
    does not occur.  The result for an absent known type has 0 rows. *)
Definition get_cells_type (bs : list block) (t : string) : result (list cell) :=
  if negb (existsb (fun b => String.eqb (btype b) t) bs)
  then do _ <- of_option KeyError (dget t num_nodes_per_cell); Ok []
  else Ok (concat (map bdata (filter (fun b => String.eqb (btype b) t) bs))).

(** First loop of src/meshio/_mesh.py:256-259: dict of lists of arrays. *)
Definition add_to {A} (k : string) (x : A) (d : dict (list A)) : dict (list A) :=
  match dget k d with
  | None => dset k [x] (dset k [] d)
  | Some l => dset k (l ++ [x]) d
  end.

(** src/meshio/_mesh.py:254-263 [cells_dict] *)
Definition cells_dict (bs : list block) : dict (list cell) :=
  map (fun kv => (fst kv, concat (snd kv)))
      (fold_left (fun acc b => add_to (btype b) (bdata b) acc) bs []).

Section CellData.
Context {V : Type}.

(** src/meshio/_mesh.py:248-251 [get_cell_data]: [zip] stops at the shorter list.
    np.concatenate of an empty list raises ValueError. *)
Definition get_cell_data (bs : list block) (cd : dict (list (list V)))
    (name t : string) : result (list V) :=
  do data <- of_option KeyError (dget name cd);
  match map snd (filter (fun bd => String.eqb (btype (fst bd)) t) (combine bs data)) with
  | [] => Err ValueError
  | l => Ok (concat l)
  end.

(** src/meshio/_mesh.py:270-276, the inner dictionary for one data name *)
Definition cell_data_dict1 (bs : list block) (data : list (list V)) : dict (list V) :=
  map (fun kv => (fst kv, concat (snd kv)))
      (fold_left (fun acc vb => add_to (btype (snd vb)) (fst vb) acc) (combine data bs) []).

(** src/meshio/_mesh.py:266-277 [cell_data_dict] *)
Definition cell_data_dict (bs : list block) (cd : dict (list (list V)))
  : dict (dict (list V)) :=
  map (fun kv => (fst kv, cell_data_dict1 bs (snd kv))) cd.
End CellData.

(** src/meshio/_mesh.py:285-297: one step of the loop over blocks; the state is
    (offsets, sets_dict[key]). *)
Definition cell_sets_step (st : dict nat * dict (list (list nat)))
    (mb : option (list nat) * block) : dict nat * dict (list (list nat)) :=
  let '(offsets, sd) := st in
  let '(members, b) := mb in
  match members with
  | None => (offsets, sd)
  | Some ms =>
      let '(offset, offsets') :=
        match dget (btype b) offsets with
        | Some o => (o, dset (btype b) (o + blen b) offsets)
        | None => (0, dset (btype b) (blen b) offsets)
        end in
      let ms' := map (fun m => m + offset) ms in
      let sd' := match dget (btype b) sd with
                 | Some l => dset (btype b) (l ++ [ms']) sd
                 | None => dset (btype b) [ms'] sd
                 end in
      (offsets', sd')
  end.

(** src/meshio/_mesh.py:298-303: concatenation, types without members dropped. *)
Definition drop_empty_concat (d : dict (list (list nat))) : dict (list nat) :=
  map (fun kv => (fst kv, concat (snd kv)))
      (filter (fun kv => negb (Nat.eqb (sum_nat (map (@length nat) (snd kv))) 0)) d).

(** src/meshio/_mesh.py:280-305 [cell_sets_dict], for one set *)
Definition cell_sets_dict1 (bs : list block) (members : list (option (list nat)))
  : dict (list nat) :=
  drop_empty_concat (snd (fold_left cell_sets_step (combine members bs) ([], []))).

Definition cell_sets_dict (bs : list block) (cs : dict (list (option (list nat))))
  : dict (dict (list nat)) :=
  map (fun kv => (fst kv, cell_sets_dict1 bs (snd kv))) cs.

(** ** Sets <-> integer data.  Data values are [Z]. *)

(** src/meshio/_mesh.py:324-328: the integer function of one block.  [col] holds the
    members of block [k] of every set in order.  IndexError if a member is out of
    range. *)
Definition set_values (n : nat) (col : list (option (list nat))) : result (list Z) :=
  fold_left (fun acc ic =>
    do arr <- acc;
    match snd ic with
    | None => Ok arr
    | Some idx => if forallb (fun i => Nat.ltb i n) idx
                  then Ok (scatter idx (Z.of_nat (fst ic)) arr)
                  else Err IndexError
    end) (enumerate col) (Ok (repeat (-1)%Z n)).

(** [zip] of the per-block member lists of all sets (zip over several lists stops at the shortest one): src/meshio/_mesh.py:322 *)
Fixpoint zip_cols {A} (fuel : nat) (rows : list (list A)) : list (list A) :=
  match fuel with
  | O => []
  | S f =>
      match mapO (fun r => match r with [] => None | x :: xs => Some (x, xs) end) rows with
      | None => []
      | Some [] => []
      | Some l => map fst l :: zip_cols f (map snd l)
      end
  end.
Definition zip_star {A} (rows : list (list A)) : list (list A) :=
  match rows with
  | [] => []
  | r :: _ => zip_cols (length r) rows
  end.

Fixpoint set_values_blocks (cols : list (list (option (list nat)))) (bs : list block)
  : result (list (list Z)) :=
  match cols, bs with
  | [], _ => Ok []
  | c :: cols', b :: bs' =>
      do v <- set_values (blen b) c; do vs <- set_values_blocks cols' bs'; Ok (v :: vs)
  | _ :: _, [] => Err IndexError
  end.

(** src/meshio/_mesh.py:316-343 [cell_sets_to_data]; the warning about uncovered cells
    has no effect on the mesh. *)
Definition cell_sets_to_data {F} (data_name : option string) (m : mesh F) : result (mesh F) :=
  match cell_sets m with
  | [] => Ok m
  | cs =>
      do f <- set_values_blocks (zip_star (dvals cs)) (cells m);
      let name := match data_name with Some n => n | None => join "-" (dkeys cs) end in
      Ok (Mesh (points m) (cells m) (point_data m) (dset name (map AInt f) (cell_data m))
               (point_sets m) [])
  end.

(** src/meshio/_mesh.py:345-362 [point_sets_to_data] *)
Definition point_sets_to_data {F} (join_char : string) (m : mesh F) : result (mesh F) :=
  match point_sets m with
  | [] => Ok m
  | ps =>
      do f <- set_values (length (points m)) (map Some (dvals ps));
      Ok (Mesh (points m) (cells m) (dset (join join_char (dkeys ps)) (AInt f) (point_data m))
               (cell_data m) [] (cell_sets m))
  end.

(** [list(dict.fromkeys(names))]: duplicates removed, first occurrences kept. *)
Fixpoint dedup_from (seen l : list string) : list string :=
  match l with
  | [] => []
  | x :: xs => if smem x seen then dedup_from seen xs else x :: dedup_from (seen ++ [x]) xs
  end.
Definition dedup (l : list string) : list string := dedup_from [] l.

(** Names given to the tags: src/meshio/_mesh.py:379-385 with [fallback] the
    alternative name of a tag. *)
Definition tag_names (key : string) (fallback : Z -> string) (tags : list Z) : list string :=
  let names := dedup (split_char "-" key) in
  if Nat.eqb (length names) (length tags) then names else map fallback tags.

(** The values of an integer array (the dtype-kind tests of lines 372 and 400). *)
Definition int_values {F} (a : arr F) : option (list Z) :=
  match a with AInt l => Some l | AOther _ => None end.

(** src/meshio/_mesh.py:367-393 [cell_data_to_sets].  np.concatenate of no arrays raises
    ValueError. *)
Definition cell_data_to_sets {F} (key : string) (m : mesh F) : result (mesh F) :=
  match dget key (cell_data m) with
  | None => Err KeyError
  | Some data0 =>
      match mapO int_values data0 with
      | None => Err RuntimeError
      | Some [] => Err ValueError
      | Some data =>
        let tags := zunique (concat data) in
        let names := tag_names key (fun t => "set-" ++ key ++ "-" ++ str_of_Z t)%string tags in
        let sets := fold_left (fun acc nt =>
                      dset (fst nt) (map (fun d => Some (where_ (Z.eqb (snd nt)) d)) data) acc)
                      (combine names tags) (cell_sets m) in
        Ok (Mesh (points m) (cells m) (point_data m) (ddel key (cell_data m))
                 (point_sets m) sets)
      end
  end.

(** The dtype test of line 400 iterates over the entries of the array, so it is
    vacuous for an empty array of any kind. *)
Definition int_entries {F} (a : arr F) : option (list Z) :=
  match a with AInt l => Some l | AOther [] => Some [] | AOther _ => None end.

(** src/meshio/_mesh.py:395-421 [point_data_to_sets]; the fallback name is the literal
    "set-key-<tag>" (line 413). *)
Definition point_data_to_sets {F} (key : string) (m : mesh F) : result (mesh F) :=
  match dget key (point_data m) with
  | None => Err KeyError
  | Some data0 =>
      match int_entries data0 with
      | None => Err RuntimeError
      | Some data =>
        let tags := zunique data in
        let names := tag_names key (fun t => "set-key-" ++ str_of_Z t)%string tags in
        let sets := fold_left (fun acc nt =>
                      dset (fst nt) (where_ (Z.eqb (snd nt)) data) acc)
                      (combine names tags) (point_sets m) in
        Ok (Mesh (points m) (cells m) (ddel key (point_data m)) (cell_data m)
                 sets (cell_sets m))
      end
  end.

(** ** src/meshio/_common.py *)

Section Raw.
Context {V : Type}.
(** src/meshio/_common.py:90-92 [cell_data_from_raw] (one array) *)
Definition cell_data_from_raw1 (lens : list nat) (d : list V) : list (list V) :=
  np_split (butlast (cumsum lens)) d.
Definition cell_data_from_raw (lens : list nat) (raw : dict (list V)) : dict (list (list V)) :=
  map (fun kv => (fst kv, cell_data_from_raw1 lens (snd kv))) raw.
(** src/meshio/_common.py:95-96 [raw_from_cell_data]; np.concatenate([]) raises *)
Definition raw_from_cell_data (cd : dict (list (list V))) : result (dict (list V)) :=
  mapM (fun kv => match snd kv with
                  | [] => Err ValueError
                  | l => Ok (fst kv, concat l)
                  end) cd.
End Raw.

(** src/meshio/_common.py:104-122 [_pick_first_int_data]: [kinds] tells for each key
    whether its (first) array is of integer kind. *)
Definition pick_first_int (kinds : dict bool) : option string * list string :=
  match filter snd kinds with
  | [] => (None, [])
  | (key, _) :: _ =>
      let keys := dkeys kinds in
      let idx := match where_ (String.eqb key) keys with i :: _ => i | [] => 0 end in
      (Some key, firstn idx keys ++ skipn (idx + 1) keys)
  end.

(** src/meshio/_common.py:141-146 [is_in_any] (one-character needle) *)
Definition is_in_any (c : ascii) (l : list string) : bool := existsb (char_in c) l.

(** src/meshio/_common.py:149-158 [join_strings] *)
Definition join_chars : list ascii := ["-"; "_"; "#"; "+"; "/"]%char.
Definition join_strings (l : list string) : result (string * ascii) :=
  match find (fun c => negb (is_in_any c l)) join_chars with
  | None => Err AssertionError
  | Some c => Ok (join (String c "") l, c)
  end.

(** [s.replace(old, new)] for single characters *)
Fixpoint replace_char (old new : ascii) (s : string) : string :=
  match s with
  | EmptyString => EmptyString
  | String a s' => String (if Ascii.eqb a old then new else a) (replace_char old new s')
  end.

(** src/meshio/_common.py:161-169 [replace_space] *)
Definition space_chars : list ascii := ["_"; "-"; "+"; "X"; "/"; "#"]%char.
Definition replace_space (s : string) : result (string * ascii) :=
  match find (fun c => negb (char_in c s)) space_chars with
  | None => Err AssertionError
  | Some c => Ok (replace_char " " c s, c)
  end.
