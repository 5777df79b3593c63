(** Model of what the writers do to the mesh object of the caller: src/meshio/vtk/_vtk_42.py, vtk/_vtk_51.py,
    vtu/_vtu.py, avsucd/_avsucd.py, ply/_ply.py and flac3d/_flac3d.py.  All other writers only read the mesh (no
    assignment to an attribute, item or array of the mesh); the models of those writers are functions of the mesh.

    A writer is a function from the mesh to the outcome of the call and the mesh afterwards.  What is done with the
    prepared mesh (the format itself) is a parameter. *)
From Coq Require Import ZArith List String Ascii Bool.
From Verif.Lib Require Import Base Text Lines.
From Verif.Model Require Import Core Flac3d.
Import ListNotations.

Section Effects.
Context {G : Type} (zero : G).

(** Entries of arrays: a number for arrays with one axis, a row for arrays with two, a block with its shape for
    arrays with more.  An integer array with one axis is [AInt] in the model of meshes. *)
Inductive entry : Type :=
| Num (x : G)
| Vec (row : list G)
| Tens (dims : list nat) (xs : list G).

Definition writer (File : Type) : Type := mesh entry -> result File * mesh entry.

(** [len(values.shape) == 2 and values.shape[1] == 2], from the first row.  Simplification: an array without rows
    does not count, since its second axis cannot be seen in its rows. *)
Definition two_columns (l : list entry) : bool :=
  match l with Vec row :: _ => Nat.eqb (length row) 2 | _ => false end.
(** src/meshio/vtk/_vtk_51.py:479-480 [_pad] (also vtk/_vtk_42.py:603-604), [np.column_stack] with zeros of vtu/_vtu.py:625 and avsucd/_avsucd.py:153 *)
Definition pad_entry (e : entry) : entry :=
  match e with Vec row => Vec (row ++ [zero]) | _ => e end.
Definition pad_rows (l : list entry) : list entry := if two_columns l then map pad_entry l else l.
Definition pad_arr (a : arr entry) : arr entry :=
  match a with AInt l => AInt l | AOther l => AOther (pad_rows l) end.

(** src/meshio/vtk/_vtk_42.py:615-632, vtk/_vtk_51.py:493-510 *)
Definition pad_data (m : mesh entry) : mesh entry :=
  Mesh (points m) (cells m) (map (fun kv => (fst kv, pad_arr (snd kv))) (point_data m))
    (map (fun kv => (fst kv, map pad_arr (snd kv))) (cell_data m)) (point_sets m) (cell_sets m).

(** src/meshio/vtk/_vtk_42.py:602-656: the points are padded in a local variable only *)
Definition write_vtk42 {File} (rest : list entry -> mesh entry -> result File) : writer File := fun m =>
  let m' := pad_data m in (rest (pad_rows (points m)) m', m').

(** src/meshio/vtk/_vtk_51.py:519-520, 528-529 and vtu/_vtu.py:634-635, 643-644 *)
Definition set_key (names : list string) : result string :=
  do j <- join_strings names; do k <- replace_space (fst j); Ok (fst k).
(** A change of the mesh that may fail, leaving the mesh as it is *)
Definition attempt (f : mesh entry -> result (mesh entry)) (m : mesh entry) : result unit * mesh entry :=
  match f m with Ok m' => (Ok tt, m') | Err e => (Err e, m) end.
(** src/meshio/vtk/_vtk_51.py:514-521, vtu/_vtu.py:629-636; the name is passed as the string to join with *)
Definition convert_point_sets (m : mesh entry) : result (mesh entry) :=
  match point_sets m with
  | [] => Ok m
  | ps => do key <- set_key (dkeys ps); point_sets_to_data key m
  end.
(** src/meshio/vtk/_vtk_51.py:523-530, vtu/_vtu.py:638-645 *)
Definition convert_cell_sets (m : mesh entry) : result (mesh entry) :=
  match cell_sets m with
  | [] => Ok m
  | cs => do key <- set_key (dkeys cs); cell_sets_to_data (Some key) m
  end.
Definition convert_sets (m : mesh entry) : result unit * mesh entry :=
  match attempt convert_point_sets m with
  | (Err e, m') => (Err e, m')
  | (Ok _, m') => attempt convert_cell_sets m'
  end.

(** src/meshio/vtk/_vtk_51.py:483-548 *)
Definition write_vtk51 {File} (rest : list entry -> mesh entry -> result File) : writer File := fun m =>
  match convert_sets (pad_data m) with
  | (Err e, m') => (Err e, m')
  | (Ok _, m') => (rest (pad_rows (points m)) m', m')
  end.

(** src/meshio/vtu/_vtu.py:584-700: [check] stands for lines 600-615 (types of polyhedra).  Lines 671-700 store arrays
    with the same values and the native byte order. *)
Definition write_vtu {File} (check : list block -> result unit) (rest : list entry -> mesh entry -> result File) : writer File := fun m =>
  match check (cells m) with
  | Err e => (Err e, m)
  | Ok _ =>
      match convert_sets m with
      | (Err e, m') => (Err e, m')
      | (Ok _, m') => (rest (pad_rows (points m)) m', m')
      end
  end.

(** src/meshio/avsucd/_avsucd.py:147-153 *)
Definition write_avsucd {File} (rest : mesh entry -> result File) : writer File := fun m =>
  let m' := Mesh (pad_rows (points m)) (cells m) (point_data m) (cell_data m) (point_sets m) (cell_sets m) in
  (rest m', m').
End Effects.
Arguments entry : clear implicits.

(** ** PLY *)
(** A block with the information whether its array has the type int64 *)
Notation int_block := (bool * block)%type.
(** [astype(np.int32)] *)
Definition to_int32 (z : Z) : Z := ((z + 2147483648) mod 4294967296 - 2147483648)%Z.
Definition cast_block (b : int_block) : int_block :=
  if fst b then (false, Block (btype (snd b)) (map (map to_int32) (bdata (snd b)))) else b.
(** src/meshio/ply/_ply.py:447 *)
Definition ply_types : list string := ["vertex"; "line"; "triangle"; "quad"; "polygon"].
(** src/meshio/ply/_ply.py:446-463 *)
Definition ply_num_cells (bs : list int_block) : nat :=
  sum_nat (map (fun b => if smem (btype (snd b)) ply_types then blen (snd b) else 0) bs).
Definition ply_cast (bs : list int_block) : list int_block :=
  if Nat.ltb 0 (ply_num_cells bs) then map cast_block bs else bs.
(** src/meshio/ply/_ply.py:385-520: [head] stands for lines 391-444 (points and point data), [rest] for what follows the cast. *)
Definition write_ply {O File} (head : O -> result unit) (rest : O -> list int_block -> result File)
  (m : O * list int_block) : result File * (O * list int_block) :=
  match head (fst m) with
  | Err e => (Err e, m)
  | Ok _ => let bs := ply_cast (snd m) in (rest (fst m) bs, (fst m, bs))
  end.

(** ** FLAC3D: src/meshio/flac3d/_flac3d.py:286-330 with the sets of the mesh afterwards *)
Definition flac3d_writer {fl : floats} (g : geom fl) (v date : string) (m : flac_in fl) : result (list string) * flac_in fl :=
  match write_flac3d g v date m with
  | Err e => (Err e, m)
  | Ok (f, after) => (Ok f, FlacIn (fi_points m) (fi_cells m) after)
  end.
