(** Specification vocabulary for the mesh object (C01-C10, C59).
    Nothing here refers to the functions of Model/Core.v, only to its data types. *)
From Verif.Lib Require Import Base Text.
From Verif.Model Require Import Core.

(** A cell type a mesh may contain. *)
Definition known_type (t : string) : Prop :=
  String.prefix "polyhedron" t = true \/ In t (map fst topological_dimension).

(** What the constructor is supposed to accept: known types, one point datum per point,
    one cell data array per block with one datum per cell. *)
Definition consistent {F} (pts : list F) (cs : list (string * list cell))
    (pd : dict (arr F)) (cd : dict (list (arr F))) : Prop :=
  (forall t rows, In (t, rows) cs -> known_type t) /\
  (forall name a, In (name, a) pd -> alen a = length pts) /\
  (forall name arrays, In (name, arrays) cd ->
     Forall2 (fun a c => alen a = length (snd c)) arrays cs).

(** All cells of the mesh in order, each tagged with its type. *)
Definition all_cells (bs : list block) : list (string * cell) :=
  flat_map (fun b => map (pair (btype b)) (bdata b)) bs.

Definition is_type (t : string) (b : block) : bool := String.eqb (btype b) t.

(** The cells of type [t], in order. *)
Definition cells_of (t : string) (bs : list block) : list cell :=
  map snd (filter (fun tc => String.eqb (fst tc) t) (all_cells bs)).

(** Each element once, in order of first occurrence. *)
Fixpoint first_occurrences (l : list string) : list string :=
  match l with
  | [] => []
  | x :: xs => x :: filter (fun y => negb (String.eqb y x)) (first_occurrences xs)
  end.

(** Number of cells of type [t] in the blocks before block [j]: the position among all
    cells of that type at which block [j] starts. *)
Definition type_offset (t : string) (bs : list block) (j : nat) : nat :=
  sum_nat (map blen (filter (is_type t) (firstn j bs))).

(** Block [j] has a member [m] in the set (None = no entry = no members). *)
Definition member (sets : list (option (list nat))) (j m : nat) : Prop :=
  exists ms, nth_error sets j = Some (Some ms) /\ In m ms.

(** [i] is the last set of the family that contains cell/point [k] of block [j]. *)
Definition last_set_containing (family : list (list (option (list nat)))) (j k i : nat) : Prop :=
  (exists s, nth_error family i = Some s /\ member s j k) /\
  (forall i' s, i < i' -> nth_error family i' = Some s -> ~ member s j k).

Definition in_no_set (family : list (list (option (list nat)))) (j k : nat) : Prop :=
  forall i s, nth_error family i = Some s -> ~ member s j k.

(** Every set has one entry per block and only refers to existing cells. *)
Definition sets_fit (family : list (list (option (list nat)))) (bs : list block) : Prop :=
  forall s, In s family ->
    length s = length bs /\
    (forall j k b, nth_error bs j = Some b -> member s j k -> k < blen b).

(** Every cell is in exactly one set, and no set is empty. *)
Definition partitions (family : list (list (option (list nat)))) (bs : list block) : Prop :=
  (forall j b k, nth_error bs j = Some b -> k < blen b ->
     exists i, (exists s, nth_error family i = Some s /\ member s j k) /\
       forall i' s, nth_error family i' = Some s -> member s j k -> i' = i) /\
  (forall s, In s family -> exists j k, member s j k).

Definition no_dash (s : string) : Prop := char_in "-" s = false.

(** The dimension of a cell type, by the shape its name starts with. *)
Definition shape_dimension (t : string) : option nat :=
  let is p := String.prefix p t in
  if String.eqb t "vertex" then Some 0
  else if is "line" || is "VTK_LAGRANGE_CURVE" then Some 1
  else if is "triangle" || is "quad" || is "polygon" ||
          is "VTK_LAGRANGE_TRIANGLE" || is "VTK_LAGRANGE_QUADRILATERAL" then Some 2
  else if is "tetra" || is "hexahedron" || is "wedge" || is "pyramid" || is "polyhedron" ||
          is "VTK_LAGRANGE" then Some 3
  else None.
