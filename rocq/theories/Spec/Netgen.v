(** Meshes that a Netgen file can hold, and what a round trip makes of them (C50). *)
From Coq Require Import List String ZArith.
From Verif.Lib Require Import Base Text Lines.
From Verif.Model Require Import Core Avsucd Netgen.
From Verif.Spec Require Import Core Blocks.

(** The supported types of a mesh, with dimension and number of nodes. *)
Definition netgen_types : list (string * (nat * nat)) :=
  [("vertex", (0, 1)); ("line", (1, 2)); ("triangle", (2, 3)); ("triangle6", (2, 6)); ("quad", (2, 4)); ("quad8", (2, 8));
   ("tetra", (3, 4)); ("tetra10", (3, 10)); ("pyramid", (3, 5)); ("wedge", (3, 6)); ("hexahedron", (3, 8)); ("hexahedron20", (3, 20))].
Definition netgen_dim (t : string) : nat := match dget t netgen_types with Some (d, _) => d | None => 4 end.
(** Node numbers are written as 32-bit integers, counted from one. *)
Definition netgen_block (b : block) : Prop :=
  exists d w, In (btype b, (d, w)) netgen_types /\
    Forall (fun c => length c = w /\ Forall (fun i => (0 <= i < 2147483647)%Z) c) (bdata b).

(** The index of each cell: the cell data netgen:index, or the first cell data of integers. *)
Fixpoint int_data {F} (d : dict (cdata F)) : option (list (list Z)) :=
  match d with
  | [] => None
  | (_, CInts v) :: _ => Some v
  | (_, CReals _ _) :: d' => int_data d'
  end.
Definition index_data {F} (m : ng_mesh F) : option (list (list Z)) :=
  match dget "netgen:index" (ng_cdata m) with Some (CInts v) => Some v | _ => int_data (ng_cdata m) end.
(** Each block with the indices of its cells; 1 if there are none. *)
Definition indexed {F} (m : ng_mesh F) : list (block * list Z) :=
  combine (ng_cells m)
    (match index_data m with Some v => v | None => map (fun b => map (fun _ => 1%Z) (bdata b)) (ng_cells m) end).
(** The order in the file: surfaces, volumes, edges, points. *)
Definition with_dim {A} (d : nat) (l : list (block * A)) : list (block * A) :=
  filter (fun bx => Nat.eqb (netgen_dim (btype (fst bx))) d) l.
Definition by_dimension {A} (l : list (block * A)) : list (block * A) :=
  with_dim 2 l ++ with_dim 3 l ++ with_dim 1 l ++ with_dim 0 l.

(** The names of the regions of dimension [dim], with their identifiers: from the field data, or made up from the indices.  [codim] is
    the codimension, which occurs in the names made up. *)
Definition given_names {F} (m : ng_mesh F) (dim : Z) : list (Z * string) :=
  map (fun kv => (fst (snd kv), fst kv)) (filter (fun kv => Z.eqb (snd (snd kv)) dim) (ng_field m)).
Definition made_names {F} (m : ng_mesh F) (dim codim : nat) : list (Z * string) :=
  match index_data m with
  | None => []
  | Some v => map (fun i => (i, ("cd" ++ str_of_nat codim ++ "_" ++ str_of_Z i)%string))
                (concat (map snd (with_dim dim (combine (ng_cells m) v))))
  end.
Definition region_names {F} (m : ng_mesh F) (dim codim : nat) : list (Z * string) :=
  match given_names m (Z.of_nat dim) with [] => made_names m dim codim | l => l end.
(** For each identifier from 1 on: the last name given to it. *)
Definition last_name (l : list (Z * string)) (i : Z) : option string :=
  option_map snd (find (fun x => Z.eqb (fst x) i) (rev l)).
Definition regions_back {F} (m : ng_mesh F) (dim codim : nat) : list (string * (Z * Z)) :=
  let l := region_names m dim codim in
  flat_map (fun i => match last_name l (Z.of_nat i) with Some s => [(s, (Z.of_nat i, Z.of_nat dim))] | None => [] end)
    (seq 1 (Z.to_nat (fold_right Z.max 0%Z (map fst l)))).
(** All of them, for codimensions 0 up to the dimension [d]; of equal names the last one. *)
Definition field_back {F} (m : ng_mesh F) (d : nat) : dict (Z * Z) :=
  fold_left (fun acc kv => dset (fst kv) (snd kv) acc) (flat_map (fun c => regions_back m (d - c) c) (seq 0 (S d))) [].

(** Identifications come back if there is at least one. *)
Definition info_back (i : option (list (list Z) * list Z)) : option (list (list Z) * option (list Z)) :=
  match i with
  | Some (r :: ids, types) => Some (r :: ids, match types with [] => None | _ => Some types end)
  | _ => None
  end.

Definition netgen_good {F} (m : ng_mesh F) (d : nat) : Prop :=
  1 <= d <= 3 /\ ng_points m <> [] /\ Forall (fun p => length p = d) (ng_points m) /\
  Forall netgen_block (ng_cells m) /\
  (forall k s v, In (k, CReals s v) (ng_cdata m) -> length v = length (ng_cells m) /\ k <> "netgen:index"%string) /\
  (forall k v, In (k, CInts v) (ng_cdata m) -> Forall2 (fun b l => length l = blen b /\ Forall (fun i => (-2147483648 <= i < 2147483648)%Z) l) (ng_cells m) v) /\
  (ng_cells m = [] -> ng_cdata m = []) /\
  Forall (fun kv => word (fst kv) = true) (ng_field m) /\
  (forall ids types, ng_info m = Some (ids, types) -> Forall (fun r => length r = 3) ids).
(** Printed numbers do not contain the sign that starts a comment. *)
Definition netgen_floats (fl : floats) : Prop := floats_ok fl /\ forall x : fl, char_in "#" (ffmt x) = false.
