(** Independent specification for Tecplot files (C49). *)
From Verif.Lib Require Import Base Text Lines.
From Verif.Model Require Import Core Abaqus Avsucd Tecplot.

(** The cells Tecplot knows: dimension and number of nodes. *)
Definition tec_types : dict (nat * nat) := [
  ("line", (1, 2)); ("triangle", (2, 3)); ("quad", (2, 4));
  ("tetra", (3, 4)); ("pyramid", (3, 5)); ("wedge", (3, 6)); ("hexahedron", (3, 8)) ].
(** The number of nodes of each row of a zone, and the cell type, as in the format description. *)
Definition zone_nodes : dict (nat * string) := [
  ("FELINESEG", (2, "line")); ("FETRIANGLE", (3, "triangle")); ("FEQUADRILATERAL", (4, "quad"));
  ("FETETRAHEDRON", (4, "tetra")); ("FEBRICK", (8, "hexahedron")) ].

Definition tec_dim (b : block) : option nat := option_map fst (dget (btype b) tec_types).
(** The cells of a known type have the right number of nodes. *)
Definition tec_block (b : block) : Prop := forall d n, dget (btype b) tec_types = Some (d, n) -> Forall (fun c => length c = n) (bdata b).
(** The dimensions of the blocks with a known type; the highest one, and the blocks that have it (with their positions). *)
Definition tec_dims (bs : list block) : list nat := flat_map (fun b => match tec_dim b with Some d => [d] | None => [] end) bs.
Definition top_dim (bs : list block) : nat := list_max (tec_dims bs).
Definition top_blocks (bs : list block) : list (nat * block) :=
  filter (fun ib => match tec_dim (snd ib) with Some d => Nat.eqb d (top_dim bs) | None => false end) (enumerate bs).
Definition top_cells (bs : list block) : list cell := concat (map (fun ib => bdata (snd ib)) (top_blocks bs)).
(** A row for a cell: the same nodes as a set, and in the same order unless nodes are repeated. *)
Definition padded (c row : cell) : Prop := (forall i, In i c <-> In i row) /\ (length row = length c -> row = c).

(** The first block of a known type is a surface although there are solids. *)
Definition surface_first (bs : list block) : Prop := hd 0 (tec_dims bs) = 2 /\ In 3 (tec_dims bs).
(** What the writer accepts: some block of a known type; lines not together with surfaces. *)
Definition tec_accepts (bs : list block) : Prop := tec_dims bs <> [] /\ ~ (In 1 (tec_dims bs) /\ In 2 (tec_dims bs)).

(** Data. *)
Definition axis (k : string) : bool := smem k ["X"; "Y"; "Z"; "x"; "y"; "z"].
Definition tec_array {A} (n : nat) (a : shape * list (list A)) : Prop :=
  length (snd a) = n /\ Forall (fun r => length r = width (fst a)) (snd a).
(** The columns of an array with their names: the name of the array, with a number if it has several columns. *)
Definition columns_of {fl : floats} (k : string) (a : shape * list (list fl)) : list (string * list fl) :=
  if axis k then []
  else match fst a with
       | None => [(k, map (fun r => nth 0 r fzero) (snd a))]
       | Some w => map (fun i => ((k ++ "_" ++ str_of_nat i)%string, map (fun r => nth i r fzero) (snd a))) (seq 0 w)
       end.
Definition point_columns {fl : floats} (m : tec_mesh fl) : list (string * list fl) :=
  flat_map (fun ka => columns_of (fst ka) (snd ka)) (tm_pdata m).
(** Cell data of the blocks that are written. *)
Definition cell_columns {fl : floats} (m : tec_mesh fl) : list (string * list fl) :=
  flat_map (fun ka => columns_of (fst ka) (fst (snd ka), concat (map (fun ib => nth (fst ib) (snd (snd ka)) []) (top_blocks (tm_cells m))))) (tm_cdata m).
(** A name without blanks, commas, quotes and equality signs. *)
Definition tec_name (k : string) : Prop :=
  k <> ""%string /\ word k = true /\ char_in "," k = false /\ char_in "=" k = false /\ char_in (ascii_of_nat 34) k = false.

Definition tec_good {fl : floats} (m : tec_mesh fl) : Prop :=
  tm_points m <> [] /\ (exists d, (d = 2 \/ d = 3) /\ Forall (fun p => length p = d) (tm_points m)) /\
  Forall tec_block (tm_cells m) /\ tec_accepts (tm_cells m) /\
  Forall (fun ka => tec_array (length (tm_points m)) (snd ka)) (tm_pdata m) /\
  Forall (fun ka => Forall2 (fun b v => tec_array (blen b) (fst (snd ka), v)) (tm_cells m) (snd (snd ka))) (tm_cdata m) /\
  Forall (fun kv => tec_name (fst kv)) (point_columns m ++ cell_columns m) /\
  NoDup (map fst (point_columns m ++ cell_columns m)).

(** Numbers: words of the zone record are no numbers, and numbers in upper case still are. *)
Definition tec_floats (fl : floats) : Prop :=
  floats_ok fl /\ @fparse fl "DATAPACKING" = None /\ @fparse fl "VARLOCATION" = None /\
  forall x : fl, char_in "#" (ffmt x) = false /\ @fparse fl (upper (ffmt x)) <> None.
