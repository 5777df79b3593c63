(** Model of src/meshio/gmsh/_gmsh41.py (MSH 4.1), for ASCII and binary files alike: the file is read and written
    through a [port]. *)
From Coq Require Import ZArith NArith List String Ascii Bool.
From Verif.Lib Require Import Base Text Lines Bytes File.
From Verif.Model Require Import Core Gmsh Gmsh22 Port.
Import ListNotations.
Local Open Scope string_scope.
Local Open Scope list_scope.

(** A periodic link: dimension, slave and master entity, affine transformation, pairs of nodes. *)
Record link (F : Type) : Type := Link {
  k_dim : Z; k_slave : Z; k_master : Z; k_affine : option (list F); k_nodes : list (Z * Z) }.
Arguments Link {F} _ _ _ _ _.
Arguments k_dim {F} _.
Arguments k_slave {F} _.
Arguments k_master {F} _.
Arguments k_affine {F} _.
Arguments k_nodes {F} _.

(** The parts of a mesh that MSH 4.1 stores.  point_data["gmsh:dim_tags"], cell_data["gmsh:physical"],
    cell_data["gmsh:geometrical"] and cell_sets["gmsh:bounding_entities"] are kept apart from the other data, as the
    writer does (lines 295-312).  The writer drops cell_data["cell_tags"] and the other cell sets.  A data array is a
    list of rows; arrays of shape (n,) and (n, 1) are both lists of rows of length 1. *)
Record mesh41 (F : Type) : Type := Mesh41 {
  m_points : list (list F);
  m_cells : list block;
  m_dim_tags : option (list (Z * Z));
  m_phys : option (list (list Z));
  m_geom : option (list (list Z));
  m_bounds : option (list (option (list Z)));
  m_names : dict (Z * Z);
  m_sets : dict (list (list nat));
  m_periodic : option (list (link F));
  m_pdata : dict (list (list F));
  m_cdata : dict (list (list (list F))) }.
Arguments Mesh41 {F} _ _ _ _ _ _ _ _ _ _ _.
Arguments m_points {F} _.
Arguments m_cells {F} _.
Arguments m_dim_tags {F} _.
Arguments m_phys {F} _.
Arguments m_geom {F} _.
Arguments m_bounds {F} _.
Arguments m_names {F} _.
Arguments m_sets {F} _.
Arguments m_periodic {F} _.
Arguments m_pdata {F} _.
Arguments m_cdata {F} _.

(** [np.unique(dim_tags, axis=0)]: the different rows in lexicographic order *)
Definition pair_lt (a b : Z * Z) : bool := (fst a <? fst b)%Z || ((fst a =? fst b)%Z && (snd a <? snd b)%Z).
Definition pair_eqb (a b : Z * Z) : bool := (fst a =? fst b)%Z && (snd a =? snd b)%Z.
Fixpoint pinsert (x : Z * Z) (l : list (Z * Z)) : list (Z * Z) :=
  match l with
  | [] => [x]
  | y :: ys => if pair_eqb x y then l else if pair_lt x y then x :: l else y :: pinsert x ys
  end.
Definition punique (l : list (Z * Z)) : list (Z * Z) := fold_right pinsert [] l.

Section Msh41.
Context {F : Type} (zero : F) (p : port F).
Let stream := list (unt p).

(** ** Writer *)

(** 387-398: dimension and entity of every block; [tag_data["gmsh:geometrical"][ci][0]] *)
Definition first_tag (d : option (list (list Z))) (i : nat) : result Z :=
  do l <- of_option KeyError d;
  do a <- of_option IndexError (nth_error l i);
  of_option IndexError (hd_error a).
Definition block_entity (m : mesh41 F) (ib : nat * block) : result (Z * Z) :=
  do d <- cellblock_dim (btype (snd ib));
  do g <- first_tag (m_geom m) (fst ib);
  Ok (Z.of_nat d, g).

(** 407-517: one entity.  Simplification: the zeros of the bounding box are printed like other floats (the ASCII
    writer prints 0; the reader discards them), and blanks before the line end are left out. *)
Definition entity_row (m : mesh41 F) (cell_ents : list (Z * Z)) (e : Z * Z) : result (list (item F)) :=
  let (dim, tag) := e in
  let found := where_ (pair_eqb e) cell_ents in
  if Nat.ltb 1 (length found) then Err ValueError else
  do phys <- match found with
             | k :: _ => do t <- first_tag (m_phys m) k; Ok [Int CSize 1; Int CInt t]
             | [] => Ok [Int CSize 0]
             end;
  do bnd <- (if (0 <? dim)%Z then
               match m_bounds m, found with
               | Some bs, k :: _ =>
                   do ob <- of_option IndexError (nth_error bs k);
                   do b <- of_option TypeError ob;
                   Ok (Int CSize (Z.of_nat (length b)) :: map (Int CInt) b)
               | _, _ => Ok [Int CSize 0]
               end
             else Ok []);
  Ok (Int CInt tag :: repeat (Dbl zero) (if (dim =? 0)%Z then 3 else 6) ++ phys ++ bnd).

(** 344-523 [_write_entities].  np.bincount raises ValueError for negative dimensions. *)
Definition count_dim (ents : list (Z * Z)) (d : Z) : Z := Z.of_nat (length (filter (fun e => (fst e =? d)%Z) ents)).
Definition write_entities (m : mesh41 F) : result stream :=
  match m_dim_tags m with
  | None => Ok []
  | Some dt =>
      let ents := punique dt in
      if negb (forallb (fun e => (0 <=? fst e)%Z && (fst e <=? 3)%Z) ents) then Err ValueError else
      do ces <- mapM (block_entity m) (enumerate (m_cells m));
      do rows <- mapM (entity_row m ces) ents;
      Ok (opening p "Entities" ++ put p (map (fun d => Int CSize (count_dim ents d)) [0; 1; 2; 3]%Z :: rows)
          ++ closing p "Entities")
  end.

(** 541-544 *)
Definition pad41 (pt : list F) : list F := match pt with [x; y] => [x; y; zero] | _ => pt end.

(** 566-590: the entities and, for each, the nodes that belong to it *)
Definition node_groups (m : mesh41 F) : result (list ((Z * Z) * list nat)) :=
  match m_dim_tags m with
  | Some dt => Ok (map (fun e => (e, where_ (pair_eqb e) dt)) (punique dt))
  | None =>
      match m_cells m with
      | [b] => do d <- cellblock_dim (btype b); Ok [((Z.of_nat d, 0%Z), seq 0 (length (m_points m)))]
      | _ => Err WriteError
      end
  end.
(** 604-622: one group *)
Definition group_rows (pts : list (list F)) (g : (Z * Z) * list nat) : result (list (list (item F))) :=
  do xs <- mapM (fun i => of_option IndexError (nth_error pts i)) (snd g);
  Ok ([Int CInt (fst (fst g)); Int CInt (snd (fst g)); Int CInt 0; Int CSize (Z.of_nat (length (snd g)))]
      :: map (fun i => [Int CSize (Z.of_nat (i + 1))]) (snd g) ++ map (map Dbl) xs).
(** 526-626 [_write_nodes] *)
Definition write_nodes41 (m : mesh41 F) : result stream :=
  do gs <- node_groups m;
  do rows <- mapM (group_rows (map pad41 (m_points m))) gs;
  let n := Z.of_nat (length (m_points m)) in
  Ok (opening p "Nodes" ++ put p ([Int CSize (Z.of_nat (length gs)); Int CSize n; Int CSize 1; Int CSize n] :: concat rows)
      ++ closing p "Nodes").

(** 654-720: one block, elements numbered from [start] *)
Definition block_rows (m : mesh41 F) (start : nat) (ib : nat * block) : result (list (list (item F))) :=
  let b := snd ib in
  do rows <- mapM (meshio_to_gmsh_order (btype b)) (bdata b);
  do tag <- match m_geom m with Some _ => first_tag (m_geom m) (fst ib) | None => Ok 0%Z end;
  do code <- of_option KeyError (dget (btype b) meshio_to_gmsh_type);
  do d <- cellblock_dim (btype b);
  Ok ([Int CInt (Z.of_nat d); Int CInt tag; Int CInt code; Int CSize (Z.of_nat (blen b))]
      :: map (fun kr => Int CSize (Z.of_nat (start + fst kr)) :: map (fun i => Int CSize (i + 1)) (snd kr)) (enumerate rows)).
Fixpoint blocks_rows (m : mesh41 F) (start : nat) (l : list (nat * block)) : result (list (list (item F))) :=
  match l with
  | [] => Ok []
  | ib :: l' =>
      do r <- block_rows m start ib;
      do rs <- blocks_rows m (start + blen (snd ib)) l';
      Ok (r ++ rs)
  end.
(** 629-722 [_write_elements] *)
Definition write_elements41 (m : mesh41 F) : result stream :=
  do rows <- blocks_rows m 1 (enumerate (m_cells m));
  let n := Z.of_nat (sum_nat (map blen (m_cells m))) in
  Ok (opening p "Elements"
      ++ put p ([Int CSize (Z.of_nat (length (m_cells m))); Int CSize n; Int CSize 1; Int CSize n] :: rows)
      ++ closing p "Elements").

(** 725-768 [_write_periodic] *)
Definition link_rows (k : link F) : list (list (item F)) :=
  [Int CInt (k_dim k); Int CInt (k_slave k); Int CInt (k_master k)]
  :: match k_affine k with
     | Some (x :: a) => Int CSize (Z.of_nat (length (x :: a))) :: map Dbl (x :: a)
     | _ => [Int CSize 0]
     end
  :: [Int CSize (Z.of_nat (length (k_nodes k)))]
  :: map (fun sm => [Int CSize (fst sm + 1); Int CSize (snd sm + 1)]) (k_nodes k).
Definition write_periodic41 (ks : list (link F)) : stream :=
  opening p "Periodic" ++ put p ([Int CSize (Z.of_nat (length ks))] :: flat_map link_rows ks) ++ closing p "Periodic".

(** [data.shape[1] if len(data.shape) > 1 else 1] *)
Definition components41 (rows : list (list F)) : nat := match rows with r :: _ => length r | [] => 1 end.

(** 292-341 [write] *)
Definition write41 (m : mesh41 F) : result stream :=
  do ents <- write_entities m;
  do nodes <- write_nodes41 m;
  do els <- write_elements41 m;
  do pd <- mapM (fun kv => put_data p "NodeData" (fst kv) (components41 (snd kv)) (snd kv)) (m_pdata m);
  do raw <- raw_from_cell_data (m_cdata m);
  do cd <- mapM (fun kv => put_data p "ElementData" (fst kv) (components41 (snd kv)) (snd kv)) raw;
  Ok (put_header p "4.1" ++ text p (write_physical_names (m_names m)) ++ ents ++ nodes ++ els
      ++ match m_periodic m with Some ks => write_periodic41 ks | None => [] end ++ concat pd ++ concat cd).

(** ** Reader *)

(** [(x,) = fromfile(f, type, 1)] *)
Definition get_one (k : ikind) (s : stream) : result (Z * stream) :=
  do r <- get_ints p k 1 s;
  match fst r with [z] => Ok (z, snd r) | _ => Err ValueError end.

(** [physical_tags] and [bounding_entities]: dictionaries by dimension and tag, last entry first *)
Definition tagdict : Type := list ((Z * Z) * list Z).
Fixpoint tag_get (e : Z * Z) (d : tagdict) : option (list Z) :=
  match d with
  | [] => None
  | (e', l) :: d' => if pair_eqb e e' then Some l else tag_get e d'
  end.
(** [d[dim][tag]] for a tuple of four dictionaries.  Simplification: IndexError for a negative dimension. *)
Definition tag_lookup (e : Z * Z) (d : tagdict) : result (list Z) :=
  if (0 <=? fst e)%Z && (fst e <=? 3)%Z then of_option KeyError (tag_get e d) else Err IndexError.

(** 128-138: one entity of dimension [d] *)
Definition read_entity (d : nat) (s : stream) : result ((Z * list Z * list Z) * stream) :=
  do t <- get_one CInt s;
  do bb <- get_floats p (if Nat.eqb d 0 then 3 else 6) (snd t);
  do np <- get_one CSize (snd bb);
  do ph <- get_ints p CInt (Z.to_nat (fst np)) (snd np);
  if Nat.eqb d 0 then Ok ((fst t, fst ph, []), snd ph) else
  do nb <- get_one CSize (snd ph);
  do bs <- get_ints p CInt (Z.to_nat (fst nb)) (snd nb);
  Ok ((fst t, fst ph, fst bs), snd bs).
Fixpoint read_entities_of (d n : nat) (s : stream) (pt be : tagdict) : result (tagdict * tagdict * stream) :=
  match n with
  | O => Ok (pt, be, s)
  | S n' =>
      do r <- read_entity d s;
      let '(t, ph, bs) := fst r in
      let e := (Z.of_nat d, t) in
      read_entities_of d n' (snd r) ((e, ph) :: pt) (if Nat.eqb d 0 then be else (e, bs) :: be)
  end.
Fixpoint read_dims (d : nat) (ns : list Z) (s : stream) (pt be : tagdict) : result (tagdict * tagdict * stream) :=
  match ns with
  | [] => Ok (pt, be, s)
  | n :: ns' =>
      do r <- read_entities_of d (Z.to_nat n) s pt be;
      let '(pt', be', s') := r in read_dims (S d) ns' s' pt' be'
  end.
(** 113-141 [_read_entities] *)
Definition read_entities (s : stream) : result (tagdict * tagdict * stream) :=
  do c <- get_ints p CSize 4 s;
  do r <- read_dims 0 (fst c) (snd c) [] [];
  let '(pt, be, s') := r in Ok (pt, be, skip_end p "Entities" s').

(** 164-189: one block of nodes: tags minus one, points, entity *)
Definition read_group (s : stream) : result (list (Z * list F * (Z * Z)) * stream) :=
  do h <- get_ints p CInt 3 s;
  match fst h with
  | [dim; tag; par] =>
      if negb (par =? 0)%Z then Err ReadError else
      do n <- get_one CSize (snd h);
      let k := Z.to_nat (fst n) in
      do ts <- get_ints p CSize k (snd n);
      do xs <- get_floats p (k * 3) (snd ts);
      if Nat.eqb (length (fst ts)) k && Nat.eqb (length (fst xs)) (k * 3) then
        Ok (map (fun tx => (fst tx - 1, snd tx, (dim, tag))%Z) (combine (fst ts) (chunks 3 (fst xs))), snd xs)
      else Err ValueError
  | _ => Err ValueError
  end.
Fixpoint read_groups (n : nat) (s : stream) : result (list (Z * list F * (Z * Z)) * stream) :=
  match n with
  | O => Ok ([], s)
  | S n' => do g <- read_group s; do r <- read_groups n' (snd g); Ok (fst g ++ fst r, snd r)
  end.
(** 144-193 [_read_nodes].  The arrays have the announced total length: more nodes raise ValueError, and with fewer
    the rest of the arrays is arbitrary (here an error too). *)
Definition read_nodes41 (s : stream) : result (list (Z * list F * (Z * Z)) * stream) :=
  do h <- get_ints p CSize 4 s;
  match fst h with
  | [nb; total; _; _] =>
      do r <- read_groups (Z.to_nat nb) (snd h);
      if Z.eqb (Z.of_nat (length (fst r))) total then Ok (fst r, skip_end p "Nodes" (snd r)) else Err ValueError
  | _ => Err ValueError
  end.

(** 210-245: one block of elements: entity, type, rows of node tags *)
Record rblock : Type := RBlock { rb_entity : Z * Z; rb_type : string; rb_rows : list (list Z) }.
Definition read_block41 (s : stream) : result (rblock * stream) :=
  do h <- get_ints p CInt 3 s;
  match fst h with
  | [dim; tag; code] =>
      do n <- get_one CSize (snd h);
      do t <- of_option KeyError (zget code gmsh_to_meshio_type);
      do w <- of_option KeyError (dget t num_nodes_per_cell);
      let k := Z.to_nat (fst n) in
      do d <- get_ints p CSize (k * (1 + w)) (snd n);
      (* reshape((0, -1)) raises ValueError *)
      if Nat.eqb k 0 || negb (Nat.eqb (length (fst d)) (k * (1 + w))) then Err ValueError else
      Ok (RBlock (dim, tag) t (map (@tl Z) (chunks (1 + w) (fst d))), snd d)
  | _ => Err ValueError
  end.
Fixpoint read_blocks41 (n : nat) (s : stream) : result (list rblock * stream) :=
  match n with
  | O => Ok ([], s)
  | S n' => do b <- read_block41 s; do r <- read_blocks41 n' (snd b); Ok (fst b :: fst r, snd r)
  end.
(** 214-226: the members of a physical group in a block *)
Definition set_part (pt : option tagdict) (nd : Z * Z) (b : rblock) : result (list nat) :=
  match pt with
  | None => Ok []
  | Some pt =>
      if (snd nd =? fst (rb_entity b))%Z then
        do l <- tag_lookup (rb_entity b) pt;
        Ok (if existsb (Z.eqb (fst nd)) l then seq 0 (length (rb_rows b)) else [])
      else Ok []
  end.
(** 251-253: positions of the node tags; [d - 1] of the unsigned number 0 is out of range *)
Definition node_positions (table : list Z) (row : list Z) : result (list Z) :=
  if forallb (fun t => (0 <? t)%Z) row then lookup_cell table (map (fun t => t - 1)%Z row) else Err IndexError.
(** 196-281 [_read_elements].  Physical tags and bounding entities are None without an Entities section.  CellBlock
    (_mesh.py:86-99) raises KeyError for the types without a dimension.
    Simplification: a physical group called gmsh:bounding_entities is not modelled. *)
Definition physical_of (pt : option tagdict) (b : rblock) : result (list Z) :=
  match pt with None => Ok [] | Some pt => tag_lookup (rb_entity b) pt end.
Definition bounds_of (be : option tagdict) (b : rblock) : result (option (list Z)) :=
  match be with
  | None => Ok None
  | Some be => if (0 <? fst (rb_entity b))%Z then do l <- tag_lookup (rb_entity b) be; Ok (Some l) else Ok None
  end.
Record elements41 : Type := Elements41 {
  el_cells : list block; el_phys : option (list (list Z)); el_geom : option (list (list Z));
  el_sets : dict (list (list nat)); el_bounds : option (list (option (list Z))) }.
(** 266-270: an array for every block that has a tag; the key exists if there is one *)
Definition physical_arrays (bs : list rblock) (pts : list (list Z)) : option (list (list Z)) :=
  match flat_map (fun bt => match snd bt with [] => [] | t :: _ => [repeat t (length (rb_rows (fst bt)))] end)
                 (combine bs pts) with
  | [] => None
  | l => Some l
  end.
Definition read_elements41 (tags : list Z) (ents : option (tagdict * tagdict)) (names : dict (Z * Z)) (s : stream)
  : result (elements41 * stream) :=
  let pt := option_map fst ents in
  let be := option_map snd ents in
  do h <- get_ints p CSize 4 s;
  match fst h with
  | [nb; _; _; _] =>
      do r <- read_blocks41 (Z.to_nat nb) (snd h);
      let bs := fst r in
      do sets <- mapM (fun kv => do parts <- mapM (set_part pt (snd kv)) bs; Ok (fst kv, parts)) names;
      do pts <- mapM (physical_of pt) bs;
      do bes <- mapM (bounds_of be) bs;
      do table <- lookup_table tags;
      do cells <- mapM (fun b => do rows <- mapM (fun row => do ns <- node_positions table row;
                                                            gmsh_to_meshio_order (rb_type b) ns) (rb_rows b);
                                 do _ <- cellblock_dim (rb_type b);
                                 Ok (Block (rb_type b) rows)) bs;
      Ok (Elements41 cells (physical_arrays bs pts)
            match bs with [] => None | _ => Some (map (fun b => repeat (snd (rb_entity b)) (length (rb_rows b))) bs) end
            sets
            match be, bs with Some _, _ :: _ => Some bes | _, _ => None end,
          skip_end p "Elements" (snd r))
  | _ => Err ValueError
  end.

(** 284-307 [_read_periodic] *)
Definition read_link41 (s : stream) : result (link F * stream) :=
  do h <- get_ints p CInt 3 s;
  match fst h with
  | [d; sl; ma] =>
      do na <- get_one CSize (snd h);
      do a <- get_floats p (Z.to_nat (fst na)) (snd na);
      do nn <- get_one CSize (snd a);
      do zs <- get_ints p CSize (Z.to_nat (fst nn) * 2) (snd nn);
      if negb (Nat.eqb (length (fst zs) mod 2) 0) then Err ValueError else
      Ok (Link d sl ma (Some (fst a)) (map (fun r => (nth 0 r 0 - 1, nth 1 r 0 - 1)%Z) (chunks 2 (fst zs))), snd zs)
  | _ => Err ValueError
  end.
Fixpoint read_links41 (n : nat) (s : stream) : result (list (link F) * stream) :=
  match n with
  | O => Ok ([], s)
  | S n' => do k <- read_link41 s; do r <- read_links41 n' (snd k); Ok (fst k :: fst r, snd r)
  end.
Definition read_periodic41 (s : stream) : result (list (link F) * stream) :=
  do n <- get_one CSize s;
  do r <- read_links41 (Z.to_nat (fst n)) (snd n);
  Ok (fst r, skip_end p "Periodic" (snd r)).

(** The local variables of [read_buffer] *)
Record state41 : Type := State41 {
  s_nodes : option (list (Z * list F * (Z * Z))); s_elements : option elements41;
  s_entities : option (tagdict * tagdict); s_names : dict (Z * Z); s_links : option (list (link F));
  s_pdata : dict (list (list F)); s_raw : dict (list (list F)) }.
Definition start41 : state41 := State41 None None None [] None [] [].

(** 50-91: one section *)
Definition read_section41 (environ : string) (s : stream) (st : state41) : result (state41 * stream) :=
  let '(State41 nd el en nm pe pd cr) := st in
  if String.eqb environ "PhysicalNames" then
    do r <- get_names p nm s; Ok (State41 nd el en (fst r) pe pd cr, snd r)
  else if String.eqb environ "Entities" then
    do r <- read_entities s; let '(pt, be, s') := r in Ok (State41 nd el (Some (pt, be)) nm pe pd cr, s')
  else if String.eqb environ "Nodes" then
    do r <- read_nodes41 s; Ok (State41 (Some (fst r)) el en nm pe pd cr, snd r)
  else if String.eqb environ "Elements" then
    match nd with
    | None => Err UnboundLocalError
    | Some l => do r <- read_elements41 (map (fun x => fst (fst x)) l) en nm s;
                Ok (State41 nd (Some (fst r)) en nm pe pd cr, snd r)
    end
  else if String.eqb environ "Periodic" then
    do r <- read_periodic41 s; Ok (State41 nd el en nm (Some (fst r)) pd cr, snd r)
  else if String.eqb environ "NodeData" then
    do r <- get_data p "NodeData" pd s; Ok (State41 nd el en nm pe (fst r) cr, snd r)
  else if String.eqb environ "ElementData" then
    do r <- get_data p "ElementData" cr s; Ok (State41 nd el en nm pe pd (fst r), snd r)
  else Ok (st, skip_end p environ s).
Fixpoint read_sections41 (fuel : nat) (s : stream) (st : state41) : result state41 :=
  match fuel with
  | O => Err OutOfFuel
  | S f =>
      do h <- next_section p s;
      match h with
      | None => Ok st
      | Some (environ, rest) => do r <- read_section41 environ rest st; read_sections41 f (snd r) (fst r)
      end
  end.

(** 35-110 [read_buffer] and the checks of the Mesh constructor.  Simplification: data sections called
    gmsh:dim_tags, gmsh:physical or gmsh:geometrical, which lines 95-98 overwrite, are not modelled. *)
Definition read_buffer41 (s : stream) : result (mesh41 F) :=
  do st <- read_sections41 (S (length s)) s start41;
  match s_elements st, s_nodes st with
  | Some el, Some nd =>
      let bs := el_cells el in
      let cd := cell_data_from_raw (map blen bs) (s_raw st) in
      let points := map (fun x => snd (fst x)) nd in
      if forallb (fun kv => Nat.eqb (length (snd kv)) (length points)) (s_pdata st)
         && forallb (fun kv => lengths_fit bs (snd kv)) cd
         && match el_phys el with Some d => lengths_fit bs d | None => true end
      then Ok (Mesh41 points bs (Some (map snd nd)) (el_phys el) (el_geom el) (el_bounds el) (s_names st) (el_sets el)
                 (s_links st) (s_pdata st) cd)
      else Err ValueError
  | _, _ => Err ReadError
  end.

(** main.py:23-91: the versions handled by this reader *)
Definition read41 (s : stream) : result (mesh41 F) :=
  do h <- get_header p s;
  if smem (fst h) ["4"; "4.1"] then read_buffer41 (snd h) else Err ReadError.
End Msh41.
Arguments rblock : clear implicits.
Arguments elements41 : clear implicits.
