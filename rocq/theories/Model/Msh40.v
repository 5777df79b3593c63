(** Model of src/meshio/gmsh/_gmsh40.py (MSH 4.0), for ASCII and binary files alike: the file is read and written
    through a [port]. *)
From Coq Require Import ZArith NArith List String Ascii Bool.
From Verif.Lib Require Import Base Text Lines Bytes File.
From Verif.Model Require Import Core Gmsh Gmsh22 Port Msh41.
Import ListNotations.
Local Open Scope string_scope.
Local Open Scope list_scope.

(** The parts of a mesh that MSH 4.0 stores.  The writer ignores tags other than as data: cell data of any name is
    written.  A data array is a list of rows, as in Model/Msh41. *)
Record mesh40 (F : Type) : Type := Mesh40 {
  q_points : list (list F);
  q_cells : list block;
  q_names : dict (Z * Z);
  q_periodic : option (list (link F));
  q_pdata : dict (list (list F));
  q_cdata : dict (list (list (list F))) }.
Arguments Mesh40 {F} _ _ _ _ _ _.
Arguments q_points {F} _.
Arguments q_cells {F} _.
Arguments q_names {F} _.
Arguments q_periodic {F} _.
Arguments q_pdata {F} _.
Arguments q_cdata {F} _.

(** What the reader returns: a mesh and the integer arrays cell_data["gmsh:physical"] and cell_data["gmsh:geometrical"]
    (None: no such key). *)
Record read40_mesh (F : Type) : Type := Read40 {
  o_mesh : mesh40 F; o_phys : option (list (list Z)); o_geom : option (list (list Z)) }.
Arguments Read40 {F} _ _ _.
Arguments o_mesh {F} _.
Arguments o_phys {F} _.
Arguments o_geom {F} _.

Section Msh40.
Context {F : Type} (zero : F) (p : port F).
Let stream := list (unt p).

(** ** Writer *)

(** 269-306 [_write_nodes] *)
Definition write_nodes40 (m : mesh40 F) : stream :=
  let n := Z.of_nat (length (q_points m)) in
  opening p "Nodes"
  ++ put p ([Int CSize 1; Int CSize n] :: [Int CInt 1; Int CInt 0; Int CInt 0; Int CSize n]
            :: map (fun kx => Int CInt (Z.of_nat (fst kx + 1)) :: map Dbl (snd kx)) (enumerate (map (pad41 zero) (q_points m))))
  ++ closing p "Nodes".

(** 319-352, 358-383: one block, elements numbered from [start] *)
Definition block_rows40 (start : nat) (b : block) : result (list (list (item F))) :=
  do rows <- mapM (meshio_to_gmsh_order (btype b)) (bdata b);
  do d <- cellblock_dim (btype b);
  do code <- of_option KeyError (dget (btype b) meshio_to_gmsh_type);
  Ok ([Int CInt 1; Int CInt (Z.of_nat d); Int CInt code; Int CSize (Z.of_nat (blen b))]
      :: map (fun kr => Int CInt (Z.of_nat (start + fst kr)) :: map (fun i => Int CInt (i + 1)) (snd kr)) (enumerate rows)).
Fixpoint blocks_rows40 (start : nat) (l : list block) : result (list (list (item F))) :=
  match l with
  | [] => Ok []
  | b :: l' =>
      do r <- block_rows40 start b;
      do rs <- blocks_rows40 (start + blen b) l';
      Ok (r ++ rs)
  end.
(** 309-385 [_write_elements] *)
Definition write_elements40 (m : mesh40 F) : result stream :=
  do rows <- blocks_rows40 0 (q_cells m);
  Ok (opening p "Elements"
      ++ put p ([Int CSize (Z.of_nat (length (q_cells m))); Int CSize (Z.of_nat (sum_nat (map blen (q_cells m))))] :: rows)
      ++ closing p "Elements").

(** 388-415 [_write_periodic] *)
Definition link_rows40 (k : link F) : list (list (item F)) :=
  [Int CInt (k_dim k); Int CInt (k_slave k); Int CInt (k_master k)]
  :: match k_affine k with
     | Some (x :: a) => [[Int CLong (-1)]; map Dbl (x :: a)]
     | _ => []
     end
  ++ [Int CInt (Z.of_nat (length (k_nodes k)))]
  :: map (fun sm => [Int CInt (fst sm + 1); Int CInt (snd sm + 1)]) (k_nodes k).
Definition write_periodic40 (ks : list (link F)) : stream :=
  opening p "Periodic" ++ put p ([Int CInt (Z.of_nat (length ks))] :: flat_map link_rows40 ks) ++ closing p "Periodic".

(** 241-266 [write] *)
Definition write40 (m : mesh40 F) : result stream :=
  do els <- write_elements40 m;
  do pd <- mapM (fun kv => put_data p "NodeData" (fst kv) (components41 (snd kv)) (snd kv)) (q_pdata m);
  do raw <- raw_from_cell_data (q_cdata m);
  do cd <- mapM (fun kv => put_data p "ElementData" (fst kv) (components41 (snd kv)) (snd kv)) raw;
  Ok (put_header p "4.0" ++ text p (write_physical_names (q_names m)) ++ write_nodes40 m ++ els
      ++ match q_periodic m with Some ks => write_periodic40 ks | None => [] end ++ concat pd ++ concat cd).

(** ** Reader *)

(** 93-101: one entity of dimension [d]; bounding boxes have six numbers *)
Definition read_entity40 (d : nat) (s : stream) : result ((Z * list Z) * stream) :=
  do t <- get_one p CInt s;
  do bb <- get_floats p 6 (snd t);
  do np <- get_one p CSize (snd bb);
  do ph <- get_ints p CInt (Z.to_nat (fst np)) (snd np);
  if Nat.eqb d 0 then Ok ((fst t, fst ph), snd ph) else
  do nb <- get_one p CSize (snd ph);
  do bs <- get_ints p CInt (Z.to_nat (fst nb)) (snd nb);
  Ok ((fst t, fst ph), snd bs).
Fixpoint read_entities_of40 (d n : nat) (s : stream) (pt : tagdict) : result (tagdict * stream) :=
  match n with
  | O => Ok (pt, s)
  | S n' => do r <- read_entity40 d s; read_entities_of40 d n' (snd r) (((Z.of_nat d, fst (fst r)), snd (fst r)) :: pt)
  end.
Fixpoint read_dims40 (d : nat) (ns : list Z) (s : stream) (pt : tagdict) : result (tagdict * stream) :=
  match ns with
  | [] => Ok (pt, s)
  | n :: ns' => do r <- read_entities_of40 d (Z.to_nat n) s pt; read_dims40 (S d) ns' (snd r) (fst r)
  end.
(** 87-104 [_read_entities] *)
Definition read_entities40 (s : stream) : result (tagdict * stream) :=
  do c <- get_ints p CSize 4 s;
  do r <- read_dims40 0 (fst c) (snd c) [];
  Ok (fst r, skip_end p "Entities" (snd r)).

(** 163-177: one block of elements *)
Definition read_block40 (s : stream) : result (rblock * stream) :=
  do h <- get_ints p CInt 3 s;
  match fst h with
  | [tag; dim; code] =>
      do n <- get_one p CSize (snd h);
      do t <- of_option KeyError (zget code gmsh_to_meshio_type);
      do w <- of_option KeyError (dget t num_nodes_per_cell);
      let k := Z.to_nat (fst n) in
      do d <- get_ints p CInt (k * (1 + w)) (snd n);
      (* reshape((0, -1)) raises ValueError *)
      if Nat.eqb k 0 || negb (Nat.eqb (length (fst d)) (k * (1 + w))) then Err ValueError else
      Ok (RBlock (dim, tag) t (map (@tl Z) (chunks (1 + w) (fst d))), snd d)
  | _ => Err ValueError
  end.
Fixpoint read_blocks40 (n : nat) (s : stream) : result (list rblock * stream) :=
  match n with
  | O => Ok ([], s)
  | S n' => do b <- read_block40 s; do r <- read_blocks40 n' (snd b); Ok (fst b :: fst r, snd r)
  end.
Record elements40 : Type := Elements40 { e4_cells : list block; e4_phys : option (list (list Z)); e4_geom : option (list (list Z)) }.
(** 155-206 [_read_elements].  CellBlock (_mesh.py:86-99) raises KeyError for the types without a dimension. *)
Definition read_elements40 (tags : list Z) (pt : option tagdict) (s : stream) : result (elements40 * stream) :=
  do h <- get_ints p CSize 2 s;
  match fst h with
  | [nb; _] =>
      do r <- read_blocks40 (Z.to_nat nb) (snd h);
      let bs := fst r in
      do pts <- mapM (physical_of pt) bs;
      do table <- lookup_table tags;
      do cells <- mapM (fun b => do rows <- mapM (fun row => do ns <- lookup_cell table row;
                                                            gmsh_to_meshio_order (rb_type b) ns) (rb_rows b);
                                 do _ <- cellblock_dim (rb_type b);
                                 Ok (Block (rb_type b) rows)) bs;
      Ok (Elements40 cells (physical_arrays bs pts)
            match bs with [] => None | _ => Some (map (fun b => repeat (snd (rb_entity b)) (length (rb_rows b))) bs) end,
          skip_end p "Elements" (snd r))
  | _ => Err ValueError
  end.

(** 209-238 [_read_periodic] *)
Definition read_link40 (s : stream) : result (link F * stream) :=
  do h <- get_ints p CInt 3 s;
  match fst h with
  | [d; sl; ma] =>
      do r <- get_pairs40 p (snd h);
      let '(a, zs, rest) := r in
      if negb (Nat.eqb (length zs mod 2) 0) then Err ValueError else
      Ok (Link d sl ma a (map (fun r => (nth 0 r 0 - 1, nth 1 r 0 - 1)%Z) (chunks 2 zs)), rest)
  | _ => Err ValueError
  end.
Fixpoint read_links40 (n : nat) (s : stream) : result (list (link F) * stream) :=
  match n with
  | O => Ok ([], s)
  | S n' => do k <- read_link40 s; do r <- read_links40 n' (snd k); Ok (fst k :: fst r, snd r)
  end.
Definition read_periodic40 (s : stream) : result (list (link F) * stream) :=
  do n <- get_one p CInt s;
  do r <- read_links40 (Z.to_nat (fst n)) (snd n);
  Ok (fst r, skip_end p "Periodic" (snd r)).

(** The local variables of [read_buffer] *)
Record state40 : Type := State40 {
  t_nodes : option (list (list F) * list Z); t_elements : option elements40; t_phys : option tagdict;
  t_names : dict (Z * Z); t_links : option (list (link F)); t_pdata : dict (list (list F)); t_raw : dict (list (list F)) }.
Definition start40 : state40 := State40 None None None [] None [] [].

(** 41-73: one section *)
Definition read_section40 (environ : string) (s : stream) (st : state40) : result (state40 * stream) :=
  let '(State40 nd el en nm pe pd cr) := st in
  if String.eqb environ "PhysicalNames" then
    do r <- get_names p nm s; Ok (State40 nd el en (fst r) pe pd cr, snd r)
  else if String.eqb environ "Entities" then
    do r <- read_entities40 s; Ok (State40 nd el (Some (fst r)) nm pe pd cr, snd r)
  else if String.eqb environ "Nodes" then
    do r <- get_nodes40 p s; let '(pts, tags, s') := r in Ok (State40 (Some (pts, tags)) el en nm pe pd cr, s')
  else if String.eqb environ "Elements" then
    match nd with
    | None => Err UnboundLocalError
    | Some nt => do r <- read_elements40 (snd nt) en s; Ok (State40 nd (Some (fst r)) en nm pe pd cr, snd r)
    end
  else if String.eqb environ "Periodic" then
    do r <- read_periodic40 s; Ok (State40 nd el en nm (Some (fst r)) pd cr, snd r)
  else if String.eqb environ "NodeData" then
    do r <- get_data p "NodeData" pd s; Ok (State40 nd el en nm pe (fst r) cr, snd r)
  else if String.eqb environ "ElementData" then
    do r <- get_data p "ElementData" cr s; Ok (State40 nd el en nm pe pd (fst r), snd r)
  else Ok (st, skip_end p environ s).
Fixpoint read_sections40 (fuel : nat) (s : stream) (st : state40) : result state40 :=
  match fuel with
  | O => Err OutOfFuel
  | S f =>
      do h <- next_section40 p s;
      match h with
      | None => Ok st
      | Some (environ, rest) => do r <- read_section40 environ rest st; read_sections40 f (snd r) (fst r)
      end
  end.

(** [cell_data.update(cell_tags)]: the tags replace data of the same name *)
Definition without (keys : list string) {V} (d : dict V) : dict V := filter (fun kv => negb (smem (fst kv) keys)) d.
Definition tag_keys (el : elements40) : list string :=
  match e4_phys el with Some _ => ["gmsh:physical"] | None => [] end
  ++ match e4_geom el with Some _ => ["gmsh:geometrical"] | None => [] end.

(** 32-84 [read_buffer] and the checks of the Mesh constructor *)
Definition read_buffer40 (s : stream) : result (read40_mesh F) :=
  do st <- read_sections40 (S (length s)) s start40;
  match t_elements st with
  | Some el =>
      let bs := e4_cells el in
      let points := match t_nodes st with Some nt => fst nt | None => [] end in
      let cd := without (tag_keys el) (cell_data_from_raw (map blen bs) (t_raw st)) in
      if forallb (fun kv => Nat.eqb (length (snd kv)) (length points)) (t_pdata st)
         && forallb (fun kv => lengths_fit bs (snd kv)) cd
         && match e4_phys el with Some d => lengths_fit bs d | None => true end
      then Ok (Read40 (Mesh40 points bs (t_names st) (t_links st) (t_pdata st) cd) (e4_phys el) (e4_geom el))
      else Err ValueError
  | None => Err UnboundLocalError
  end.

(** main.py:23-91: the version handled by this reader *)
Definition read40 (s : stream) : result (read40_mesh F) :=
  do h <- get_header p s;
  if String.eqb (fst h) "4.0" then read_buffer40 (snd h) else Err ReadError.
End Msh40.
Arguments elements40 : clear implicits.
