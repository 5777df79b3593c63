(** What MSH 4.1 can store, and what is read back (C25). *)
From Coq Require Import ZArith NArith List String Ascii Bool Permutation Sorted.
From Verif.Lib Require Import Base Text Lines Bytes File.
From Verif.Model Require Import Core Gmsh Port Msh41.
From Verif.Spec Require Import Core Blocks Gmsh Gmsh22.
Import ListNotations.

(** The numbers that int, size_t and long can hold. *)
Definition in_range (k : ikind) (z : Z) : Prop :=
  match k with
  | CInt => (- 2 ^ 31 <= z < 2 ^ 31)%Z
  | CSize => (0 <= z < 2 ^ 64)%Z
  | CLong => (- 2 ^ 63 <= z < 2 ^ 63)%Z
  end.

(** Doubles take eight bytes, which are read back to the same double. *)
Definition codec_ok {F} (c : codec F) : Prop :=
  codec_width c 8 /\ (forall v, exact c v) /\ (forall v, Forall is_byte (enc c v)).

(** Order of the entities: by dimension, then by tag. *)
Definition pair_less (a b : Z * Z) : Prop := (fst a < fst b \/ (fst a = fst b /\ snd a < snd b))%Z.

(** [order] lists the points by entity, and in their old order within an entity. *)
Definition before (dt : list (Z * Z)) (a b : nat) : Prop :=
  pair_less (nth a dt (0, 0)%Z) (nth b dt (0, 0)%Z) \/ (nth a dt (0, 0)%Z = nth b dt (0, 0)%Z /\ a < b).
Definition by_entity (dt : list (Z * Z)) (order : list nat) : Prop :=
  Permutation order (seq 0 (length dt)) /\ StronglySorted (before dt) order.

(** The topological dimension of the cells of a block. *)
Definition dim_of (b : block) : Z := match cellblock_dim (btype b) with Ok d => Z.of_nat d | Err _ => 0%Z end.

(** Blocks that CellBlock can hold: it refuses types without a dimension (wedge15 and pyramid13 among those of Gmsh). *)
Definition known_dim (b : block) : Prop := exists d, cellblock_dim (btype b) = Ok d.

(** The format has one tag per block: the first one. *)
Definition lead (a : list Z) : Z := hd 0%Z a.
Definition leading (d : list (list Z)) : list (list Z) := map (fun a => repeat (lead a) (length a)) d.

(** The entity of every block. *)
Definition entities (bs : list block) (geom : list (list Z)) : list (Z * Z) :=
  map (fun ba => (dim_of (fst ba), lead (snd ba))) (combine bs geom).

Section Spec41.
Context {F : Type} (zero : F).

Definition gmsh_rows41 (rows : list (list F)) : Prop :=
  exists nc, In nc [1; 3; 9] /\ Forall (fun r => length r = nc) rows.

Definition link_ok (k : link F) : Prop :=
  in_range CInt (k_dim k) /\ in_range CInt (k_slave k) /\ in_range CInt (k_master k) /\
  Forall (fun ab => in_range CSize (fst ab) /\ in_range CSize (fst ab + 1) /\
                    in_range CSize (snd ab) /\ in_range CSize (snd ab + 1))%Z (k_nodes k) /\
  in_range CSize (Z.of_nat (length (k_nodes k))) /\
  match k_affine k with Some a => in_range CSize (Z.of_nat (length a)) | None => True end.

(** The entity information: every block lies on an entity of its own that owns a point. *)
Record entities_ok (m : mesh41 F) (dt : list (Z * Z)) : Prop := EntitiesOk {
  e_length : length dt = length (m_points m);
  e_dims : Forall (fun e => 0 <= fst e <= 3 /\ in_range CInt (snd e))%Z dt;
  e_geom : exists g, m_geom m = Some g /\ NoDup (entities (m_cells m) g) /\ incl (entities (m_cells m) g) dt;
  e_phys : exists q, m_phys m = Some q;
  e_bounds : forall bs, m_bounds m = Some bs ->
    Forall2 (fun b ob => match ob with
                         | Some l => Forall (in_range CInt) l /\ in_range CSize (Z.of_nat (length l))
                         | None => dim_of b = 0%Z
                         end) (m_cells m) bs }.

Definition tags_ok (m : mesh41 F) (d : option (list (list Z))) : Prop :=
  forall l, d = Some l -> per_cell (m_cells m) l /\ Forall (Forall (in_range CInt)) l.

(** Meshes that fit the format. *)
Record msh41_mesh (m : mesh41 F) : Prop := Msh41Mesh {
  w_points : m_points m <> [] /\ (Z.of_nat (length (m_points m)) < 2 ^ 31 - 1)%Z;
  w_coords : Forall (fun x => length x = 2 \/ length x = 3) (m_points m);
  w_cells : m_cells m <> [];
  w_blocks : Forall (fun b => (gmsh_block b /\ known_dim b) /\ bdata b <> []) (m_cells m);
  w_total : (Z.of_nat (sum_nat (map blen (m_cells m))) < 2 ^ 31 - 1)%Z;
  w_index : Forall (indices_below (length (m_points m))) (m_cells m);
  w_entities : match m_dim_tags m with
               | Some dt => entities_ok m dt
               | None => exists b, m_cells m = [b]
               end;
  w_geom : tags_ok m (m_geom m);
  w_phys : tags_ok m (m_phys m);
  w_names : NoDup (dkeys (m_names m)) /\ Forall plain_name (dkeys (m_names m));
  w_periodic : forall ks, m_periodic m = Some ks -> Forall link_ok ks /\ in_range CSize (Z.of_nat (length ks));
  w_pdata_names : NoDup (dkeys (m_pdata m)) /\ Forall plain_name (dkeys (m_pdata m));
  w_pdata : Forall (fun kv => length (snd kv) = length (m_points m) /\ gmsh_rows41 (snd kv)) (m_pdata m);
  w_cdata_names : NoDup (dkeys (m_cdata m)) /\ Forall plain_name (dkeys (m_cdata m));
  w_cdata : Forall (fun kv => per_cell (m_cells m) (snd kv) /\ gmsh_rows41 (concat (snd kv))) (m_cdata m) }.

(** Points in space: a missing third coordinate is zero. *)
Definition in_space (pts : list (list F)) : list (list F) :=
  map (fun x => match x with [a; b] => [a; b; zero] | _ => x end) pts.

(** The coordinates of the vertices of every cell of a block. *)
Definition corners (pts : list (list F)) (b : block) : string * list (list (option (list F))) :=
  (btype b, map (map (fun i => nth_error pts (Z.to_nat i))) (bdata b)).

(** [m'] is what is read after [m] has been written; point [nth j order] of [m] is point [j] of [m']. *)
Record kept41 (m m' : mesh41 F) (order : list nat) : Prop := Kept41 {
  r_points : m_points m' = map (fun i => nth i (in_space (m_points m)) []) order;
  r_cells : Forall2 (fun b b' => btype b' = btype b /\
              Forall2 (Forall2 (fun i i' => (0 <= i')%Z /\ nth_error order (Z.to_nat i') = Some (Z.to_nat i)))
                (bdata b) (bdata b')) (m_cells m) (m_cells m');
  r_dim_tags : m_dim_tags m' =
    Some match m_dim_tags m with
         | Some dt => map (fun i => nth i dt (0, 0)%Z) order
         | None => map (fun _ => (match m_cells m with b :: _ => dim_of b | [] => 0%Z end, 0%Z)) (m_points m)
         end;
  r_geom : m_geom m' = Some match m_geom m with
                            | Some g => leading g
                            | None => map (fun b => repeat 0%Z (blen b)) (m_cells m)
                            end;
  r_phys : m_phys m' = match m_dim_tags m with Some _ => option_map leading (m_phys m) | None => None end;
  r_bounds : m_bounds m' =
    match m_dim_tags m with
    | Some _ => Some (map (fun kb => if Z.eqb (dim_of (snd kb)) 0 then None
                                     else Some match m_bounds m with
                                               | Some bs => match nth (fst kb) bs None with Some l => l | None => [] end
                                               | None => []
                                               end) (enumerate (m_cells m)))
    | None => None
    end;
  r_names : forall k, dget k (m_names m') = dget k (m_names m);
  r_sets : forall k, dget k (m_sets m') =
    option_map (fun nd : Z * Z =>
      map (fun kb => match m_dim_tags m, m_phys m with
                     | Some _, Some q => if Z.eqb (snd nd) (dim_of (snd kb)) && Z.eqb (fst nd) (lead (nth (fst kb) q []))
                                         then seq 0 (blen (snd kb)) else []
                     | _, _ => []
                     end) (enumerate (m_cells m))) (dget k (m_names m));
  r_periodic : m_periodic m' =
    option_map (map (fun k => Link (k_dim k) (k_slave k) (k_master k)
                               (Some match k_affine k with Some a => a | None => [] end) (k_nodes k))) (m_periodic m);
  r_pdata : m_pdata m' = m_pdata m;
  r_cdata : m_cdata m' = m_cdata m }.
End Spec41.

(** The points are listed by entity already. *)
Definition listed_by_entity (dt : list (Z * Z)) : Prop := StronglySorted (before dt) (seq 0 (length dt)).

(** The points that a periodic link joins. *)
Definition link_points {F} (pts : list (list F)) (k : link F) : list (option (list F) * option (list F)) :=
  map (fun ab => (nth_error pts (Z.to_nat (fst ab)), nth_error pts (Z.to_nat (snd ab)))) (k_nodes k).
