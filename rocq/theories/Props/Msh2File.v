(** C83: MSH 2.2 text files written by Gmsh. *)
From Coq Require Import ZArith List String Ascii Bool Lia.
From Verif.Lib Require Import Base Facts Text Lines LinesFacts.
From Verif.Model Require Import Core Gmsh Gmsh22.
From Verif.Spec Require Import Core Blocks Gmsh Gmsh22 Msh2File.
From Verif.Proofs Require Import Blocks Gmsh22 Gmsh22File Msh2File.
Import ListNotations.

(** Everything that is read from a file: points, cells, tags, names, links and node data are those of the file
    ([file22_mesh]).  Reading fails with ValueError exactly if some elements have a physical tag (or a geometrical tag)
    and others have none. *)
Theorem C83_ascii {fl : floats} (f : file22 fl) : floats_ok fl -> file22_ok f ->
  exists body names, read_header (file22_lines f) = Ok ("2.2"%string, true, body) /\
    (forall k, dget k names = dget k (f2_names f)) /\
    read22 body = if tags_agree 0 f && tags_agree 1 f then Ok (file22_mesh f names) else Err ValueError.
Proof. intros H. exact (file22_read H f). Qed.
Print Assumptions C83_ascii.

(** The cells of [file22_mesh] are the elements of the file in their order, and the points of a cell are those with the
    node tags of the element, in meshio's order. *)
Theorem C83_cells {fl : floats} (f : file22 fl) : file22_ok f ->
  Forall2 (fun e tc => fst tc = e_type e /\
      exists ns, gmsh_to_meshio_order (e_type e) (e_nodes e) = Ok ns /\
        Forall2 (fun i n => exists x, (0 <= i)%Z /\ nth_error (map snd (f2_nodes f)) (Z.to_nat i) = Some x /\ In (n, x) (f2_nodes f))
          (snd tc) ns)
    (f2_elements f) (all_cells (file22_blocks f)).
Proof.
  intros W. unfold file22_blocks. rewrite regroup_cells. pose proof (k_elements _ W) as He.
  induction He as [|e els (He & _) Hels IH]; cbn [map]; constructor; auto. split; [reflexivity|].
  destruct He as (_ & Hn & Ht). destruct (gmsh_order_total _ _ _ Hn eq_refl) as (ns & E1 & _ & E2). exists ns. split; [exact E2|].
  cbn [element_cell snd]. rewrite E1.
  assert (H : Forall (fun n => In n (file22_tags f)) ns).
  { apply Forall_forall. intros n Hi. rewrite Forall_forall in Ht. apply Ht. eapply permute_In; eauto. }
  clear - H. induction H as [|n ns Hn H IH]; cbn [map]; constructor; auto. rewrite Nat2Z.id.
  pose proof (position_nth n _ Hn) as Q. unfold file22_tags in *. rewrite nth_error_map in Q.
  destruct (nth_error (f2_nodes f) (position n (map fst (f2_nodes f)))) as [[t x]|] eqn:E; [|discriminate]. injection Q as <-.
  exists x. split; [lia|]. rewrite nth_error_map, E. split; [reflexivity|]. now apply nth_error_In in E.
Qed.
Print Assumptions C83_cells.

(** The tags of [file22_mesh] belong to the cells of the elements that carry them: by block, one for every cell, in the
    order of the elements. *)
Theorem C83_tags {fl : floats} (f : file22 fl) k d : tags_agree k f = true -> file22_tag k f = Some d ->
  Forall2 (fun b l => length l = blen b) (file22_blocks f) d /\
  map Some (concat d) = map (fun e => nth_error (e_tags e) k) (f2_elements f).
Proof.
  unfold file22_tag, tags_agree. intros Ha E. destruct (existsb (has_tag k) (f2_elements f)); [|discriminate].
  rewrite orb_false_r in Ha. injection E as <-.
  assert (L : length (map (fun e => nth k (e_tags e) 0%Z) (f2_elements f)) = length (all_cells (file22_blocks f))).
  { unfold file22_blocks. now rewrite regroup_cells, !map_length. }
  split.
  - pose proof (data_for_length _ _ L) as E. clear L. revert E. generalize (data_for (file22_blocks f) (map (fun e => nth k (e_tags e) 0%Z) (f2_elements f))) as l.
    induction (file22_blocks f) as [|b bs IH]; intros [|x l] E; try discriminate; constructor; injection E as E1 E2; auto.
  - rewrite data_for_concat by exact L. clear - Ha. induction (f2_elements f) as [|e els IH]; [reflexivity|]. cbn [forallb] in Ha.
    apply andb_true_iff in Ha. destruct Ha as [H1 H2]. cbn [map]. rewrite IH by auto. f_equal. symmetry. apply nth_error_nth'.
    now apply Nat.ltb_lt.
Qed.
Print Assumptions C83_tags.

(** Lines and triangles in turn with tags with gaps, partitions, names, links and data. *)
Definition plate (ts : list Z) : file22 int_floats := @File22 int_floats
  [("side"%string, (4, 1)); ("all"%string, (9, 2))]%Z
  [(40, [1; 1; 0]); (3, [0; 0; 0]); (12, [1; 0; 0]); (7, [0; 1; 0])]%Z
  [Element "line" 1 [4; 1] [40; 12]; Element "triangle" 5 [9; 6; 2; 1; -2] [3; 12; 40]; Element "triangle" 2 ts [3; 40; 7];
   Element "line" 3 [4; 2] [12; 3]]%Z
  (Some [@Periodic int_floats 1 3 4 None [(3, 12); (7, 40)]; @Periodic int_floats 0 1 2 (Some [1; 0]) []]%Z)
  [@NodeData int_floats "T" 3 7 [(40, [10]); (3, [20]); (12, [30]); (7, [40])]]%Z.
Example plate_ok ts : Forall int32 ts -> file22_ok (plate ts).
Proof.
  intros Hts. constructor.
  - split; repeat (constructor; [cbn; first [intuition discriminate | now repeat split]|]); constructor.
  - split; [discriminate|]. cbn. repeat (constructor; [cbn; intuition lia|]). constructor.
  - cbn [f2_nodes plate]. repeat (constructor; [cbn [fst snd]; split; [lia|reflexivity]|]). constructor.
  - cbn [f2_elements plate]. repeat (constructor; [cbn [e_type e_tags]; split; [split; [eexists; reflexivity|]; split; [reflexivity|];
      cbn [e_nodes]; repeat (constructor; [cbn; tauto|]); constructor|]; split; [first [exact Hts | unfold int32; repeat (constructor; [lia|]); constructor]|eexists; reflexivity]|]).
    constructor.
  - intros ps E. injection E as <-. repeat (constructor; [discriminate|]). constructor.
  - split; repeat (constructor; [cbn; first [tauto | now repeat split]|]); constructor.
  - constructor; [|constructor]. split; [reflexivity|]. exists 1. split; [now left|]. repeat (constructor; [reflexivity|]). constructor.
Qed.
(** What is read: points, cells, tags, names, nodes of links, data. *)
Definition seen (m : gmesh int_floats) :
    list (list Z) * list block * option (list (list Z)) * option (list (list Z)) * dict (Z * Z) * option (list (list (Z * Z))) *
    dict (list (list Z)) :=
  (g_points m, g_cells m, g_phys m, g_geom m, g_names m, option_map (map (fun p => p_nodes p)) (g_periodic m), g_pdata m).
Definition read_plate (f : file22 int_floats) : result (gmesh int_floats) :=
  do h <- read_header (file22_lines f); @read22 int_floats (snd h).
Definition see_plate (f : file22 int_floats) := do m <- read_plate f; Ok (seen m).
Example C83_instance : floats_ok int_floats /\ file22_ok (plate [9; 6]%Z) /\
  tags_agree 0 (plate [9; 6]%Z) = true /\ tags_agree 1 (plate [9; 6]%Z) = true /\
  see_plate (plate [9; 6]%Z) = Ok
    ([[1; 1; 0]; [0; 0; 0]; [1; 0; 0]; [0; 1; 0]]%Z,
     [Block "line" [[0; 2]]; Block "triangle" [[1; 2; 0]; [1; 0; 3]]; Block "line" [[2; 1]]]%Z,
     Some [[4]; [9; 9]; [4]]%Z, Some [[1]; [6; 6]; [2]]%Z, [("side", (4, 1)); ("all", (9, 2))]%Z%string,
     Some [[(2, 11); (6, 39)]; []]%Z, [("T", [[10]; [20]; [30]; [40]])]%Z%string).
Proof.
  split; [exact int_floats_ok|]. split; [apply plate_ok; unfold int32; repeat (constructor; [lia|]); constructor|].
  split; [reflexivity|]. split; [reflexivity|]. vm_compute. reflexivity.
Qed.
(** One triangle without tags, or with a physical tag only. *)
Example C83_instance_tags : file22_ok (plate []) /\ file22_ok (plate [9]%Z) /\
  see_plate (plate []) = Err ValueError /\ see_plate (plate [9]%Z) = Err ValueError.
Proof.
  split; [apply plate_ok; constructor|]. split; [apply plate_ok; unfold int32; repeat (constructor; [lia|]); constructor|].
  split; now vm_compute.
Qed.

(** The nodes of a link are the tags less one and not the positions of the points. *)
Theorem C83_links_refuted : ~ (forall (f : file22 int_floats) m, file22_ok f -> read_plate f = Ok m ->
  forall ks ks', f2_links f = Some ks -> g_periodic m = Some ks' ->
  Forall2 (fun k k' => Forall2 (fun ab ab' => exists x, nth_error (g_points m) (Z.to_nat (fst ab')) = Some x /\
                                                        In (fst ab, x) (f2_nodes f)) (p_nodes k) (p_nodes k')) ks ks').
Proof.
  intros H. destruct C83_instance as (_ & W & _ & _ & R). unfold see_plate in R.
  destruct (read_plate (plate [9; 6]%Z)) as [m|] eqn:E; [|discriminate R]. cbn [bind] in R. injection R as R1 _ _ _ _ R6 _.
  destruct (g_periodic m) as [ks'|] eqn:Ek; [|discriminate R6]. specialize (H _ _ W E _ _ eq_refl Ek).
  inversion H as [|k k' ? ks'' A _ E1 E2]. subst ks'. cbn [option_map map] in R6. injection R6 as R6 _. rewrite R6 in A.
  subst k. cbn [p_nodes] in A. inversion A as [|? ? ? ? _ B]. inversion B as [|? ? ? ? C _].
  destruct C as (xx & C & _). rewrite R1 in C. cbn [fst] in C. discriminate C.
Qed.
Print Assumptions C83_links_refuted.

(** Values of a node data section belong to the nodes whose tags they follow.  They are read in the order of the
    section: two files that differ only in the order of the rows of a section are read as different meshes. *)
Definition two_nodes (rows : list (Z * list Z)) : file22 int_floats := @File22 int_floats []
  [(1, [5; 0; 0]); (2, [6; 0; 0])]%Z [Element "line" 1 [4; 1] [1; 2]]%Z None [@NodeData int_floats "v" 0 0 rows]%Z.
Theorem C83_node_data_refuted :
  let seen_data rows := (do s <- see_plate (two_nodes rows); let '(pts, _, _, _, _, _, pd) := s in Ok (pts, pd)) in
  seen_data [(1, [10]); (2, [20])]%Z = Ok ([[5; 0; 0]; [6; 0; 0]]%Z, [("v"%string, [[10]; [20]]%Z)]) /\
  seen_data [(2, [20]); (1, [10])]%Z = Ok ([[5; 0; 0]; [6; 0; 0]]%Z, [("v"%string, [[20]; [10]]%Z)]).
Proof. split; vm_compute; reflexivity. Qed.
Print Assumptions C83_node_data_refuted.

(** An element that names a tag that no node has is read without an error if a greater tag exists: the cell refers to
    the point -1, which numpy takes for the last one. *)
Definition dangling : file22 int_floats := @File22 int_floats []
  [(1, [5; 0; 0]); (3, [6; 0; 0])]%Z [Element "line" 1 [4; 1] [1; 2]]%Z None [].
Theorem C83_dangling_refuted : (do m <- read_plate dangling; Ok (g_cells m)) = Ok [Block "line" [[0; -1]]%Z].
Proof. vm_compute. reflexivity. Qed.
Print Assumptions C83_dangling_refuted.

(** Second-order prisms and pyramids without face nodes cannot be read. *)
Definition one_element (t : string) (n : nat) : file22 int_floats := @File22 int_floats []
  (map (fun k => (Z.of_nat k, [Z.of_nat k; 0; 0]%Z)) (seq 1 n)) [Element t 1 [1; 1]%Z (map Z.of_nat (seq 1 n))] None [].
Theorem C83_serendipity_refuted :
  let cells t n := (do m <- read_plate (one_element t n); Ok (map btype (g_cells m))) in
  cells "wedge15"%string 15 = Err KeyError /\ cells "pyramid13"%string 13 = Err KeyError /\
  cells "wedge18"%string 18 = Ok ["wedge18"%string].
Proof. split; [|split]; vm_compute; reflexivity. Qed.
Print Assumptions C83_serendipity_refuted.
