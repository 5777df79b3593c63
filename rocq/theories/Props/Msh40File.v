(** C85: MSH 4.0 files written by Gmsh. *)
From Coq Require Import ZArith NArith List String Ascii Bool Lia.
From Verif.Lib Require Import Base Facts Text Lines LinesFacts Bytes File.
From Verif.Model Require Import Core Gmsh Gmsh22 Port Msh41 Msh40.
From Verif.Spec Require Import Core Blocks Gmsh Gmsh22 Msh41 Msh40 GmshFile Msh40File.
From Verif.Proofs Require Import Gmsh22File Port Msh41 Msh41File Msh40 GmshFile Msh40File.
From Verif.Props Require Import Msh41.
Import Model.Gmsh Model.Port Model.Msh41 Model.Msh40 Spec.Msh41 Spec.Msh40.
Import ListNotations.

(** Everything that is read from a text file: points, cells, tags, names and links without transformation are those of
    the file ([file_mesh40]).  Reading fails with ValueError exactly if some element blocks belong to physical groups and
    others do not. *)
Theorem C85_ascii {fl : floats} (g : gfile fl) : floats_ok fl -> gfile40_ok g ->
  (forall ks, gf_links g = Some ks -> Forall glink40_ok ks /\ in_range CInt (Z.of_nat (length ks))) ->
  exists names, (forall k, dget k names = dget k (gf_names g)) /\
    read40 ascii_port (gmsh_file40 ascii_port g) = if groups_agree g then Ok (file_mesh40 g names) else Err ValueError.
Proof.
  intros H W K. apply (gmsh_file40_read ascii_port _ _ (ascii_port_ok H) (ascii_gnodes H) g W).
  intros ks E. destruct (K ks E) as [K1 K2]. apply (ascii_periodic H); [|now rewrite map_length].
  apply Forall_map. eapply Forall_impl; [|exact K1]. apply glink40_plain.
Qed.
Print Assumptions C85_ascii.
(** The same for binary files without links. *)
Theorem C85_binary {F : Type} (c : codec F) (g : gfile F) : codec_ok c -> gfile40_ok g -> gf_links g = None ->
  exists names, (forall k, dget k names = dget k (gf_names g)) /\
    read40 (binary_port c) (gmsh_file40 (binary_port c) g) = if groups_agree g then Ok (file_mesh40 g names) else Err ValueError.
Proof.
  intros H W K. apply (gmsh_file40_read (binary_port c) _ _ (binary_port_ok c H) (binary_gnodes c H) g W). rewrite K. discriminate.
Qed.
Print Assumptions C85_binary.

(** The cells of [file_mesh40]: the points of a cell are those with the node tags of the element, in meshio's order,
    whatever the tags are. *)
Theorem C85_vertices {F} (g : gfile F) b r : gfile40_ok g -> In b (gf_elements g) -> In r (gl_rows b) ->
  exists ns, gmsh_to_meshio_order (gl_type b) (snd r) = Ok ns /\
    Forall2 (fun i n => exists x, (0 <= i)%Z /\ nth_error (file_points g) (Z.to_nat i) = Some x /\
                                  In (n, x) (flat_map gn_nodes (gf_nodes g)))
      (snd (element_cell (gnode_tags (gf_nodes g)) (Element (gl_type b) (fst r) [] (snd r)))) ns.
Proof. exact (file_vertices40 g b r). Qed.
Print Assumptions C85_vertices.

(** A square of two triangles on a surface, two of its sides on a curve, tags with gaps, an entity without nodes,
    two physical groups on the surface, names and links. *)
Definition square40 (curve_groups : list Z) (links : option (list (link Z))) : gfile Z := GFile
  [("side"%string, (4, 1)); ("part"%string, (2, 2)); ("all"%string, (9, 2))]%Z
  (Some [GEntity (2, 7) [0; 0; 0; 1; 1; 0] [2; 9] [1; -3]; GEntity (0, 5) [1; 1; 0; 1; 1; 0] [] [];
         GEntity (1, 3) [0; 0; 0; 1; 1; 0] curve_groups [5; -5]])%Z
  [GNodes (0, 5) [(40, [1; 1; 0])]; GNodes (1, 3) []; GNodes (2, 7) [(3, [0; 0; 0]); (12, [1; 0; 0]); (7, [0; 1; 0])]]%Z (0, 0)%Z
  [GElements (1, 3) "line" [(1, [40; 12]); (2, [12; 3])]; GElements (2, 7) "triangle" [(8, [3; 12; 40]); (9, [3; 40; 7])]]%Z (0, 0)%Z
  links.
Definition square_links : list (link Z) := [Link 1 3 4 None [(3, 12); (7, 40)]; Link 0 5 6 None []]%Z.
Example square40_ok l k : Forall (in_range CInt) l -> in_range CSize (Z.of_nat (length l)) -> gfile40_ok (square40 l k).
Proof.
  intros Hl Hn. cbn in Hn. constructor.
  - split; repeat (constructor; [cbn; first [intuition discriminate | now repeat split]|]); constructor.
  - intros es E. injection E as <-. split; [|split; [|cbn; lia]].
    + cbn [map ge_id]. repeat (constructor; [cbn; intuition discriminate|]). constructor.
    + repeat (constructor; [unfold gentity40_ok; cbn [ge_id ge_box ge_groups ge_bounds fst snd]; repeat split; try assumption; try (cbn; lia);
        repeat (constructor; [cbn; lia|]); constructor|]). constructor.
  - split; [|cbn; lia]. repeat (constructor; [unfold gnodes40_ok; cbn [gn_id gn_nodes fst snd]; repeat split; try (cbn; lia);
      repeat (constructor; [split; [cbn; lia|reflexivity]|]); constructor|]). constructor.
  - split; [discriminate|]. split; [|cbn; lia]. cbn. repeat (constructor; [cbn; intuition lia|]). constructor.
  - split; [discriminate|]. split; [|split; cbn; lia].
    constructor; [|constructor; [|constructor]]; (unfold gelements40_ok; cbn [gl_id gl_type gl_rows gf_entities square40]; split; [cbn; lia|];
      split; [cbn; lia|]; split; [eexists; reflexivity|]; split; [eexists; reflexivity|]; split; [split; [discriminate|cbn; lia]|];
      split; [repeat (constructor; [split; [cbn; lia|]; split; [reflexivity|]; repeat (constructor; [cbn; tauto|]); constructor|]); constructor|cbn; tauto]).
Qed.
Example square_links_ok : Forall glink40_ok square_links /\ in_range CInt (Z.of_nat (length square_links)).
Proof.
  split; [|cbn; lia]. repeat (constructor; [unfold glink40_ok; cbn; repeat split; try lia; repeat (constructor; [cbn; lia|]); constructor|]). constructor.
Qed.
Example C85_instance : gfile40_ok (square40 [4]%Z (Some square_links)) /\ groups_agree (square40 [4]%Z (Some square_links)) = true /\
  read40 (ascii_port (fl:=int_floats)) (gmsh_file40 (ascii_port (fl:=int_floats)) (square40 [4]%Z (Some square_links))) =
  Ok (Read40 (Mesh40 [[1; 1; 0]; [0; 0; 0]; [1; 0; 0]; [0; 1; 0]]%Z
      [Block "line" [[0; 2]; [2; 1]]; Block "triangle" [[1; 2; 0]; [1; 0; 3]]]%Z
      [("side", (4, 1)); ("part", (2, 2)); ("all", (9, 2))]%Z
      (Some [Link 1 3 4 None [(2, 11); (6, 39)]; Link 0 5 6 None []])%Z [] [])
    (Some [[4; 4]; [2; 2]])%Z (Some [[3; 3]; [7; 7]])%Z).
Proof.
  split; [apply square40_ok; [repeat constructor; cbn; lia|cbn; lia]|]. split; [reflexivity|]. now vm_compute.
Qed.
Example C85_instance_binary : gfile40_ok (square40 [4]%Z None) /\
  read40 (binary_port (int_codec 8)) (gmsh_file40 (binary_port (int_codec 8)) (square40 [4]%Z None)) =
  read40 (ascii_port (fl:=int_floats)) (gmsh_file40 (ascii_port (fl:=int_floats)) (square40 [4]%Z None)).
Proof. split; [apply square40_ok; [repeat constructor; cbn; lia|cbn; lia]|]. now vm_compute. Qed.

(** The same file without a physical group on the curve, as Gmsh writes it when it saves all elements, is not read. *)
Theorem C85_groups_refuted : exists g : gfile Z, gfile40_ok g /\
  read40 (ascii_port (fl:=int_floats)) (gmsh_file40 (ascii_port (fl:=int_floats)) g) = Err ValueError.
Proof. exists (square40 [] None). split; [apply square40_ok; [constructor|cbn; lia]|]. now vm_compute. Qed.
Print Assumptions C85_groups_refuted.

(** The nodes of a link are the tags less one and not the positions of the points, so a link of a file whose tags have
    gaps does not join the points that it joins in the file. *)
Theorem C85_links_refuted : ~ (forall (g : gfile Z) m, gfile40_ok g ->
  read40 (ascii_port (fl:=int_floats)) (gmsh_file40 (ascii_port (fl:=int_floats)) g) = Ok m ->
  forall ks ks', gf_links g = Some ks -> q_periodic (o_mesh m) = Some ks' ->
  Forall2 (fun k k' => Forall2 (fun ab ab' => exists x, nth_error (q_points (o_mesh m)) (Z.to_nat (fst ab')) = Some x /\
                                                        In (fst ab, x) (flat_map gn_nodes (gf_nodes g))) (k_nodes k) (k_nodes k')) ks ks').
Proof.
  intros H. destruct C85_instance as (W & _ & R). specialize (H _ _ W R _ _ eq_refl eq_refl).
  inversion H as [|? ? ? ? A _]; subst. cbn [k_nodes] in A. inversion A as [|? ? ? ? _ B]; subst. inversion B as [|? ? ? ? C _]; subst.
  destruct C as (x & C & _). vm_compute in C. discriminate.
Qed.
Print Assumptions C85_links_refuted.

(** Second-order prisms and pyramids without face nodes (types 18 and 19 of Gmsh) are in meshio's tables, but cells of
    these types cannot be made: reading a file that has them raises KeyError. *)
Definition serendipity40 (t : string) (n : nat) : gfile Z := GFile [] None
  [GNodes (3, 1) (map (fun k => (Z.of_nat k, [Z.of_nat k; 0; 0]%Z)) (seq 1 n))]%Z (1, Z.of_nat n)%Z
  [GElements (3, 1) t [(1, map Z.of_nat (seq 1 n))]]%Z (1, 1)%Z None.
Theorem C85_serendipity_refuted :
  read40 (ascii_port (fl:=int_floats)) (gmsh_file40 (ascii_port (fl:=int_floats)) (serendipity40 "wedge15" 15)) = Err KeyError /\
  read40 (ascii_port (fl:=int_floats)) (gmsh_file40 (ascii_port (fl:=int_floats)) (serendipity40 "pyramid13" 13)) = Err KeyError /\
  type_code "wedge15" = 18%Z /\ type_code "pyramid13" = 19%Z /\
  (exists m, read40 (ascii_port (fl:=int_floats)) (gmsh_file40 (ascii_port (fl:=int_floats)) (serendipity40 "wedge18" 18)) = Ok m).
Proof. repeat split; try (vm_compute; reflexivity). eexists. vm_compute. reflexivity. Qed.
Print Assumptions C85_serendipity_refuted.
