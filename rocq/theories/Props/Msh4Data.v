(** C82, C85: sections with data in the MSH 4 text files of Gmsh. *)
From Coq Require Import ZArith NArith List String Ascii Bool Lia.
From Verif.Lib Require Import Base Facts Text Lines LinesFacts Bytes File.
From Verif.Model Require Import Core Gmsh Gmsh22 Port Msh41 Msh40.
From Verif.Spec Require Import Core Blocks Gmsh Gmsh22 Msh41 Msh40 GmshFile Msh2File Msh40File Msh4Data.
From Verif.Proofs Require Import Gmsh22File Port Msh41 Msh41File Msh40 GmshFile Msh40File Msh4Data.
From Verif.Props Require Import Msh41 GmshFile Msh40File.
Import Model.Gmsh Model.Port Model.Msh41 Model.Msh40 Spec.Msh41 Spec.Msh40.
Import ListNotations.

(** A file with any number of NodeData and ElementData sections in any order: the mesh of C82_ascii with these
    arrays, in the order of the file; those of elements divided at the ends of the blocks. *)
Theorem C82_data {fl : floats} (g : gfile fl) (ds : list (bool * node_data fl)) : floats_ok fl -> gfile_ok g ->
  Forall (fun kd => data_ok (snd kd)) ds ->
  kind_ok true (length (gnode_tags (gf_nodes g))) ds -> kind_ok false (length (flat_map gl_rows (gf_elements g))) ds ->
  exists names, (forall k, dget k names = dget k (gf_names g)) /\
    read41 ascii_port (gmsh_file ascii_port g ++ data_part ds) =
      if groups_agree g then Ok (with_data (file_mesh g names) (arrays true ds) (by_block g (arrays false ds))) else Err ValueError.
Proof. intros H. exact (file_with_data H g ds). Qed.
Print Assumptions C82_data.

(** If the rows follow the order of the nodes, every point has the value that the file gives for its tag.  (Otherwise
    it has not: C82_node_data_refuted.) *)
Theorem C82_data_by_tag {fl : floats} (g : gfile fl) (d : node_data fl) k n x : gfile_ok g -> map fst (nd_rows d) = gnode_tags (gf_nodes g) ->
  nth_error (flat_map gn_nodes (gf_nodes g)) k = Some (n, x) ->
  nth_error (file_points g) k = Some x /\ exists v, nth_error (map snd (nd_rows d)) k = Some v /\ In (n, v) (nd_rows d).
Proof.
  intros _ E H.
  assert (Et : gnode_tags (gf_nodes g) = map fst (flat_map gn_nodes (gf_nodes g))).
  { unfold gnode_tags. clear. induction (gf_nodes g) as [|b l IH]; [reflexivity|]. cbn [flat_map]. now rewrite map_app, IH. }
  assert (Ep : file_points g = map snd (flat_map gn_nodes (gf_nodes g))).
  { unfold file_points. clear. induction (gf_nodes g) as [|b l IH]; [reflexivity|]. cbn [flat_map]. now rewrite map_app, IH. }
  split; [rewrite Ep, nth_error_map, H; reflexivity|].
  assert (K : nth_error (map fst (nd_rows d)) k = Some n) by (rewrite E, Et, nth_error_map, H; reflexivity).
  rewrite nth_error_map in *. destruct (nth_error (nd_rows d) k) as [[t v]|] eqn:R; [|discriminate]. cbn in K. injection K as ->.
  exists v. split; [reflexivity|]. apply nth_error_In in R. exact R.
Qed.
Print Assumptions C82_data_by_tag.

(** The square of C82 with a temperature at the nodes, a velocity of the elements and a second array of the nodes. *)
Definition square_data : list (bool * node_data int_floats) :=
  [(true, NodeData (fl:=int_floats) "T" 0%Z 0%Z [(40, [11]); (3, [12]); (12, [13]); (7, [14])]%Z);
   (false, NodeData (fl:=int_floats) "velocity" 5%Z 2%Z [(1, [1; 0; 0]); (2, [2; 0; 0]); (8, [3; 0; 0]); (9, [4; 0; 0])]%Z);
   (true, NodeData (fl:=int_floats) "p q" 0%Z 1%Z [(40, [1]); (3, [2]); (12, [3]); (7, [4])]%Z)].
Example C82_data_instance : gfile_ok (square [4]%Z) /\ Forall (fun kd => data_ok (snd kd)) square_data /\
  kind_ok true (length (gnode_tags (gf_nodes (square [4]%Z)))) square_data /\
  kind_ok false (length (flat_map gl_rows (gf_elements (square [4]%Z)))) square_data /\
  map fst (nd_rows (snd (hd (true, NodeData (fl:=int_floats) "" 0%Z 0%Z []) square_data))) = gnode_tags (gf_nodes (square [4]%Z)) /\
  exists m, read41 (ascii_port (fl:=int_floats)) (gmsh_file (ascii_port (fl:=int_floats)) (square [4]%Z) ++ data_part square_data) = Ok m /\
    m_pdata m = [("T"%string, [[11]; [12]; [13]; [14]]%Z); ("p q"%string, [[1]; [2]; [3]; [4]]%Z)] /\
    m_cdata m = [("velocity"%string, [[[1; 0; 0]; [2; 0; 0]]; [[3; 0; 0]; [4; 0; 0]]]%Z)].
Proof.
  split; [apply square_ok; [repeat constructor; cbn; lia|cbn; lia]|]. split.
  - constructor; [|constructor; [|constructor; [|constructor]]]; (split; [now vm_compute|split; [cbn; intuition discriminate|]]).
    + exists 1. split; [cbn; tauto|repeat constructor].
    + exists 3. split; [cbn; tauto|repeat constructor].
    + exists 1. split; [cbn; tauto|repeat constructor].
  - split; [split; [repeat constructor; cbn; intuition discriminate|repeat constructor]|].
    split; [split; [repeat constructor; cbn; intuition discriminate|repeat constructor]|]. split; [reflexivity|].
    eexists. split; [vm_compute; reflexivity|]. split; reflexivity.
Qed.

(** Version 4.0: the mesh of C85_ascii with the arrays. *)
Theorem C85_data {fl : floats} (g : gfile fl) (ds : list (bool * node_data fl)) : floats_ok fl -> gfile40_ok g ->
  (forall ks, gf_links g = Some ks -> Forall glink40_ok ks /\ in_range CInt (Z.of_nat (length ks))) ->
  Forall (fun kd => data_ok (snd kd)) ds ->
  kind_ok true (length (gnode_tags (gf_nodes g))) ds -> kind_ok false (length (flat_map gl_rows (gf_elements g))) ds ->
  exists names, (forall k, dget k names = dget k (gf_names g)) /\
    read40 ascii_port (gmsh_file40 ascii_port g ++ data_part ds) =
      if groups_agree g then Ok (with_data40 (file_mesh40 g names) (arrays true ds) (by_block g (arrays false ds))) else Err ValueError.
Proof. intros H. exact (file_with_data40 H g ds). Qed.
Print Assumptions C85_data.
Example C85_data_instance : gfile40_ok (square40 [4]%Z None) /\
  kind_ok true (length (gnode_tags (gf_nodes (square40 [4]%Z None)))) square_data /\
  kind_ok false (length (flat_map gl_rows (gf_elements (square40 [4]%Z None)))) square_data /\
  exists m, read40 (ascii_port (fl:=int_floats)) (gmsh_file40 (ascii_port (fl:=int_floats)) (square40 [4]%Z None) ++ data_part square_data) = Ok m /\
    q_pdata (o_mesh m) = [("T"%string, [[11]; [12]; [13]; [14]]%Z); ("p q"%string, [[1]; [2]; [3]; [4]]%Z)] /\
    q_cdata (o_mesh m) = [("velocity"%string, [[[1; 0; 0]; [2; 0; 0]]; [[3; 0; 0]; [4; 0; 0]]]%Z)].
Proof.
  split; [apply square40_ok; [repeat constructor; cbn; lia|cbn; lia]|].
  split; [split; [repeat constructor; cbn; intuition discriminate|repeat constructor]|].
  split; [split; [repeat constructor; cbn; intuition discriminate|repeat constructor]|].
  eexists. split; [vm_compute; reflexivity|]. split; reflexivity.
Qed.

(** Version 4.0 too assigns the rows in the order of the file and not by their tags: the first point,
    node 40, gets the value 5 of node 3. *)
Theorem C85_node_data_refuted : ~ (forall (g : gfile int_floats) (d : node_data int_floats) m, gfile40_ok g -> gf_links g = None -> data_ok d ->
  Permutation.Permutation (map fst (nd_rows d)) (gnode_tags (gf_nodes g)) ->
  read40 ascii_port (gmsh_file40 ascii_port g ++ data_part [(true, d)]) = Ok m ->
  forall k n x v, nth_error (flat_map gn_nodes (gf_nodes g)) k = Some (n, x) -> In (n, v) (nd_rows d) ->
    exists a, dget (nd_name d) (q_pdata (o_mesh m)) = Some a /\ nth_error a k = Some v).
Proof.
  intros H.
  set (d := NodeData (fl:=int_floats) "T" 0%Z 0%Z [(3, [5]); (40, [6]); (12, [7]); (7, [8])]%Z).
  specialize (H (square40 [4]%Z None) d).
  edestruct H as (a & E1 & E2).
  - apply square40_ok; [repeat constructor; cbn; lia|cbn; lia].
  - reflexivity.
  - split; [now vm_compute|]. split; [cbn; intuition discriminate|]. exists 1. split; [cbn; tauto|repeat constructor].
  - cbn. apply Permutation.perm_swap.
  - vm_compute. reflexivity.
  - instantiate (3 := 0). cbn. reflexivity.
  - cbn. right. left. reflexivity.
  - vm_compute in E1. injection E1 as <-. discriminate.
Qed.
Print Assumptions C85_node_data_refuted.

(** ** Binary files *)
(** A section whose rows have the tags 1, 2, ... is read; any other is not (C82_binary_tags_refuted). *)
Theorem C82_data_binary {F : Type} (c : codec F) (g : gfile F) (ds : list (bool * bdata F)) : codec_ok c -> gfile_ok g ->
  Forall (fun kd => bdata_ok (snd kd) /\ numbered (snd kd)) ds ->
  bkind_ok true (length (gnode_tags (gf_nodes g))) ds -> bkind_ok false (length (flat_map gl_rows (gf_elements g))) ds ->
  exists names, (forall k, dget k names = dget k (gf_names g)) /\
    read41 (binary_port c) (gmsh_file (binary_port c) g ++ bdata_part c ds) =
      if groups_agree g then Ok (with_data (file_mesh g names) (barrays true ds) (by_block g (barrays false ds))) else Err ValueError.
Proof. intros H. exact (file_with_bdata c H g ds). Qed.
Print Assumptions C82_data_binary.
Theorem C85_data_binary {F : Type} (c : codec F) (g : gfile F) (ds : list (bool * bdata F)) : codec_ok c -> gfile40_ok g -> gf_links g = None ->
  Forall (fun kd => bdata_ok (snd kd) /\ numbered (snd kd)) ds ->
  bkind_ok true (length (gnode_tags (gf_nodes g))) ds -> bkind_ok false (length (flat_map gl_rows (gf_elements g))) ds ->
  exists names, (forall k, dget k names = dget k (gf_names g)) /\
    read40 (binary_port c) (gmsh_file40 (binary_port c) g ++ bdata_part c ds) =
      if groups_agree g then Ok (with_data40 (file_mesh40 g names) (barrays true ds) (by_block g (barrays false ds))) else Err ValueError.
Proof. intros H. exact (file_with_bdata40 c H g ds). Qed.
Print Assumptions C85_data_binary.

(** Two triangles with nodes and elements numbered from 1, a temperature and a velocity. *)
Definition two_triangles : gfile Z := GFile [] None
  [GNodes (2, 7) [(1, [0; 0; 0]); (2, [1; 0; 0]); (3, [1; 1; 0]); (4, [0; 1; 0])]]%Z (1, 4)%Z
  [GElements (2, 7) "triangle" [(1, [1; 2; 3]); (2, [1; 3; 4])]]%Z (1, 2)%Z None.
Definition triangle_data : list (bool * bdata Z) :=
  [(true, BData "T" "0.5" 0%Z [(1, [11]); (2, [12]); (3, [13]); (4, [14])]%Z);
   (false, BData "velocity" "0.5" 2%Z [(1, [1; 0; -1]); (2, [2; 0; 0])]%Z)].
Example C82_data_binary_instance : gfile_ok two_triangles /\ gfile40_ok two_triangles /\
  Forall (fun kd => bdata_ok (snd kd) /\ numbered (snd kd)) triangle_data /\
  bkind_ok true (length (gnode_tags (gf_nodes two_triangles))) triangle_data /\
  bkind_ok false (length (flat_map gl_rows (gf_elements two_triangles))) triangle_data /\
  exists m, read41 (binary_port (int_codec 8)) (gmsh_file (binary_port (int_codec 8)) two_triangles ++ bdata_part (int_codec 8) triangle_data) = Ok m /\
    m_pdata m = [("T"%string, [[11]; [12]; [13]; [14]]%Z)] /\
    m_cdata m = [("velocity"%string, [[[1; 0; -1]; [2; 0; 0]]]%Z)].
Proof.
  split; [|split; [|split; [|split; [|split]]]].
  - constructor.
    + split; constructor.
    + discriminate.
    + split; [|cbn; lia]. repeat (constructor; [unfold gnodes_ok; cbn [gn_id gn_nodes fst snd]; repeat split; try (cbn; lia);
        repeat (constructor; [split; [cbn; lia|reflexivity]|]); constructor|]). constructor.
    + split; [discriminate|]. split; [|cbn; lia]. cbn. repeat (constructor; [cbn; intuition lia|]). constructor.
    + split; [discriminate|]. split; [|split; cbn; lia].
      constructor; [|constructor]; (unfold gelements_ok; cbn [gl_id gl_type gl_rows gf_entities two_triangles]; split; [cbn; lia|];
        split; [cbn; lia|]; split; [eexists; reflexivity|]; split; [eexists; reflexivity|]; split; [split; [discriminate|cbn; lia]|];
        split; [repeat (constructor; [split; [cbn; lia|]; split; [reflexivity|]; repeat (constructor; [cbn; tauto|]); constructor|]); constructor|cbn; tauto]).
    + cbn. lia.
    + discriminate.
  - constructor.
    + split; constructor.
    + discriminate.
    + split; [|cbn; lia]. repeat (constructor; [unfold gnodes40_ok; cbn [gn_id gn_nodes fst snd]; repeat split; try (cbn; lia);
        repeat (constructor; [split; [cbn; lia|reflexivity]|]); constructor|]). constructor.
    + split; [discriminate|]. split; [|cbn; lia]. cbn. repeat (constructor; [cbn; intuition lia|]). constructor.
    + split; [discriminate|]. split; [|split; cbn; lia].
      constructor; [|constructor]; (unfold gelements40_ok; cbn [gl_id gl_type gl_rows gf_entities two_triangles]; split; [cbn; lia|];
        split; [cbn; lia|]; split; [eexists; reflexivity|]; split; [eexists; reflexivity|]; split; [split; [discriminate|cbn; lia]|];
        split; [repeat (constructor; [split; [cbn; lia|]; split; [reflexivity|]; repeat (constructor; [cbn; tauto|]); constructor|]); constructor|cbn; tauto]).
  - constructor; [|constructor; [|constructor]]; (split; [|reflexivity]); (split; [now vm_compute|split; [cbn; intuition discriminate|]]); (split; [reflexivity|]); (split; [cbn; lia|]).
    + exists 1. split; [cbn; tauto|repeat constructor].
    + exists 3. split; [cbn; tauto|repeat constructor].
  - split; [repeat constructor; cbn; intuition discriminate|repeat constructor].
  - split; [repeat constructor; cbn; intuition discriminate|repeat constructor].
  - eexists. split; [vm_compute; reflexivity|]. split; reflexivity.
Qed.

(** Every binary file with a section whose rows have other tags is rejected. *)
Theorem C82_binary_tags_refuted {F : Type} (c : codec F) (g : gfile F) (ds : list (bool * bdata F)) : codec_ok c -> gfile_ok g ->
  Forall (fun kd => bdata_ok (snd kd) /\ Forall (fun r => in_range CInt (fst r)) (bd_rows (snd kd))) ds ->
  Exists (fun kd => ~ numbered (snd kd)) ds ->
  read41 (binary_port c) (gmsh_file (binary_port c) g ++ bdata_part c ds) = Err ReadError.
Proof. intros H. exact (file_with_bdata_stops c H g ds). Qed.
Print Assumptions C82_binary_tags_refuted.
(** The square, whose nodes have the tags 40, 3, 12 and 7: its text file is read with the temperature
    (C82_data_instance), its binary file is not read. *)
Example C82_binary_tags_instance : exists (g : gfile Z) (d : bdata Z), gfile_ok g /\ bdata_ok d /\ ~ numbered d /\ Forall (fun r => in_range CInt (fst r)) (bd_rows d) /\ map fst (bd_rows d) = gnode_tags (gf_nodes g) /\
  read41 (binary_port (int_codec 8)) (gmsh_file (binary_port (int_codec 8)) g ++ bdata_part (int_codec 8) [(true, d)]) = Err ReadError.
Proof.
  exists (square [4]%Z), (BData "T" "0.0" 0%Z [(40, [11]); (3, [12]); (12, [13]); (7, [14])]%Z).
  split; [apply square_ok; [repeat constructor; cbn; lia|cbn; lia]|]. split; [|split; [discriminate|split; [repeat (constructor; [cbn; lia|]); constructor|split; [reflexivity|now vm_compute]]]].
  split; [now vm_compute|split; [cbn; intuition discriminate|]]. split; [reflexivity|]. split; [cbn; lia|]. exists 1. split; [cbn; tauto|repeat constructor].
Qed.
