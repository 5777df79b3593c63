(** C83: sections with data of the elements in the MSH 2.2 text files of Gmsh. *)
From Coq Require Import ZArith List String Ascii Bool Lia.
From Verif.Lib Require Import Base Facts Text Lines LinesFacts.
From Verif.Model Require Import Core Gmsh Gmsh22.
From Verif.Spec Require Import Core Blocks Gmsh Gmsh22 Msh2File Msh4Data Msh2Data.
From Verif.Proofs Require Import Blocks Gmsh22 Gmsh22File Msh2File Msh4Data Msh2Data.
From Verif.Props Require Import Msh2File.
Import Model.Gmsh Model.Gmsh22.
Import ListNotations.

(** The exact outcome: the mesh of C83_ascii with the rows of every section divided among the blocks, if every block but
    the last has two cells; otherwise ValueError. *)
Theorem C83_element_data {fl : floats} (f : file22 fl) (ds : list (node_data fl)) : floats_ok fl -> file22_ok f -> element_data_ok f ds ->
  exists body names, read_header (file22_data_lines f ds) = Ok ("2.2"%string, true, body) /\
    (forall k, dget k names = dget k (f2_names f)) /\
    read22 body = if tags_agree 0 f && tags_agree 1 f && match ds with [] => true | _ => two_each (file22_blocks f) end
                  then Ok (file22_data_mesh f ds names) else Err ValueError.
Proof. intros H. exact (file22_with_data H f ds). Qed.
Print Assumptions C83_element_data.

(** So no file with element data is read in which a block other than the last has one cell, or three or more, although
    the file without the data is read. *)
Theorem C83_element_data_refuted {fl : floats} (f : file22 fl) (ds : list (node_data fl)) b : floats_ok fl -> file22_ok f ->
  element_data_ok f ds -> ds <> [] -> In b (removelast (file22_blocks f)) -> blen b <> 2 ->
  exists body, read_header (file22_data_lines f ds) = Ok ("2.2"%string, true, body) /\ @read22 fl body = Err ValueError.
Proof.
  intros H W D Hne Hb Hn. destruct (C83_element_data f ds H W D) as (body & names & H1 & _ & H3). exists body. split; [exact H1|].
  assert (E : two_each (file22_blocks f) = false).
  { unfold two_each. destruct (file22_blocks f) as [|x l]; [reflexivity|].
    destruct (forallb (fun b => Nat.eqb (blen b) 2) (removelast (x :: l))) eqn:E; [|reflexivity].
    rewrite forallb_forall in E. specialize (E b Hb). apply Nat.eqb_eq in E. contradiction. }
  rewrite H3, E. destruct ds; [congruence|]. now rewrite andb_false_r.
Qed.
Print Assumptions C83_element_data_refuted.

(** Two lines and three triangles with pressures and velocities of the elements. *)
Definition strip_file (n : list element) : file22 int_floats := @File22 int_floats []
  [(40, [1; 1; 0]); (3, [0; 0; 0]); (12, [1; 0; 0]); (7, [0; 1; 0])]%Z
  ([Element "line" 1 [4; 1] [40; 12]] ++ n ++
   [Element "triangle" 5 [9; 6] [3; 12; 40]; Element "triangle" 2 [9; 6] [3; 40; 7]; Element "triangle" 4 [9; 6] [3; 7; 12]])%Z None [].
Definition second_line : list element := [Element "line" 3 [4; 2] [12; 3]]%Z.
Definition strip_data : list (node_data int_floats) :=
  [@NodeData int_floats "p" 0 0 [(1, [10]); (3, [11]); (5, [12]); (2, [13]); (4, [14])];
   @NodeData int_floats "v" 0 0 [(1, [1; 0; 0]); (3, [2; 0; 0]); (5, [3; 0; 0]); (2, [4; 0; 0]); (4, [5; 0; 0])]]%Z.
Definition read_strip (n : list element) (ds : list (node_data int_floats)) :=
  do h <- read_header (file22_data_lines (strip_file n) ds); do m <- @read22 int_floats (snd h); Ok (g_cells m, g_cdata m).
Example strip_ok n : n = [] \/ n = second_line -> file22_ok (strip_file n).
Proof.
  intros [-> | ->]; (constructor;
  [ split; constructor
  | split; [discriminate|]; cbn; repeat (constructor; [cbn; intuition lia|]); constructor
  | cbn [f2_nodes strip_file]; repeat (constructor; [cbn [fst snd]; split; [lia|reflexivity]|]); constructor
  | cbn [f2_elements strip_file app second_line]; repeat (constructor; [cbn [e_type e_tags]; split; [split; [eexists; reflexivity|]; split; [reflexivity|];
      cbn [e_nodes]; repeat (constructor; [cbn; tauto|]); constructor|]; split; [unfold int32; repeat (constructor; [lia|]); constructor|eexists; reflexivity]|]); constructor
  | discriminate
  | split; constructor
  | constructor ]).
Qed.
Example C83_element_data_instance : file22_ok (strip_file second_line) /\ element_data_ok (strip_file second_line) strip_data /\
  read_strip second_line strip_data = Ok
    ([Block "line" [[0; 2]; [2; 1]]; Block "triangle" [[1; 2; 0]; [1; 0; 3]; [1; 3; 2]]]%Z,
     [("p", [[[10]; [11]]; [[12]; [13]; [14]]]); ("v", [[[1; 0; 0]; [2; 0; 0]]; [[3; 0; 0]; [4; 0; 0]; [5; 0; 0]]])]%Z%string).
Proof.
  split; [apply strip_ok; now right|]. split; [|vm_compute; reflexivity].
  split; [repeat constructor; cbn; intuition discriminate|].
  constructor; [|constructor; [|constructor]]; (split; [now vm_compute|split; [cbn; intuition discriminate|split; [reflexivity|]]]).
  - exists 1. split; [cbn; tauto|repeat constructor].
  - exists 3. split; [cbn; tauto|repeat constructor].
Qed.
(** The same with one line is read without the data and not with them. *)
Definition four_rows : list (node_data int_floats) := [@NodeData int_floats "p" 0 0 [(1, [10]); (5, [12]); (2, [13]); (4, [14])]]%Z.
Example C83_element_data_refuted_instance : file22_ok (strip_file []) /\ element_data_ok (strip_file []) four_rows /\
  In (Block "line" [[0; 2]]%Z) (removelast (file22_blocks (strip_file []))) /\
  read_strip [] [] = Ok ([Block "line" [[0; 2]]; Block "triangle" [[1; 2; 0]; [1; 0; 3]; [1; 3; 2]]]%Z, []) /\
  read_strip [] four_rows = Err ValueError.
Proof.
  split; [apply strip_ok; now left|]. split; [|split; [vm_compute; tauto|split; vm_compute; reflexivity]].
  split; [repeat constructor; cbn; intuition discriminate|].
  constructor; [|constructor]; (split; [now vm_compute|split; [cbn; intuition discriminate|split; [reflexivity|]]]). exists 1. split; [cbn; tauto|repeat constructor].
Qed.
