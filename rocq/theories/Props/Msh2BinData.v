(** C84: sections with data of the elements in the binary MSH 2.2 files of Gmsh. *)
From Coq Require Import ZArith NArith List String Ascii Bool Lia.
From Verif.Lib Require Import Base Facts Text Lines LinesFacts Bytes BytesFacts File.
From Verif.Model Require Import Core Gmsh Gmsh22 Port Gmsh22Bin.
From Verif.Spec Require Import Core Blocks Gmsh Gmsh22 Msh41 Msh2File Msh2Bin Msh4Data Msh2Data.
From Verif.Proofs Require Import Msh2BinData.
From Verif.Props Require Import Msh41 Gmsh22Bin Msh2File Msh2Data.
Import Model.Gmsh Model.Gmsh22.
Import ListNotations.

(** The exact outcome.  The file must be one that is read without the data (C84_binary); the rows of every section must
    have the element tags 1, 2, ... in this order, or it is a ReadError; and every block but the last must have two
    cells, or it is a ValueError. *)
Theorem C84_element_data {fl : floats} (c : codec fl) (f : file22 fl) groups (ds : list (bdata fl)) : floats_ok fl -> codec_ok c ->
  file22_ok f -> groups_ok f groups -> element_bdata_ok f ds ->
  exists names, (forall k, dget k names = dget k (f2_names f)) /\
    read22_file c (file22_data_bytes c f groups ds) =
      if consecutive_dec f then
        if same_counts f then
          if all_numbered ds then
            if tags_agree 0 f && tags_agree 1 f && match ds with [] => true | _ => two_each (file22_blocks f) end
            then Ok (file22_bdata_mesh f ds names) else Err ValueError
          else Err ReadError
        else Err ValueError
      else Err ReadError.
Proof. intros Hf Hc. exact (file22_with_bdata c Hf Hc f groups ds). Qed.
Print Assumptions C84_element_data.

(** Element tags with gaps, which Gmsh writes if only some groups are saved: no such file with element data is read. *)
Theorem C84_element_tags_refuted {fl : floats} (c : codec fl) (f : file22 fl) groups (ds : list (bdata fl)) d : floats_ok fl -> codec_ok c ->
  file22_ok f -> groups_ok f groups -> element_bdata_ok f ds ->
  In d ds -> map fst (bd_rows d) = map e_id (f2_elements f) -> map e_id (f2_elements f) <> map (fun k => Z.of_nat (k + 1)) (seq 0 (length (f2_elements f))) ->
  forall m, read22_file c (file22_data_bytes c f groups ds) <> Ok m.
Proof.
  intros Hf Hc W G D Hd Et Hne m E. destruct (C84_element_data c f groups ds Hf Hc W G D) as (names & _ & H). rewrite E in H.
  destruct (consecutive_dec f); [|discriminate]. destruct (same_counts f); [|discriminate].
  destruct (all_numbered ds) as [A|]; [|discriminate]. rewrite Forall_forall in A. specialize (A d Hd). unfold numbered in A.
  apply Hne. rewrite Et in A. rewrite A. f_equal. f_equal. rewrite <- (map_length fst (bd_rows d)), Et. apply map_length.
Qed.
Print Assumptions C84_element_tags_refuted.

(** Two lines and one triangle, the triangle with the given tag *)
Definition fan {fl : floats} (x : Z -> fl) (k : Z) : file22 fl := @File22 fl []
  [(1, [x 1; x 1; x 0]); (2, [x 0; x 0; x 0]); (3, [x 1; x 0; x 0])]%Z
  [Element "line" 1 [4; 1] [1; 3]; Element "line" 2 [4; 2] [3; 2]; Element "triangle" k [9; 6] [2; 3; 1]]%Z None [].
Definition fan_groups (k : Z) : list (list element) :=
  [[Element "line" 1 [4; 1] [1; 3]; Element "line" 2 [4; 2] [3; 2]]; [Element "triangle" k [9; 6] [2; 3; 1]]]%Z.
Definition fan_data {fl : floats} (x : Z -> fl) (k : Z) : list (bdata fl) := [BData "p" "0.5" 3 [(1, [x 10]); (2, [x 11]); (k, [x 12])]]%Z.
Example fan_ok {fl : floats} (x : Z -> fl) k : int32 k ->
  file22_ok (fan x k) /\ groups_ok (fan x k) (fan_groups k) /\ element_bdata_ok (fan x k) (fan_data x k).
Proof.
  intros Hk. split; [|split].
  - constructor;
    [ split; constructor
    | split; [discriminate|]; cbn; repeat (constructor; [cbn; intuition lia|]); constructor
    | cbn [f2_nodes fan]; repeat (constructor; [cbn [fst snd]; split; [lia|reflexivity]|]); constructor
    | cbn [f2_elements fan]; repeat (constructor; [cbn [e_type e_tags]; split; [split; [eexists; reflexivity|]; split; [reflexivity|];
        cbn [e_nodes]; repeat (constructor; [cbn; tauto|]); constructor|]; split; [unfold int32; repeat (constructor; [lia|]); constructor|eexists; reflexivity]|]); constructor
    | discriminate
    | split; constructor
    | constructor ].
  - constructor.
    + reflexivity.
    + repeat (constructor; [split; [discriminate|]; eexists _, _; repeat (constructor; [split; reflexivity|]); constructor|]). constructor.
    + cbn [f2_elements fan]. repeat (constructor; [cbn [e_id e_tags length]; split; [first [exact Hk | unfold int32; lia]|lia]|]). constructor.
    + cbn [f2_elements fan length]. lia.
  - split; [repeat constructor; cbn; intuition discriminate|]. constructor; [|constructor]. split; [|split].
    + split; [now vm_compute|]. split; [cbn; intuition discriminate|]. split; [reflexivity|]. split; [cbn; lia|].
      exists 1. split; [cbn; tauto|repeat constructor].
    + reflexivity.
    + cbn [bd_rows]. repeat (constructor; [cbn [fst]; first [exact Hk | unfold int32; lia]|]). constructor.
Qed.
Definition read_fan (k : Z) (ds : list (bdata int_floats)) := do m <- read22_file (fl:=int_floats) (int_codec 8)
  (file22_data_bytes (fl:=int_floats) (int_codec 8) (@fan int_floats (fun z => z) k) (fan_groups k) ds); Ok (g_cells m, g_cdata m).
Definition whole_data := @fan_data int_floats (fun z => z).
Example C84_element_data_instance : floats_ok word_floats /\ codec_ok word_codec /\
  (forall k, int32 k -> file22_ok (@fan word_floats word_of k) /\ groups_ok (@fan word_floats word_of k) (fan_groups k) /\
     element_bdata_ok (@fan word_floats word_of k) (@fan_data word_floats word_of k)) /\
  read_fan 3 (whole_data 3) = Ok ([Block "line" [[0; 2]; [2; 1]]; Block "triangle" [[1; 2; 0]]]%Z, [("p"%string, [[[10]; [11]]; [[12]]]%Z)]) /\
  read_fan 7 [] = Ok ([Block "line" [[0; 2]; [2; 1]]; Block "triangle" [[1; 2; 0]]]%Z, []) /\
  read_fan 7 (whole_data 7) = Err ReadError.
Proof.
  split; [exact word_floats_ok|]. split; [exact word_codec_ok|]. split; [intros k; apply fan_ok|]. repeat split; vm_compute; reflexivity.
Qed.
