(** C84: binary MSH 2.2 files written by Gmsh. *)
From Coq Require Import ZArith NArith List String Ascii Bool Lia.
From Verif.Lib Require Import Base Facts Text Lines LinesFacts Bytes BytesFacts File.
From Verif.Model Require Import Core Gmsh Gmsh22 Port Gmsh22Bin.
From Verif.Spec Require Import Core Blocks Gmsh Gmsh22 Msh41 Msh2File Msh2Bin.
From Verif.Proofs Require Import Msh2Bin.
From Verif.Props Require Import Msh41 Gmsh22Bin Msh2File.
Import ListNotations.

(** Everything that is read from a binary file.  With node tags 1, 2, ... it is the mesh that the file describes (the same
    as for text files, C83); it is a ValueError exactly if elements of one type have different numbers of tags, or if
    some elements have a physical tag (or a geometrical tag) and others have none.  With other node tags the file is
    refused. *)
Theorem C84_binary {fl : floats} (c : codec fl) (f : file22 fl) groups : floats_ok fl -> codec_ok c ->
  file22_ok f -> groups_ok f groups ->
  exists names, (forall k, dget k names = dget k (f2_names f)) /\
    read22_file c (file22_bytes c f groups) =
      if consecutive_dec f then
        if same_counts f && (tags_agree 0 f && tags_agree 1 f) then Ok (file22_mesh f names) else Err ValueError
      else Err ReadError.
Proof. intros Hf Hc. exact (file22_read_bin c Hf Hc f groups). Qed.
Print Assumptions C84_binary.

(** How Gmsh divides the elements into groups makes no difference. *)
Theorem C84_groups {fl : floats} (c : codec fl) (f : file22 fl) groups groups' : floats_ok fl -> codec_ok c ->
  file22_ok f -> groups_ok f groups -> groups_ok f groups' ->
  forall m m', read22_file c (file22_bytes c f groups) = Ok m -> read22_file c (file22_bytes c f groups') = Ok m' ->
  g_points m = g_points m' /\ g_cells m = g_cells m' /\ g_phys m = g_phys m' /\ g_geom m = g_geom m' /\
  g_periodic m = g_periodic m' /\ g_pdata m = g_pdata m'.
Proof.
  intros Hf Hc W G G' m m' E E'. destruct (C84_binary c f groups Hf Hc W G) as (n1 & _ & E1).
  destruct (C84_binary c f groups' Hf Hc W G') as (n2 & _ & E2). rewrite E in E1. rewrite E' in E2.
  destruct (consecutive_dec f); [|discriminate]. destruct (same_counts f && (tags_agree 0 f && tags_agree 1 f)); [|discriminate].
  injection E1 as ->. injection E2 as ->. repeat split.
Qed.
Print Assumptions C84_groups.

(** Lines and triangles in turn, with names, a link and data; the node tags and the tags of one triangle are given. *)
Definition sheet {fl : floats} (x : Z -> fl) (a b c d : Z) (ts : list Z) : file22 fl := File22
  [("side"%string, (4, 1)); ("all"%string, (9, 2))]%Z
  [(a, [x 1; x 1; x 0]); (b, [x 0; x 0; x 0]); (c, [x 1; x 0; x 0]); (d, [x 0; x 1; x 0])]%Z
  [Element "line" 1 [4; 1] [a; c]; Element "triangle" 5 [9; 6] [b; c; a]; Element "triangle" 2 ts [b; a; d];
   Element "line" 3 [4; 2] [c; b]]%Z
  (Some [Periodic 1 3 4 (Some [x 1; x 0]) [(b, c)]]%Z)
  [NodeData "T" (x 3%Z) 7 [(a, [x 10]); (b, [x 20]); (c, [x 30]); (d, [x 40])]]%Z.
Definition sheet_groups (a b c d : Z) (ts : list Z) : list (list element) :=
  [[Element "line" 1 [4; 1] [a; c]]; [Element "triangle" 5 [9; 6] [b; c; a]]; [Element "triangle" 2 ts [b; a; d]];
   [Element "line" 3 [4; 2] [c; b]]]%Z.
Example sheet_ok {fl : floats} (x : Z -> fl) a b c d ts :
  Forall (fun t => 1 <= t < 2 ^ 31)%Z [a; b; c; d] -> NoDup [a; b; c; d] -> Forall int32 ts -> (length ts < 10) ->
  file22_ok (sheet x a b c d ts) /\ groups_ok (sheet x a b c d ts) (sheet_groups a b c d ts).
Proof.
  intros Ht Hd Hts Hl. inversion Ht as [|? ? Ha Ht1]; subst. inversion Ht1 as [|? ? Hb Ht2]; subst.
  inversion Ht2 as [|? ? Hc Ht3]; subst. inversion Ht3 as [|? ? Hd4 _]; subst. split; constructor.
  - split; repeat (constructor; [cbn; first [intuition discriminate | now repeat split]|]); constructor.
  - split; [discriminate|exact Hd].
  - cbn [f2_nodes sheet]. repeat (constructor; [cbn [fst snd]; split; [lia|reflexivity]|]). constructor.
  - cbn [f2_elements sheet]. repeat (constructor; [cbn [e_type e_tags]; split; [split; [eexists; reflexivity|]; split; [reflexivity|];
      cbn [e_nodes]; repeat (constructor; [cbn; tauto|]); constructor|]; split; [first [exact Hts | unfold int32; repeat (constructor; [lia|]); constructor]|eexists; reflexivity]|]).
    constructor.
  - intros ps E. injection E as <-. repeat (constructor; [discriminate|]). constructor.
  - split; repeat (constructor; [cbn; first [tauto | now repeat split]|]); constructor.
  - constructor; [|constructor]. split; [reflexivity|]. exists 1. split; [now left|]. repeat (constructor; [reflexivity|]). constructor.
  - reflexivity.
  - repeat (constructor; [split; [discriminate|]; eexists _, _; constructor; [split; reflexivity|constructor]|]). constructor.
  - cbn [f2_elements sheet]. repeat (constructor; [cbn [e_id e_tags length]; split; [unfold int32; lia|lia]|]). constructor.
  - cbn [f2_elements sheet length]. lia.
Qed.

Definition see_sheet a b c d ts := do m <- read22_file (fl:=int_floats) (int_codec 8)
   (file22_bytes (fl:=int_floats) (int_codec 8) (@sheet int_floats (fun z => z) a b c d ts) (sheet_groups a b c d ts)); Ok (seen m).
Example C84_instance : floats_ok word_floats /\ codec_ok word_codec /\
  file22_ok (@sheet word_floats word_of 1 2 3 4 [9; 7]%Z) /\
  groups_ok (@sheet word_floats word_of 1 2 3 4 [9; 7]%Z) (sheet_groups 1 2 3 4 [9; 7]%Z) /\
  see_sheet 1 2 3 4 [9; 7]%Z = Ok
    ([[1; 1; 0]; [0; 0; 0]; [1; 0; 0]; [0; 1; 0]]%Z,
     [Block "line" [[0; 2]]; Block "triangle" [[1; 2; 0]; [1; 0; 3]]; Block "line" [[2; 1]]]%Z,
     Some [[4]; [9; 9]; [4]]%Z, Some [[1]; [6; 7]; [2]]%Z, [("side", (4, 1)); ("all", (9, 2))]%Z%string,
     Some [[(1, 2)]]%Z, [("T", [[10]; [20]; [30]; [40]])]%Z%string).
Proof.
  split; [exact word_floats_ok|]. split; [exact word_codec_ok|].
  assert (H : Forall (fun t => 1 <= t < 2 ^ 31)%Z [1; 2; 3; 4]%Z) by (repeat (constructor; [lia|]); constructor).
  assert (H1 : NoDup [1; 2; 3; 4]%Z) by (repeat (constructor; [cbn; lia|]); constructor).
  assert (H2 : Forall int32 [9; 7]%Z) by (unfold int32; repeat (constructor; [lia|]); constructor).
  destruct (@sheet_ok word_floats word_of 1 2 3 4 [9; 7] H H1 H2 ltac:(cbn; lia))%Z as [A B]. split; [exact A|]. split; [exact B|].
  vm_compute. reflexivity.
Qed.

(** Node tags with gaps or in another order: such files describe meshes and their text versions are read (C83), but every
    binary one is refused. *)
Theorem C84_tags_refuted {fl : floats} (c : codec fl) (f : file22 fl) groups : floats_ok fl -> codec_ok c ->
  file22_ok f -> groups_ok f groups -> file22_tags f <> map Z.of_nat (seq 1 (length (f2_nodes f))) ->
  read22_file c (file22_bytes c f groups) = Err ReadError.
Proof.
  intros Hf Hc W G H. destruct (C84_binary c f groups Hf Hc W G) as (names & _ & ->). destruct (consecutive_dec f); [contradiction|reflexivity].
Qed.
Print Assumptions C84_tags_refuted.
Example C84_tags_instance : see_sheet 1 2 3 5 [9; 7]%Z = Err ReadError /\ see_sheet 2 1 3 4 [9; 7]%Z = Err ReadError.
Proof. split; vm_compute; reflexivity. Qed.

(** Elements of a partitioned mesh have further tags, as many as they have partitions.  The text version of such a file is
    read (C83), the binary one is not. *)
Theorem C84_counts_refuted {fl : floats} (c : codec fl) (f : file22 fl) groups e e' : floats_ok fl -> codec_ok c ->
  file22_ok f -> groups_ok f groups -> consecutive f ->
  In e (f2_elements f) -> In e' (f2_elements f) -> e_type e = e_type e' -> length (e_tags e) <> length (e_tags e') ->
  read22_file c (file22_bytes c f groups) = Err ValueError.
Proof.
  intros Hf Hc W G C He He' Et Ht. destruct (C84_binary c f groups Hf Hc W G) as (names & _ & ->).
  destruct (consecutive_dec f); [|contradiction]. destruct (same_counts f) eqn:E; [|reflexivity]. exfalso.
  unfold same_counts in E. rewrite forallb_forall in E. specialize (E e He). rewrite forallb_forall in E. specialize (E e' He').
  rewrite Et, String.eqb_refl in E. cbn [negb orb] in E. apply Nat.eqb_eq in E. contradiction.
Qed.
Print Assumptions C84_counts_refuted.
Example C84_counts_instance : see_sheet 1 2 3 4 [9; 7; 1; 2]%Z = Err ValueError /\
  (do m <- read_plate (@sheet int_floats (fun z => z) 1 2 3 4 [9; 7; 1; 2]%Z); Ok (g_phys m)) = Ok (Some [[4]; [9; 9]; [4]]%Z).
Proof. split; vm_compute; reflexivity. Qed.
