(** C86: Abaqus files that include other files. *)
From Verif.Lib Require Import Base Facts Text Lines.
From Verif.Model Require Import Core Abaqus.
From Verif.Spec Require Import Core Abaqus AbaqusInclude.
From Verif.Proofs Require Import AbaqusInclude.

(** Any number of files, included to any depth, after the mesh of the file itself, with a path as it stands or relative
    to the file that includes them: the points of all files in the order in which they are included, the cells and
    the point sets with the indices moved by the number of points before.  Of the cell sets, exactly those of
    the outermost file are there, with the same members. *)
Theorem C86_indices_partial (fl : floats) fs path depth bound d (m0 : abq_mesh fl) ms :
  assembly depth fs path (m0 :: ms) -> Forall (part_ok d) (m0 :: ms) -> depth <= bound ->
  exists m, read_abaqus_file bound fs path = Ok m /\
    ab_points m = flat_map ab_points (m0 :: ms) /\
    ab_cells m = placed 0 (m0 :: ms) /\
    (forall k, dget k (ab_psets m) = last_set k 0 (m0 :: ms)) /\
    same_sets (ab_csets m0) (ab_csets m).
Proof.
  intros H Hok Hb. destruct (read_assembly fs d bound path _ (assembly_le fs _ _ path _ Hb H) Hok) as (m & m1 & ms1 & E & R & (E1 & E2 & E3 & _) & Hp).
  injection E as <- <-. exists m. auto.
Qed.
Print Assumptions C86_indices_partial.

(** Without indices: the blocks of all files, every cell with the points that it has in its own file. *)
Theorem C86_cells_partial (fl : floats) fs path depth bound d (ms : list (abq_mesh fl)) :
  assembly depth fs path ms -> Forall (part_ok d) ms -> Forall indices_ok ms -> depth <= bound ->
  exists m, read_abaqus_file bound fs path = Ok m /\
    shapes m = flat_map shapes ms /\
    forall k, set_coords m k = last_some (map (fun p => set_coords p k) ms).
Proof.
  intros H Hok Hi Hb. destruct (read_assembly fs d bound path _ (assembly_le fs _ _ path _ Hb H) Hok) as (m & m1 & ms1 & E & R & (E1 & E2 & E3 & _) & Hp).
  exists m. split; [exact R|]. unfold shapes at 1, set_coords at 1. rewrite E1, E2. split.
  - exact (shapes_placed ms [] Hi).
  - intros k. rewrite E3. exact (sets_placed k ms [] Hi).
Qed.
Print Assumptions C86_cells_partial.

(** An instance: a file in a directory includes a file in a directory below, and this one a file beside it. *)
Definition ex_main : list string :=
  ["*HEADING"; "*NODE"; "1, 0, 0"; "2, 10, 0"; "5, 0, 10"; "*ELEMENT, TYPE=S3, ELSET=skin"; "1, 1, 2, 5"; "*NSET, NSET=fixed"; "5, 1"].
Definition ex_tail : list string := ["** the rest"; "*INCLUDE, INPUT=parts/a.inp"; "*MATERIAL, NAME=steel"; "*INCLUDE,INPUT= parts/b.inp"].
Definition ex_a : list string := ["*NODE"; "8, 3, 4"; "9, 5, 6"; "*ELEMENT, TYPE=B21"; "4, 9, 8"; "*NSET, NSET=end"; "8"].
Definition ex_b : list string := ["*NODE"; "1, 7, 7"; "2, 8, 8"; "*ELEMENT, TYPE=T2D2"; "1, 1, 2"; "*NSET, NSET=fixed"; "2"].
Definition ex_fs (p : string) : option (list string) :=
  dget p [("job/main.inp", ex_main ++ ex_tail); ("job/parts/a.inp", ex_a ++ ["*INCLUDE, INPUT=b.inp"]); ("job/parts/b.inp", ex_b)].
Definition ex_m0 : abq_mesh int_floats :=
  AbqMesh [[0; 0]; [10; 0]; [0; 10]]%Z [Block "triangle" [[0; 1; 2]]%Z] [("fixed", [2; 0]%Z)] [("skin", [Idx [0%Z]])].
Definition ex_ma : abq_mesh int_floats := AbqMesh [[3; 4]; [5; 6]]%Z [Block "line" [[1; 0]]%Z] [("end", [0]%Z)] [].
Definition ex_mb : abq_mesh int_floats := AbqMesh [[7; 7]; [8; 8]]%Z [Block "line" [[0; 1]]%Z] [("fixed", [1]%Z)] [].
Example C86_instance :
  assembly 3 ex_fs "job/main.inp" [ex_m0; ex_ma; ex_mb; ex_mb] /\
  Forall (part_ok 2) [ex_m0; ex_ma; ex_mb; ex_mb] /\ Forall indices_ok [ex_m0; ex_ma; ex_mb; ex_mb] /\
  read_abaqus_file 3 ex_fs "job/main.inp" = Ok (AbqMesh (F := int_floats)
    [[0; 0]; [10; 0]; [0; 10]; [3; 4]; [5; 6]; [7; 7]; [8; 8]; [7; 7]; [8; 8]]%Z
    [Block "triangle" [[0; 1; 2]]%Z; Block "line" [[4; 3]]%Z; Block "line" [[5; 6]]%Z; Block "line" [[7; 8]]%Z]
    [("fixed", [8]%Z); ("end", [3]%Z)] [("skin", [Idx [0%Z]; Idx []; Idx []; Idx []])]).
Proof.
  assert (Hb : forall d, assembly (S d) ex_fs "job/parts/b.inp" [ex_mb]).
  { intros d. exists ex_b, [], [], ex_mb, []. split; [reflexivity|]. split; [exact I|]. split; [constructor|]. split; [now vm_compute|]. split; constructor. }
  split.
  - exists ex_main, ex_tail, ["parts/a.inp"; "parts/b.inp"], ex_m0, [[ex_ma; ex_mb]; [ex_mb]].
    split; [reflexivity|]. split; [reflexivity|]. split.
    { constructor; [left; reflexivity|]. apply (inc_file 1 0 "parts/a.inp"); [now split|]. constructor; [right; vm_compute; intuition discriminate|].
      apply (inc_file 0 1 "parts/b.inp"); [now split|constructor]. }
    split; [now vm_compute|]. split; [|reflexivity]. constructor; [|constructor; [|constructor]].
    + exists "job/parts/a.inp". split; [right; split; [reflexivity|]; split; [reflexivity|]; right; exists "job", "main.inp"; auto|].
      exists ex_a, ["*INCLUDE, INPUT=b.inp"], ["b.inp"], ex_ma, [[ex_mb]]. split; [reflexivity|]. split; [reflexivity|].
      split; [apply (inc_file 1 0 "b.inp"); [now split|constructor]|]. split; [now vm_compute|]. split; [|reflexivity]. constructor; [|constructor].
      exists "job/parts/b.inp". split; [right; split; [reflexivity|]; split; [reflexivity|]; right; exists "job/parts", "a.inp"; auto|]. apply (Hb 0).
    + exists "job/parts/b.inp". split; [right; split; [reflexivity|]; split; [reflexivity|]; right; exists "job", "main.inp"; auto|]. apply (Hb 1).
  - split; [|split; [|now vm_compute]].
    + repeat constructor; discriminate.
    + repeat constructor; cbn; lia.
Qed.

(** Nodes in one file and elements in another, or in the file that includes the first, are an error: whatever
    files are included, the next ELEMENT finds no nodes. *)
Theorem C86_nodes_apart_refuted (fl : floats) (include : string -> result (abq_mesh fl)) d tail names parts t rest :
  includes tail names -> Forall2 (fun name m => include name = Ok m) names parts -> Forall (part_ok d) parts ->
  read_abaqus include (tail ++ ("*ELEMENT, TYPE=" ++ t)%string :: rest) = Err ReadError.
Proof. apply elements_apart. Qed.
Print Assumptions C86_nodes_apart_refuted.
Example C86_nodes_apart_instance :
  read_abaqus_file (fl := int_floats) 2 (fun p => dget p [("main.inp", ["*INCLUDE, INPUT=nodes.inp"; "*ELEMENT, TYPE=B21"; "1, 1, 2"]); ("nodes.inp", ["*NODE"; "1, 0, 0"; "2, 1, 0"])]) "main.inp" = Err ReadError.
Proof. now vm_compute. Qed.

(** The cell sets of an included file are lost. *)
Definition ex_sets : list string := ["*NODE"; "1, 0, 0"; "2, 1, 0"; "*ELEMENT, TYPE=B21"; "1, 1, 2"; "*ELSET, ELSET=bar"; "1"].
Example C86_cell_sets_refuted :
  let fs p := dget p [("main.inp", ["*INCLUDE, INPUT=part.inp"]); ("part.inp", ex_sets)] in
  (exists m, read_abaqus_file (fl := int_floats) 1 fs "part.inp" = Ok m /\ ab_csets m = [("bar", [Idx [0%Z]])]) /\
  (exists m, read_abaqus_file (fl := int_floats) 2 fs "main.inp" = Ok m /\ ab_csets m = [] /\ length (ab_cells m) = 1).
Proof. split; eexists; (split; [vm_compute; reflexivity|]); now vm_compute. Qed.

(** NODE after INCLUDE: the points of the included file are lost, and its cells refer to others. *)
Example C86_nodes_after_refuted :
  let fs p := dget p [("main.inp", ["*INCLUDE, INPUT=part.inp"; "*NODE"; "1, 50, 50"]); ("part.inp", ex_sets)] in
  exists m, read_abaqus_file (fl := int_floats) 2 fs "main.inp" = Ok m /\ ab_points m = [[50; 50]]%Z /\ ab_cells m = [Block "line" [[0; 1]]%Z].
Proof. eexists. split; [vm_compute; reflexivity|]. now vm_compute. Qed.

(** A set of elements after INCLUDE: the set is that of the second block, but the list has one part only, which belongs to the first. *)
Example C86_sets_after_refuted :
  let fs p := dget p [("main.inp", ["*NODE"; "1, 0, 0"; "2, 1, 0"; "*INCLUDE, INPUT=part.inp"; "*ELEMENT, TYPE=B21"; "7, 2, 1"; "8, 1, 2"; "*ELSET, ELSET=mine"; "8"]); ("part.inp", ex_sets)] in
  exists m, read_abaqus_file (fl := int_floats) 2 fs "main.inp" = Ok m /\
    ab_cells m = [Block "line" [[2; 3]]%Z; Block "line" [[1; 0]; [0; 1]]%Z] /\ ab_csets m = [("mine", [Idx [1%Z]])].
Proof. eexists. split; [vm_compute; reflexivity|]. now vm_compute. Qed.
