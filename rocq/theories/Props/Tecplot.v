(** C49: Tecplot. *)
From Coq Require Import List String Lia.
From Verif.Lib Require Import Base Facts Text TextFacts Lines LinesFacts.
From Verif.Model Require Import Core Abaqus Avsucd Tables Tecplot.
From Verif.Spec Require Import Core Tecplot.
From Verif.Proofs Require Import Gmsh Tecplot TecplotFile.
Import Model.Tecplot.

(** A row of the connectivity section: node numbers from one, separated by blanks. *)
Definition one_based (c : cell) : string := join " " (map (fun i => str_of_Z (i + 1)) c).

Lemma file_parts {fl : floats} v (m : tec_mesh fl) z rows file : tec_good m ->
  tec_select (tm_cells m) = Ok (z, top_blocks (tm_cells m), rows) -> Forall2 padded (top_cells (tm_cells m)) rows ->
  file = tec_lines v m z rows ->
  write_tecplot v m = Ok file /\
  nth_error file 2 = Some ("ZONE NODES = " ++ str_of_nat (length (tm_points m)) ++ ", ELEMENTS = " ++ str_of_nat (length (top_cells (tm_cells m))) ++ ",")%string /\
  (exists comma, nth_error file 3 = Some ("DATAPACKING = BLOCK, ZONETYPE = " ++ z ++ comma)%string /\ (comma = "" \/ comma = ",")%string) /\
  exists front, file = front ++ map one_based rows.
Proof.
  intros Hg Es Hr ->. split; [now apply write_ok|]. split; [now rewrite (Forall2_length _ _ _ Hr)|]. split.
  - unfold tec_lines. cbn [app nth_error]. eexists. split; [reflexivity|]. destruct (Nat.leb _ _); auto.
  - unfold tec_lines. rewrite !app_assoc. eexists. reflexivity.
Qed.

(** The zone: the file declares a zone whose element type has as many nodes as each of the rows at the end of the file; these
    rows are, in order, the cells of the highest dimension, each with the nodes of the cell (some repeated) and no others.
    (Missing for the full claim: meshes of surfaces and solids whose first block is a surface; see the refutation.) *)
Theorem C49_zone_partial {fl : floats} (v : string) (m : tec_mesh fl) : tec_good m -> ~ surface_first (tm_cells m) ->
  exists file zone n t rows comma front,
    write_tecplot v m = Ok file /\
    nth_error file 2 = Some ("ZONE NODES = " ++ str_of_nat (length (tm_points m)) ++ ", ELEMENTS = " ++ str_of_nat (length (top_cells (tm_cells m))) ++ ",")%string /\
    nth_error file 3 = Some ("DATAPACKING = BLOCK, ZONETYPE = " ++ zone ++ comma)%string /\ (comma = "" \/ comma = ",")%string /\
    file = front ++ map one_based rows /\
    dget zone zone_nodes = Some (n, t) /\
    Forall (fun r => length r = n) rows /\ Forall2 padded (top_cells (tm_cells m)) rows.
Proof.
  intros Hg Hs. destruct (select_ok (tm_cells m)) as (z & k & rows & Es & Hk & Hr & Hu & _); [apply Hg..|].
  destruct (Hu Hs) as (u & Eu). destruct (file_parts v m z rows _ Hg Es Hr eq_refl) as (Ew & E2 & (c & E3 & Hc) & fr & Ef).
  exists (tec_lines v m z rows), z, k, u, rows, c, fr. repeat (split; [assumption|]). assumption.
Qed.
Print Assumptions C49_zone_partial.

(** Surfaces first, then solids: a zone of quadrilaterals (four nodes) is declared, but the rows are those of the solids with
    eight nodes. *)
Theorem C49_surface_first_refuted {fl : floats} (v : string) (m : tec_mesh fl) : tec_good m -> surface_first (tm_cells m) ->
  exists file rows comma front,
    write_tecplot v m = Ok file /\
    nth_error file 3 = Some ("DATAPACKING = BLOCK, ZONETYPE = " ++ "FEQUADRILATERAL" ++ comma)%string /\
    dget "FEQUADRILATERAL" zone_nodes = Some (4, "quad"%string) /\
    file = front ++ map one_based rows /\
    Forall (fun r => length r = 8) rows /\ Forall2 padded (top_cells (tm_cells m)) rows.
Proof.
  intros Hg Hs. destruct (select_ok (tm_cells m)) as (z & k & rows & Es & Hk & Hr & _ & Hu); [apply Hg..|].
  destruct (Hu Hs) as [-> ->]. destruct (file_parts v m _ rows _ Hg Es Hr eq_refl) as (Ew & E2 & (c & E3 & Hc) & fr & Ef).
  exists (tec_lines v m "FEQUADRILATERAL" rows), rows, c, fr. repeat (split; [assumption || reflexivity|]). assumption.
Qed.
Print Assumptions C49_surface_first_refuted.

(** Meshes without any known cells, and meshes with lines as well as surfaces, are refused. *)
Theorem C49_refused {fl : floats} (v : string) (m : tec_mesh fl) : ~ tec_accepts (tm_cells m) -> exists e, write_tecplot v m = Err e.
Proof. intros H. destruct (select_err _ H) as (e & E). exists e. unfold write_tecplot. now rewrite E. Qed.
Print Assumptions C49_refused.

(** Reading the file back: the same points, one block with the rows of the zone in the declared type, and each column of the
    point data and of the data of the written cells.  [fuel] is any bound on the number of lines read, from the length of
    the file on. *)
Theorem C49_roundtrip {fl : floats} (v : string) (m : tec_mesh fl) : tec_floats fl -> tec_good m -> top_cells (tm_cells m) <> [] ->
  exists file zone t rows k,
    write_tecplot v m = Ok file /\
    (forall fuel, length file <= fuel -> read_tecplot fuel file = Ok (TecOut (tm_points m) (Block t rows) (point_columns m) (cell_columns m))) /\
    (exists n, dget zone zone_nodes = Some (n, t) /\ (~ surface_first (tm_cells m) -> n = k)) /\
    Forall (fun r => length r = k) rows /\ Forall2 padded (top_cells (tm_cells m)) rows.
Proof.
  intros Hf Hg Hne. destruct (select_ok (tm_cells m)) as (z & k & rows & Es & Hk & Hr & Hu & Hs); [apply Hg..|].
  assert (Dec : surface_first (tm_cells m) \/ ~ surface_first (tm_cells m)).
  { unfold surface_first. destruct (Nat.eq_dec (hd 0 (tec_dims (tm_cells m))) 2); destruct (in_dec Nat.eq_dec 3 (tec_dims (tm_cells m))); tauto. }
  assert (Z : exists n t, dget z zone_nodes = Some (n, t) /\ (~ surface_first (tm_cells m) -> n = k) /\ 0 < k).
  { destruct Dec as [S|S].
    - destruct (Hs S) as [-> ->]. exists 4, "quad"%string. split; [reflexivity|]. split; [contradiction|lia].
    - destruct (Hu S) as (u & E). exists k, u. split; [exact E|]. split; [auto|]. apply dget_In in E. cbn in E. repeat (destruct E as [E|E]; [injection E as _ <- _; lia|]). destruct E. }
  destruct Z as (n & t & Ez & Hn & Hk0).
  assert (Az : a_zone z /\ dget z tecplot_to_meshio_type = Some t).
  { apply dget_In in Ez. cbn in Ez. clear - Ez. repeat (destruct Ez as [E|Ez]; [injection E as <- _ <-; split; [cbn; tauto|reflexivity]|]). destruct Ez. }
  exists (tec_lines v m z rows), z, t, rows, k. split; [now apply write_ok|]. split; [|split; [now exists n|now split]].
  intros fuel Hfu. eapply read_ok; eauto; try apply Az. intros ->. inversion Hr. congruence.
Qed.
Print Assumptions C49_roundtrip.

(** C62: a file that was cut after any of the numbers or cells (so that at least one line is missing) is never finished: whatever
    the number of lines the reader may still ask for, it asks for more. *)
Theorem C62_tecplot_refuted {fl : floats} (v : string) (m : tec_mesh fl) : tec_floats fl -> tec_good m -> 
  exists file, write_tecplot v m = Ok file /\
    forall j fuel, (if Nat.eqb (length (cell_columns m)) 0 then 4 else 5) < j < length file -> read_tecplot (fl := fl) fuel (firstn j file) = Err OutOfFuel.
Proof.
  intros Hf Hg. destruct (select_ok (tm_cells m)) as (z & k & rows & Es & Hk & Hr & Hu & Hs); [apply Hg..|].
  assert (Dec : surface_first (tm_cells m) \/ ~ surface_first (tm_cells m)).
  { unfold surface_first. destruct (Nat.eq_dec (hd 0 (tec_dims (tm_cells m))) 2); destruct (in_dec Nat.eq_dec 3 (tec_dims (tm_cells m))); tauto. }
  assert (Z : a_zone z /\ 0 < k).
  { destruct Dec as [S|S].
    - destruct (Hs S) as [-> ->]. split; [cbn; tauto|lia].
    - destruct (Hu S) as (u & E). apply dget_In in E. cbn in E. repeat (destruct E as [E|E]; [injection E as <- <- _; split; [cbn; tauto|lia]|]). destruct E. }
  exists (tec_lines v m z rows). split; [now apply write_ok|]. intros j fuel Hj. now apply (short_file Hf v m z k rows j fuel).
Qed.
Print Assumptions C62_tecplot_refuted.

(** Integers in place of real numbers: all assumptions can be met. *)
Lemma upper_int z : upper (str_of_Z z) = str_of_Z z.
Proof.
  destruct z as [|p|p]; [reflexivity| |].
  - change (str_of_Z (Z.pos p)) with (str_of_Z (Z.of_nat (Pos.to_nat p)))  || rewrite <- (positive_nat_Z p). rewrite <- str_of_nat_Z. apply upper_nat.
  - unfold str_of_Z. cbn [upper]. f_equal. apply upper_digits. apply str_of_N_all_digits.
Qed.
Lemma int_tec : tec_floats int_floats.
Proof.
  split; [exact int_floats_ok|]. split; [reflexivity|]. split; [reflexivity|]. intros x. split; [apply char_in_str_of_Z; [reflexivity|discriminate]|].
  cbn [ffmt int_floats]. rewrite upper_int. cbn [fparse int_floats]. rewrite parse_Z_str_of_Z. discriminate.
Qed.
Definition tec_example : tec_mesh int_floats :=
  TecMesh (F := int_floats) [[0; 0; 0]; [1; 0; 0]; [0; 1; 0]; [0; 0; 1]; [1; 1; 1]]%Z
    [Block "tetra" [[0; 1; 2; 3]]%Z; Block "triangle" [[0; 1; 2]]%Z; Block "pyramid" [[0; 1; 2; 3; 4]]%Z]
    [("T"%string, (None, [[7]; [8]; [9]; [10]; [11]]%Z)); ("v"%string, (Some 2, [[1; 2]; [3; 4]; [5; 6]; [7; 8]; [9; 0]]%Z))]
    [("q"%string, (None, [[[5]]; [[6]]; [[7]]]%Z))].
Ltac good := repeat first [apply Forall_nil | apply Forall2_nil | apply Forall_cons | apply Forall2_cons | split | lia | reflexivity | discriminate].
Lemma tec_example_good : tec_good (fl := int_floats) tec_example.
Proof.
  unfold tec_good. cbn [tm_points tm_cells tm_pdata tm_cdata tec_example length].
  split; [discriminate|]. split; [exists 3; split; [now right|now repeat constructor]|]. split; [|split; [split; [discriminate|vm_compute; intuition discriminate]|]].
  - repeat (apply Forall_cons || apply Forall_nil); intros d n E; cbn in E; injection E as <- <-; repeat constructor.
  - split; [repeat constructor|]. split; [repeat constructor|]. change (point_columns _ ++ cell_columns _) with (point_columns (fl := int_floats) tec_example ++ cell_columns (fl := int_floats) tec_example).
    set (l := _ ++ _). vm_compute in l. subst l. split; [repeat constructor; discriminate|]. cbn [map fst]. repeat constructor; cbn; intuition discriminate.
Qed.
Example C49_example : tec_good (fl := int_floats) tec_example /\ ~ surface_first (tm_cells tec_example) /\ top_cells (tm_cells tec_example) <> [] /\
  exists file, write_tecplot (fl := int_floats) "5.3.5" tec_example = Ok file /\
  read_tecplot (fl := int_floats) (length file) file = Ok (TecOut (F := int_floats) (tm_points tec_example)
      (Block "hexahedron" [[0; 1; 2; 2; 3; 3; 3; 3]; [0; 1; 2; 3; 4; 4; 4; 4]]%Z)
      [("T", [7; 8; 9; 10; 11]); ("v_0", [1; 3; 5; 7; 9]); ("v_1", [2; 4; 6; 8; 0])]%Z [("q", [5; 7])]%Z).
Proof.
  split; [exact tec_example_good|]. split; [vm_compute; intuition discriminate|]. split; [discriminate|].
  destruct (write_tecplot (fl := int_floats) "5.3.5" tec_example) as [f|] eqn:E; [|vm_compute in E; discriminate]. exists f. split; [reflexivity|].
  vm_compute in E. injection E as <-. vm_compute. reflexivity.
Qed.
(** A surface in front of a solid. *)
Example C49_surface_first_example :
  let m := TecMesh (F := int_floats) [[0; 0; 0]; [1; 0; 0]; [0; 1; 0]; [0; 0; 1]]%Z [Block "triangle" [[0; 1; 2]]%Z; Block "tetra" [[0; 1; 2; 3]]%Z] [] [] in
  tec_good (fl := int_floats) m /\ surface_first (tm_cells m).
Proof.
  cbv zeta. split; [|split; [reflexivity|vm_compute; tauto]]. unfold tec_good. cbn [tm_points tm_cells tm_pdata tm_cdata length].
  split; [discriminate|]. split; [exists 3; split; [now right|now repeat constructor]|]. split; [|split; [split; [discriminate|vm_compute; intuition discriminate]|]].
  - repeat (apply Forall_cons || apply Forall_nil); intros d n E; cbn in E; injection E as <- <-; repeat constructor.
  - repeat constructor.
Qed.
(** Lines and triangles together. *)
Example C49_refused_example : ~ tec_accepts [Block "line" [[0; 1]]%Z; Block "triangle" [[0; 1; 2]]%Z].
Proof. intros [_ H]. apply H. vm_compute. tauto. Qed.
(** Five lines of the example file come before the numbers; seven are kept. *)
Example C62_tecplot_example : exists file, write_tecplot (fl := int_floats) "5.3.5" tec_example = Ok file /\ 
  (if Nat.eqb (length (cell_columns (fl := int_floats) tec_example)) 0 then 4 else 5) < 7 < length file.
Proof.
  destruct (write_tecplot (fl := int_floats) "5.3.5" tec_example) as [f|] eqn:E; [|vm_compute in E; discriminate]. exists f. split; [reflexivity|].
  vm_compute in E. injection E as <-. vm_compute. lia.
Qed.
