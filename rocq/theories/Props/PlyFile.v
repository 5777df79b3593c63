(** Properties C78 and C79: whole PLY files; C62 for their reader. *)
From Coq Require Import ZArith NArith List String Ascii Bool Lia.
From Verif.Lib Require Import Base Text TextFacts Lines LinesFacts Runs Bytes BytesFacts File.
From Verif.Model Require Import Core Ply Port PlyFile.
From Verif.Spec Require Import Core Blocks Surface PlyFile.
From Verif.Proofs Require Import Ply PlyFile PlyFaces Gmsh.
Import ListNotations.
Open Scope list_scope.

(** ** C78 *)
(** A mesh that can be stored is read back: points, point data with one number for each point, and faces in order, equally
    long neighbours in one block; in text and in binary files of both byte orders. *)
Theorem C78_roundtrip {nk : numbers} (good : string -> nk -> Prop) (binary big : bool) (stamp : string) (m : ply_mesh nk) :
  exact_numbers nk good -> storable good binary m -> one_line stamp ->
  exists b, write_ply nk binary big stamp m = Ok b /\
    forall fuel, List.length (stored_data m) + 7 <= fuel -> read_ply nk fuel b = Ok (stored_mesh m).
Proof.
  intros Hn Hm Hs. destruct (ply_file_roundtrip good Hn binary big stamp m Hm (List.length (stored_data m) + 7) Hs (le_n _)) as (b & Hw & _).
  exists b. split; [exact Hw|]. intros fuel Hf. destruct (ply_file_roundtrip good Hn binary big stamp m Hm fuel Hs Hf) as (b' & Hw' & Hr).
  rewrite Hw in Hw'. injection Hw' as <-. exact Hr.
Qed.
Print Assumptions C78_roundtrip.

(** Integers as numbers *)
Definition int_numbers : numbers :=
  Numbers Z (fun _ => str_of_Z) (fun _ s => match parse_Z s with Some z => z | None => 0%Z end)
    (fun big code v => sint_bytes big (item_size code) v) (fun big _ b => sint_value big b).
Definition int_good (code : string) (v : int_numbers) : Prop := sint_range (item_size code) v.
Lemma int_numbers_ok : exact_numbers int_numbers int_good.
Proof.
  constructor; intros.
  - apply word_str_of_Z.
  - apply char_in_str_of_Z; [reflexivity|discriminate].
  - cbn. now rewrite parse_Z_str_of_Z.
  - apply sint_bytes_length.
  - apply sint_bytes_ok.
  - apply sint_value_bytes. assumption.
Qed.
Definition ply_example : ply_mesh int_numbers :=
  PlyMesh int_numbers 3 "f8" [[0; 0; 0]; [1; 0; 0]; [1; 1; 0]; [0; 1; 0]; [3; -1; 7]]%Z
    [("temp_1", PArray int_numbers "f4" [] [1; 2; 3; 4; -5]%Z); ("velocity", PArray int_numbers "f8" [2] []); ("id", PArray int_numbers "u2" [] [9; 8; 7; 6; 5]%Z)]
    (map (pair "i8"%string) [Block "triangle" [[0; 1; 2]; [0; 2; 3]]; Block "tetra" [[0; 1; 2; 4]]; Block "quad" [[0; 1; 2; 3]]; Block "polygon" [[4; 3; 2; 1; 0]]]%Z).
Lemma ply_example_ok : storable int_good false ply_example /\ storable int_good true ply_example.
Proof.
  assert (H : forall binary, storable int_good binary ply_example); [|split; apply H].
  intros binary. constructor.
  - reflexivity.
  - cbn; tauto.
  - discriminate.
  - unfold ply_example, int_good, sint_range. cbn [pl_points pl_code]. repeat constructor; vm_compute; try reflexivity; discriminate.
  - intros name a H Hs. cbn in H. destruct H as [H|[H|[H|[]]]]; injection H as <- <-; try discriminate Hs.
    + split; [cbn; tauto|]. split; [reflexivity|]. split; [unfold int_good, sint_range; repeat constructor; vm_compute; try reflexivity; discriminate|].
      split; [reflexivity|]. split; [cbn; intuition discriminate|]. intros _. split; [discriminate|]. split; [|cbn; intuition discriminate].
      cbn [list_ascii_of_string]. repeat (apply Forall_cons; [unfold name_char; cbn; lia|]). constructor.
    + split; [cbn; tauto|]. split; [reflexivity|]. split; [unfold int_good, sint_range; repeat constructor; vm_compute; try reflexivity; discriminate|].
      split; [reflexivity|]. split; [cbn; intuition discriminate|]. intros _. split; [discriminate|]. split; [|cbn; intuition discriminate].
      cbn [list_ascii_of_string]. repeat (apply Forall_cons; [unfold name_char; cbn; lia|]). constructor.
  - cbn. repeat constructor; cbn; intuition discriminate.
  - intros _ _. cbn. lia.
  - right. exists "i8"%string, true, 4. eexists. split; [reflexivity|]. split; [cbn; tauto|]. split; [|split].
    + unfold fits. repeat constructor; cbn; lia.
    + cbn. destruct binary; repeat constructor.
    + intros _. repeat constructor; discriminate.
Qed.
(** Points, point data, blocks and cell data of a result *)
Definition parts (r : result (ply_out int_numbers)) : result (list (list Z) * dict (list Z) * list block * dict (list (list Z))) :=
  do o <- r; Ok (o_points _ o, o_data _ o, o_cells _ o, o_cell_data _ o).
Definition there_and_back (binary big : bool) (m : ply_mesh int_numbers) : result (list (list Z) * dict (list Z) * list block * dict (list (list Z))) :=
  parts (do b <- write_ply int_numbers binary big "5.3.5, 2026-11-16T12:00:00" m; read_ply int_numbers 20 b).
Example C78_example : exact_numbers int_numbers int_good /\ storable int_good false ply_example /\ storable int_good true ply_example /\
  let out := Ok ([[0; 0; 0]; [1; 0; 0]; [1; 1; 0]; [0; 1; 0]; [3; -1; 7]]%Z,
    [("temp_1"%string, [1; 2; 3; 4; -5]%Z); ("id"%string, [9; 8; 7; 6; 5]%Z)],
    [Block "triangle" [[0; 1; 2]; [0; 2; 3]]; Block "quad" [[0; 1; 2; 3]]; Block "polygon" [[4; 3; 2; 1; 0]]]%Z, []) in
  parts (Ok (stored_mesh ply_example)) = out /\ there_and_back false false ply_example = out /\ there_and_back true true ply_example = out.
Proof.
  split; [exact int_numbers_ok|]. split; [apply ply_example_ok|]. split; [apply ply_example_ok|].
  split; [reflexivity|]. split; vm_compute; reflexivity.
Qed.

(** ** Limits *)
(** The conditions of C78_roundtrip are needed: meshes that are written without complaint and cannot be read *)
Definition flat_example (data : dict (parray int_numbers)) : ply_mesh int_numbers :=
  PlyMesh int_numbers 2 "f8" [[0; 0]; [1; 0]; [1; 1]]%Z data [("i8"%string, Block "triangle" [[0; 1; 2]%Z])].
Definition with_data (pts : list (list Z)) (name code : string) (vs : list Z) : ply_mesh int_numbers :=
  PlyMesh int_numbers 3 "f8" pts [(name, PArray int_numbers code [] vs)] [].
(** Points with two coordinates: binary files cannot be read; text files can be read only if there is point data *)
Theorem C78_flat_refuted :
  there_and_back true false (flat_example []) = Err ValueError /\ there_and_back false false (flat_example []) = Err IndexError /\
  there_and_back false false (flat_example [("a"%string, PArray int_numbers "f8" [] [5; 6; 7]%Z)]) =
    Ok ([[0; 0]; [1; 0]; [1; 1]]%Z, [("a"%string, [5; 6; 7]%Z)], [Block "triangle" [[0; 1; 2]%Z]], []).
Proof. split; [|split]; vm_compute; reflexivity. Qed.
Print Assumptions C78_flat_refuted.
(** Point data of 16 bit integers; names with other characters than letters, digits and underscores in text files; names with
    blanks; point data of one point in text files *)
Theorem C78_data_refuted :
  there_and_back true false (with_data [[0; 0; 0]; [1; 0; 0]]%Z "a" "i2" [1; 2]%Z) = Err KeyError /\
  there_and_back false false (with_data [[0; 0; 0]; [1; 0; 0]]%Z "a" "i2" [1; 2]%Z) = Err KeyError /\
  there_and_back false false (with_data [[0; 0; 0]; [1; 0; 0]]%Z "gmsh:dim_tags" "f8" [1; 2]%Z) = Err ValueError /\
  there_and_back true false (with_data [[0; 0; 0]; [1; 0; 0]]%Z "gmsh:dim_tags" "f8" [1; 2]%Z) =
    Ok ([[0; 0; 0]; [1; 0; 0]]%Z, [("gmsh:dim_tags"%string, [1; 2]%Z)], [], []) /\
  there_and_back true false (with_data [[0; 0; 0]; [1; 0; 0]]%Z "my data" "f8" [1; 2]%Z) = Err KeyError /\
  there_and_back false false (with_data [[0; 0; 0]]%Z "a" "f8" [1]%Z) = Err TypeError.
Proof. repeat split; vm_compute; reflexivity. Qed.
Print Assumptions C78_data_refuted.

(** ** C62 *)
(** C62 fails for the PLY reader: if a file that meshio has written ends within the header, after any number of complete lines, reading never ends. *)
Theorem C62_ply_refuted {nk : numbers} (good : string -> nk -> Prop) (binary big : bool) (stamp : string) (m : ply_mesh nk) (b rest : bytes) (A : list string) :
  exact_numbers nk good -> storable good binary m -> one_line stamp ->
  write_ply nk binary big stamp m = Ok b -> b = text_bytes A ++ rest -> A <> [] -> Forall one_line A -> ~ In "end_header"%string (map strip A) ->
  forall fuel, read_ply nk fuel (text_bytes A) = Err OutOfFuel.
Proof.
  intros Hn Hm Hs Hw -> HA H1 He. destruct (C78_roundtrip good binary big stamp m Hn Hm Hs) as (b & Hw' & Hr).
  rewrite Hw in Hw'. injection Hw' as <-. specialize (Hr _ (le_n _)). assert (He' : no_end A) by (intros x Hx E; apply He; rewrite <- E; now apply in_map).
  exact (ply_cut nk A rest _ _ HA H1 He' Hr).
Qed.
Print Assumptions C62_ply_refuted.
Example C62_ply_example : exists A rest, write_ply int_numbers true false "5.3.5" ply_example = Ok (text_bytes A ++ rest) /\ List.length A = 8 /\
  Forall one_line A /\ ~ In "end_header"%string (map strip A).
Proof.
  exists (firstn 8 (to_lines (match write_ply int_numbers true false "5.3.5" ply_example with Ok b => b | Err _ => [] end))).
  eexists (skipn (List.length (text_bytes (firstn 8 (to_lines (match write_ply int_numbers true false "5.3.5" ply_example with Ok b => b | Err _ => [] end)))))
    (match write_ply int_numbers true false "5.3.5" ply_example with Ok b => b | Err _ => [] end)).
  split; [vm_compute; reflexivity|]. split; [vm_compute; reflexivity|]. split.
  - vm_compute. repeat constructor.
  - vm_compute. intuition discriminate.
Qed.

(** ** C79 *)
(** Numbers on faces in text files: they become cell data, split at the blocks, if no two blocks have faces of the same size. *)
Theorem C79_together {nk : numbers} (good : string -> nk -> Prop) points props faces fuel :
  exact_numbers nk good -> readable good points props faces -> List.length props + 7 <= fuel ->
  NoDup (map corners (face_blocks faces)) ->
  read_ply nk fuel (text_bytes (face_file points props faces)) = Ok (face_mesh points props faces).
Proof. intros Hn H Hf Hd. now apply (face_file_together good Hn). Qed.
Print Assumptions C79_together.
(** Otherwise the file cannot be read: the reader collects the numbers of all faces of a size, whatever block they are in. *)
Theorem C79_apart_refuted {nk : numbers} (good : string -> nk -> Prop) points props faces fuel :
  exact_numbers nk good -> readable good points props faces -> List.length props + 7 <= fuel -> props <> [] ->
  ~ NoDup (map corners (face_blocks faces)) ->
  read_ply nk fuel (text_bytes (face_file points props faces)) = Err ValueError.
Proof. intros Hn H Hf Hp Hd. now apply (face_file_apart good Hn). Qed.
Print Assumptions C79_apart_refuted.
(** A binary file with a number on faces is never read *)
Theorem C79_binary_refuted (nk : numbers) big h b o name t : In (name, Scalar t) (h_fprops h) -> read_binary nk big h b <> Ok o.
Proof. apply binary_scalar. Qed.
Print Assumptions C79_binary_refuted.

Definition face_example (swap : bool) : list (cell * list int_numbers) :=
  if swap then [([0; 1; 2], [5; 6]); ([0; 1; 2; 3], [7; 8]); ([0; 2; 3], [9; 10])]%Z
  else [([0; 1; 2], [5; 6]); ([0; 2; 3], [9; 10]); ([0; 1; 2; 3], [7; 8])]%Z.
Definition face_points : list (list int_numbers) := [[0; 0; 0]; [1; 0; 0]; [1; 1; 0]; [0; 1; 0]]%Z.
Definition face_props_ex : list (string * string) := [("quality", "int"); ("id", "uchar")]%string.
Example C79_example : (forall swap, readable int_good face_points face_props_ex (face_example swap)) /\
  NoDup (map corners (face_blocks (face_example false))) /\ ~ NoDup (map corners (face_blocks (face_example true))) /\
  parts (read_ply int_numbers 9 (text_bytes (face_file face_points face_props_ex (face_example false)))) =
    Ok (face_points, [], [Block "triangle" [[0; 1; 2]; [0; 2; 3]]; Block "quad" [[0; 1; 2; 3]]],
        [("quality"%string, [[5; 9]; [7]]); ("id"%string, [[6; 10]; [8]])])%Z /\
  parts (read_ply int_numbers 9 (text_bytes (face_file face_points face_props_ex (face_example true)))) = Err ValueError.
Proof.
  split; [|split; [|split; [|split; vm_compute; reflexivity]]].
  - intros swap. constructor.
    + discriminate.
    + unfold face_points, int_good, sint_range. repeat constructor; vm_compute; try reflexivity; discriminate.
    + unfold face_props_ex. repeat (apply Forall_cons; [split; [reflexivity|]; split; [discriminate|cbn; tauto]|]). constructor.
    + unfold face_props_ex. cbn. repeat constructor; cbn; intuition discriminate.
    + now destruct swap.
    + assert (HV : forall a b : Z, (0 <= a <= 100)%Z -> (0 <= b <= 100)%Z ->
        Forall (fun pv => forall c, dget (snd (fst pv)) ply_to_numpy = Some c -> int_good c (snd pv)) (combine face_props_ex ([a; b] : list int_numbers))).
      { intros a b Ha Hb. unfold face_props_ex, int_good, sint_range. cbn [combine].
        apply Forall_cons; [|apply Forall_cons; [|constructor]]; intros c Hc; vm_compute in Hc; injection Hc as <-; unfold capacity; cbn [fst snd].
        - change (256 ^ N.of_nat (item_size "i4"))%N with 4294967296%N. lia.
        - change (256 ^ N.of_nat (item_size "u1"))%N with 256%N. lia. }
      destruct swap; unfold face_example; repeat (apply Forall_cons; [cbn [fst snd]; split; [cbn; lia|]; split; [cbn; lia|]; split; [reflexivity|apply HV; lia]|]); constructor.
  - vm_compute. repeat constructor; cbn; intuition discriminate.
  - vm_compute. intros H. inversion H as [|? ? H1 _]; subst. apply H1. cbn. tauto.
Qed.
