(** C40 and C41: Abaqus. *)
From Verif.Lib Require Import Base Facts Text Lines LinesFacts.
From Verif.Model Require Import Core Abaqus.
From Verif.Spec Require Import Core Abaqus.
From Verif.Proofs Require Import AbaqusFile.
From Coq Require Import ZifyBool ZifyNat.

Definition no_include {F} (_ : string) : result (abq_mesh F) := Err OSError.

(** ** C40 *)

(** Nodes with any distinct ids; every section of elements broken into lines anywhere, with blank lines,
    blanks and commas at the end of a line: the i-th node of an element is the point with the id in the file. *)
Theorem C40_read_partial (fl : floats) include header nls (nodes : list (Z * list fl)) d secs :
  floats_ok fl -> (forall v : fl, char_in "," (ffmt v) = false) ->
  Forall (fun l => startswith l "**" = true) header ->
  Forall no_comma nls -> entries nls = map (fun n => str_of_Z (fst n) :: map ffmt (snd n)) nodes ->
  Forall (fun n => length (snd n) = d) nodes -> NoDup (map fst nodes) ->
  Forall esection_ok secs ->
  Forall (fun s => Forall (fun e => Forall (fun z => In z (map fst nodes)) (snd e)) (e_elems s)) secs ->
  exists m, read_abaqus include (header ++ "*NODE" :: map line_text nls ++ flat_map esection_text secs) = Ok m /\
    ab_points m = map snd nodes /\ ab_psets m = [] /\ ab_csets m = [] /\
    Forall2 (fun s b => btype b = abaqus_type (e_type s) /\
                        Forall2 (fun e c => Forall2 (resolves nodes) (snd e) c) (e_elems s) (bdata b)) secs (ab_cells m).
Proof. intros. now apply (read_layout H H0 include header nls nodes d secs). Qed.
Print Assumptions C40_read_partial.

Definition ex_nodes : list (Z * list int_floats) := [(7, [0; 0; 0]); (1, [10; 0; 0]); (40, [0; 10; -3]); (3, [5; 5; 5])]%Z.
Definition ex_nls : list data_line :=
  map (fun n : Z * list int_floats => Row (fun k => k) false (str_of_Z (fst n) :: map (ffmt (f := int_floats)) (snd n))) ex_nodes ++ [Blank 2].
Definition ex_secs : list esection :=
  [ESection "C3D4" [Row (fun _ => 1) true ["100"; "7"]; Blank 1; Row (fun _ => 0) true ["40"; "1"]; Row (fun _ => 0) false ["3"]] [(100, [7; 40; 1; 3])]%Z;
   ESection "S3" [Row (fun _ => 0) false ["2"; "1"; "7"; "40"; "5"]; Row (fun _ => 3) false ["3"; "40"; "7"]] [(2, [1; 7; 40]); (5, [3; 40; 7])]%Z].
Definition ex_abq : list string := ["** a comment"] ++ "*NODE" :: map line_text ex_nls ++ flat_map esection_text ex_secs.
Example C40_instance :
  ex_abq = ["** a comment"; "*NODE"; "7, 0,  0,   0"; "1, 10,  0,   0"; "40, 0,  10,   -3"; "3, 5,  5,   5"; "  ";
            "*ELEMENT, TYPE=C3D4"; " 100, 7,"; " "; "40,1,"; "3"; "*ELEMENT, TYPE=S3"; "2,1,7,40,5"; "   3,   40,   7"] /\
  read_abaqus (fl := int_floats) no_include ex_abq =
    Ok (AbqMesh [[0; 0; 0]; [10; 0; 0]; [0; 10; -3]; [5; 5; 5]]%Z
          [Block "tetra" [[0; 2; 1; 3]]; Block "triangle" [[1; 0; 2]; [3; 2; 0]]]%Z [] []) /\
  Forall no_comma ex_nls /\ entries ex_nls = map (fun n => str_of_Z (fst n) :: map (ffmt (f := int_floats)) (snd n)) ex_nodes /\
  NoDup (map fst ex_nodes) /\ Forall esection_ok ex_secs.
Proof.
  split; [now vm_compute|]. split; [now vm_compute|]. split; [repeat constructor|]. split; [now vm_compute|].
  split; [repeat constructor; cbn; intuition discriminate|].
  constructor; [|constructor; [|constructor]]; eexists; eexists; (split; [reflexivity|]); (split; [reflexivity|]); repeat split; repeat constructor; discriminate.
Qed.

(** Writing and reading: the points, the blocks, and the point sets are the same. *)
Theorem C40_roundtrip_partial (fl : floats) include version (m : abq_in fl) d :
  floats_ok fl -> (forall v : fl, char_in "," (ffmt v) = false) ->
  Forall (fun p => length p = d) (ai_points m) -> (Z.of_nat (length (ai_points m)) <= 2147483647)%Z ->
  Forall (abaqus_cells (length (ai_points m))) (ai_cells m) -> (Z.of_nat (list_sum (map blen (ai_cells m))) <= 2147483647)%Z ->
  ai_psets m = [] -> ai_csets m = [] ->
  exists file m', write_abaqus version true m = Ok file /\ read_abaqus include file = Ok m' /\
    ab_points m' = ai_points m /\ ab_cells m' = ai_cells m.
Proof.
  intros Hf Hc H1 H2 H3 H4 Ep Ec. destruct (roundtrip Hf Hc include version m d) as (f & m' & A & B & C & D & _);
    try rewrite Ep; try rewrite Ec; try constructor; auto. exists f, m'. auto.
Qed.
Print Assumptions C40_roundtrip_partial.

(** What is missing: the nodes of all NODE sections but the last are lost, and a comment among the data
    drops the rest of the section. *)
Theorem C40_two_node_sections_refuted :
  read_abaqus (fl := int_floats) no_include ["*NODE"; "1, 0, 0"; "2, 1, 0"; "*NODE"; "3, 0, 1"] = Ok (AbqMesh [[0; 1]]%Z [] [] []) /\
  read_abaqus (fl := int_floats) no_include ["*NODE"; "1, 0, 0"; "2, 1, 0"; "*NODE"; "3, 0, 1"; "*ELEMENT, TYPE=T3D2"; "1, 1, 3"] = Err KeyError.
Proof. split; now vm_compute. Qed.
Print Assumptions C40_two_node_sections_refuted.
Theorem C40_comment_refuted :
  read_abaqus (fl := int_floats) no_include ["*NODE"; "1, 0, 0"; "2, 1, 0"; "** right"; "3, 0, 1"] = Ok (AbqMesh [[0; 0]; [1; 0]]%Z [] [] []).
Proof. now vm_compute. Qed.
Print Assumptions C40_comment_refuted.
(** The reader's table knows an element whose meshio type does not exist, and without the translation of
    the names the reader refuses the file. *)
Theorem C40_hybrid_refuted :
  read_abaqus (fl := int_floats) no_include ["*NODE"; "1, 0"; "2, 1"; "3, 2"; "4, 3"; "*ELEMENT, TYPE=C3D4H"; "1, 1, 2, 3, 4"] = Err KeyError.
Proof. now vm_compute. Qed.
Print Assumptions C40_hybrid_refuted.
Theorem C40_untranslated_refuted :
  (do f <- write_abaqus (fl := int_floats) "5" false (AbqIn [[0]; [1]; [2]]%Z [Block "triangle" [[0; 1; 2]]%Z] [] []); read_abaqus (fl := int_floats) no_include f) = Err ReadError.
Proof. now vm_compute. Qed.
Print Assumptions C40_untranslated_refuted.

(** ** C41 *)

(** Every point set survives.  Of a cell set only the part in the last block in which it has members does;
    a set that lies in one block survives. *)
Theorem C41_roundtrip_partial (fl : floats) include version (m : abq_in fl) d :
  floats_ok fl -> (forall v : fl, char_in "," (ffmt v) = false) ->
  Forall (fun p => length p = d) (ai_points m) -> (Z.of_nat (length (ai_points m)) <= 2147483647)%Z ->
  Forall (abaqus_cells (length (ai_points m))) (ai_cells m) -> (Z.of_nat (list_sum (map blen (ai_cells m))) <= 2147483647)%Z ->
  NoDup (dkeys (ai_psets m)) ->
  Forall (fun s => set_name (fst s) /\ Forall (fun i => 0 <= i < Z.of_nat (length (ai_points m)))%Z (snd s)) (ai_psets m) ->
  NoDup (dkeys (ai_csets m)) ->
  Forall (fun s => set_name (fst s) /\
                   Forall2 (fun b p => Forall (fun i => 0 <= i < Z.of_nat (blen b))%Z p) (ai_cells m) (snd s)) (ai_csets m) ->
  exists file m', write_abaqus version true m = Ok file /\ read_abaqus include file = Ok m' /\
    ab_points m' = ai_points m /\ ab_cells m' = ai_cells m /\ ab_psets m' = ai_psets m /\
    forall k, dget k (ab_csets m') = match dget k (ai_csets m) with Some v => option_map (map Idx) (last_part v) | None => None end.
Proof. intros Hf Hc. now apply (roundtrip Hf Hc). Qed.
Print Assumptions C41_roundtrip_partial.
Theorem C41_one_block v : one_block v -> last_part v = Some v.
Proof. apply one_block_kept. Qed.
Print Assumptions C41_one_block.
Theorem C41_others v r : last_part v = Some r -> one_block r /\ length r = length v.
Proof. apply kept_one_block. Qed.
Print Assumptions C41_others.

Definition ex_abq_in : abq_in Z :=
  AbqIn [[0; 0; 0]; [1; 0; 0]; [0; 1; 0]; [0; 0; 1]; [1; 1; 1]]%Z
    [Block "triangle" [[0; 1; 2]; [1; 2; 3]]; Block "tetra" [[0; 1; 2; 3]]; Block "triangle" [[4; 2; 3]]]%Z
    [("all", [4; 3; 2; 1; 0; 0; 1; 2; 3; 4]); ("none", [])]%Z [("left", [[1; 0]; []; []]); ("mid", [[]; [0]; []])]%Z.
Example C41_instance :
  (do f <- write_abaqus (fl := int_floats) "5" true ex_abq_in; read_abaqus (fl := int_floats) no_include f) =
    Ok (AbqMesh (ai_points ex_abq_in) (ai_cells ex_abq_in) (ai_psets ex_abq_in)
          [("left", [Idx [1; 0]; Idx []; Idx []]); ("mid", [Idx []; Idx [0]; Idx []])]%Z) /\
  Forall (abaqus_cells 5) (ai_cells ex_abq_in) /\ one_block [[1; 0]; []; []]%Z /\
  Forall (fun s => set_name (fst s) /\ Forall (fun i => 0 <= i < 5)%Z (snd s)) (ai_psets ex_abq_in) /\
  Forall (fun s => set_name (fst s) /\
     Forall2 (fun b p => Forall (fun i => 0 <= i < Z.of_nat (blen b))%Z p) (ai_cells ex_abq_in) (snd s)) (ai_csets ex_abq_in).
Proof.
  split; [now vm_compute|]. split; [|split; [|split]].
  - repeat first [apply Forall_nil | apply Forall_cons]; eexists; eexists; (split; [reflexivity|]); (split; [reflexivity|]); repeat constructor; cbn; lia.
  - exists 0, [1; 0]%Z, 2. split; [reflexivity|discriminate].
  - repeat first [apply Forall_nil | apply Forall_cons]; (split; [repeat split; reflexivity|]); repeat constructor; cbn; lia.
  - repeat first [apply Forall_nil | apply Forall_cons]; (split; [repeat split; reflexivity|]); repeat constructor; cbn; lia.
Qed.
Theorem C41_several_blocks_refuted :
  (do f <- write_abaqus (fl := int_floats) "5" true (AbqIn (ai_points ex_abq_in) (ai_cells ex_abq_in) [] [("s", [[1]; [0]; [0]]); ("e", [[]; []; []])]%Z);
   read_abaqus (fl := int_floats) no_include f) =
    Ok (AbqMesh (ai_points ex_abq_in) (ai_cells ex_abq_in) [] [("s", [Idx []; Idx []; Idx [0]])]%Z).
Proof. now vm_compute. Qed.
Print Assumptions C41_several_blocks_refuted.

(** Reading set sections of any layout: a point set lists the points with the given ids; a cell set lists,
    for every block, the elements of the block with the given ids. *)
Theorem C41_read (fl : floats) include nls (nodes : list (Z * list fl)) d secs csets psets :
  floats_ok fl -> (forall v : fl, char_in "," (ffmt v) = false) ->
  Forall no_comma nls -> entries nls = map (fun n => str_of_Z (fst n) :: map ffmt (snd n)) nodes ->
  Forall (fun n => length (snd n) = d) nodes -> NoDup (map fst nodes) ->
  Forall esection_ok secs ->
  Forall (fun s => Forall (fun e => Forall (fun z => In z (map fst nodes)) (snd e)) (e_elems s)) secs ->
  Forall (fun s => NoDup (map fst (e_elems s))) secs ->
  Forall set_section_ok csets -> NoDup (map fst csets) -> Forall (fun s => concat (snd (snd s)) <> []) csets ->
  Forall set_section_ok psets -> NoDup (map fst psets) ->
  Forall (fun s => Forall (fun z => In z (map fst nodes)) (concat (snd (snd s)))) psets ->
  exists m, read_abaqus (fl := fl) include ("*NODE" :: map line_text nls ++ flat_map esection_text secs ++
                                 flat_map (set_section "ELSET") csets ++ flat_map (set_section "NSET") psets) = Ok m /\
    Forall2 (fun s r => fst r = fst s /\ Forall2 (resolves nodes) (concat (snd (snd s))) (snd r)) psets (ab_psets m) /\
    Forall2 (fun s r => fst r = fst s /\ exists parts, snd r = map Idx parts /\ Forall2 (members (concat (snd (snd s)))) secs parts)
      csets (ab_csets m).
Proof. intros Hf Hc. now apply (read_sets Hf Hc include nls nodes d). Qed.
Print Assumptions C41_read.
Definition ex_set : string * (list data_line * list (list Z)) :=
  ("both", ([Row (fun _ => 1) true ["100"; "5"]; Blank 0; Row (fun _ => 0) false ["2"]], [[100; 5]; [2]]%Z)).
Definition ex_pset : string * (list data_line * list (list Z)) := ("ends", ([Row (fun _ => 0) false ["3"; "7"]], [[3; 7]]%Z)).
Example C41_read_instance :
  read_abaqus (fl := int_floats) no_include ("*NODE" :: map line_text ex_nls ++ flat_map esection_text ex_secs ++
      flat_map (set_section "ELSET") [ex_set] ++ flat_map (set_section "NSET") [ex_pset]) =
    Ok (AbqMesh [[0; 0; 0]; [10; 0; 0]; [0; 10; -3]; [5; 5; 5]]%Z
          [Block "tetra" [[0; 2; 1; 3]]; Block "triangle" [[1; 0; 2]; [3; 2; 0]]]%Z
          [("ends", [3; 0]%Z)] [("both", [Idx [0]; Idx [1; 0]]%Z)]) /\
  set_section_ok ex_set /\ set_section_ok ex_pset.
Proof.
  split; [now vm_compute|]. split; (split; [repeat split; reflexivity|]); (split; [now vm_compute|]);
    repeat first [apply Forall_nil | apply Forall_cons]; (split; [discriminate|]); repeat constructor; lia.
Qed.

(** GENERATE: the nodes a, a + s, ... up to and including b. *)
Theorem C41_generate (fl : floats) include nls (nodes : list (Z * list fl)) d name ds a b s :
  floats_ok fl -> (forall v : fl, char_in "," (ffmt v) = false) ->
  Forall no_comma nls -> entries nls = map (fun n => str_of_Z (fst n) :: map ffmt (snd n)) nodes ->
  Forall (fun n => length (snd n) = d) nodes -> NoDup (map fst nodes) ->
  set_name name -> entries ds = [map str_of_Z [a; b; s]] ->
  (0 <= a <= 2147483647)%Z -> (0 <= b <= 2147483647)%Z -> (0 < s <= 2147483647)%Z ->
  (forall k, (0 <= k)%Z -> (a + k * s <= b)%Z -> In (a + k * s)%Z (map fst nodes)) ->
  exists m n l, read_abaqus (fl := fl) include ("*NODE" :: map line_text nls ++ ("*NSET, NSET=" ++ name ++ ", GENERATE")%string :: map line_text ds) = Ok m /\
    ab_psets m = [(name, l)] /\
    Forall2 (resolves nodes) (map (fun k => a + Z.of_nat k * s)%Z (seq 0 n)) l /\ forall k : nat, k < n <-> (a + Z.of_nat k * s <= b)%Z.
Proof. intros Hf Hc. now apply (read_generate Hf Hc). Qed.
Print Assumptions C41_generate.
Example C41_generate_instance :
  read_abaqus (fl := int_floats) no_include ["*NODE"; "1, 0"; "3, 5"; "2, 7"; "5, 9"; "*NSET, NSET=odd, GENERATE"; "1, 6, 2"] =
    Ok (AbqMesh [[0]; [5]; [7]; [9]]%Z [] [("odd", [0; 1; 3]%Z)] []) /\
  read_abaqus (fl := int_floats) no_include ["*NODE"; "1, 0"; "3, 5"; "2, 7"; "5, 9"; "*NSET, NSET=odd, GENERATE"; "1, 5, 2"] =
    Ok (AbqMesh [[0]; [5]; [7]; [9]]%Z [] [("odd", [0; 1; 3]%Z)] []).
Proof. split; now vm_compute. Qed.

(** Sets named in ELEMENT lines are numbered by the sets, not the blocks: here the elements of the second
    block end up as members of the first. *)
Theorem C41_element_elset_refuted :
  read_abaqus (fl := int_floats) no_include
    ["*NODE"; "1, 0"; "2, 5"; "3, 7"; "*ELEMENT, TYPE=T3D2"; "1, 1, 2"; "*ELEMENT, TYPE=S3, ELSET=tri"; "2, 1, 2, 3"; "3, 3, 2, 1"] =
  Ok (AbqMesh [[0]; [5]; [7]]%Z [Block "line" [[0; 1]]; Block "triangle" [[0; 1; 2]; [2; 1; 0]]]%Z [] [("tri", [Idx [0; 1]; Idx []]%Z)]).
Proof. now vm_compute. Qed.
Print Assumptions C41_element_elset_refuted.
