(** C48: AVS-UCD. *)
From Coq Require Import List String Lia.
From Verif.Lib Require Import Base Text TextFacts Lines LinesFacts.
From Verif.Model Require Import Core Avsucd.
From Verif.Spec Require Import Core Blocks Mdpa Avsucd.
From Verif.Proofs Require Import Mdpa Gmsh AvsucdFile.
Import Model.Avsucd.

(** The round trip: the same points (with a third coordinate), the cells in the same order and with the same node order, in
    blocks of neighbouring cells of equal type, the materials of each cell, and the data of each point and cell (rounded to the
    precision of the file).  (Missing for the full claim: meshes with exactly one point; cell data other than the material when
    the cells make more than one block.  See the two refutations.) *)
Theorem C48_roundtrip_partial {fl : floats} dfmt (ofZ : Z -> fl) toZ r (v : string) (m : avs_mesh fl) :
  avs_floats fl dfmt toZ r (length (av_points m)) -> avs_good ofZ m -> length (av_points m) <> 1 ->
  let bs := regroup (all_cells (av_cells m)) in
  let others := other_data ofZ true (av_cdata m) in
  others = [] \/ length bs = 1 ->
  exists file, write_avs dfmt ofZ v m = Ok file /\
    read_avs toZ file = Ok (AvsOut (map in_space (av_points m)) bs (data_for bs (materials m))
      (map (fun kv => (fst kv, seen r (snd kv))) (av_pdata m))
      (map (fun kv => (fst kv, (fst (seen r (snd kv)), [snd (seen r (snd kv))]))) others)).
Proof.
  intros Hf Hg H1 bs others H. destruct (avs_roundtrip dfmt ofZ toZ r v m Hf Hg) as (file & E & R). exists file. split; [exact E|].
  rewrite R. destruct (Nat.eqb_spec (length (av_points m)) 1); [contradiction|]. cbv zeta. fold bs others.
  destruct H as [-> | Hb]; [reflexivity|]. destruct bs as [|b [|]]; try discriminate. destruct others as [|x l]; [reflexivity|]. cbn [map bind]. do 2 f_equal. now rewrite !map_map.
Qed.
Print Assumptions C48_roundtrip_partial.

(** Cell data other than the materials and cells of two types next to each other: the file that was written cannot be read. *)
Theorem C48_blocks_refuted {fl : floats} dfmt (ofZ : Z -> fl) toZ r (v : string) (m : avs_mesh fl) :
  avs_floats fl dfmt toZ r (length (av_points m)) -> avs_good ofZ m -> length (av_points m) <> 1 ->
  other_data ofZ true (av_cdata m) <> [] -> 2 <= length (regroup (all_cells (av_cells m))) ->
  exists file, write_avs dfmt ofZ v m = Ok file /\ read_avs toZ file = Err TypeError.
Proof.
  intros Hf Hg H1 Ho Hb. destruct (avs_roundtrip dfmt ofZ toZ r v m Hf Hg) as (file & E & R). exists file. split; [exact E|].
  rewrite R. destruct (Nat.eqb_spec (length (av_points m)) 1); [contradiction|]. cbv zeta.
  destruct (other_data ofZ true (av_cdata m)); [congruence|]. cbn [map]. destruct (regroup (all_cells (av_cells m))) as [|b1 [|b2 bs]]; cbn [length] in Hb; [lia|lia|reflexivity].
Qed.
Print Assumptions C48_blocks_refuted.

(** A mesh with a single point: the file that was written cannot be read. *)
Theorem C48_one_point_refuted {fl : floats} dfmt (ofZ : Z -> fl) toZ r (v : string) (m : avs_mesh fl) :
  avs_floats fl dfmt toZ r (length (av_points m)) -> avs_good ofZ m -> length (av_points m) = 1 ->
  exists file, write_avs dfmt ofZ v m = Ok file /\ read_avs toZ file = Err IndexError.
Proof.
  intros Hf Hg H1. destruct (avs_roundtrip dfmt ofZ toZ r v m Hf Hg) as (file & E & R). exists file. split; [exact E|].
  rewrite R. destruct (Nat.eqb_spec (length (av_points m)) 1); [reflexivity|contradiction].
Qed.
Print Assumptions C48_one_point_refuted.

(** Integers in place of real numbers: all assumptions can be met. *)
Lemma int_avs n : avs_floats int_floats (str_of_Z : int_floats -> string) (fun z : Z => z) (fun z => z) n.
Proof.
  split; [exact int_floats_ok|]. split; [|split].
  - intros x. apply char_in_str_of_Z; [reflexivity|discriminate].
  - intros x. split; [apply word_str_of_Z|apply parse_Z_str_of_Z].
  - intros k _. exists (Z.of_nat k). rewrite str_of_nat_Z. split; [apply parse_Z_str_of_Z|reflexivity].
Qed.
Definition avs_example : avs_mesh int_floats :=
  AvsMesh (F := int_floats) [[0; 0; 0]; [1; 0; 0]; [0; 1; 0]; [0; 0; 1]; [1; 1; 1]]%Z
    [Block "tetra" [[0; 1; 2; 3]]%Z; Block "tetra" [[1; 2; 3; 4]; [4; 3; 2; 1]]%Z]
    [("T"%string, (None, [[7]; [8]; [9]; [10]; [11]]%Z)); ("v"%string, (Some 2, [[1; 2]; [3; 4]; [5; 6]; [7; 8]; [9; 0]]%Z))]
    [("q"%string, CReals (Some 1) [[[5]]; [[6]; [7]]]%Z); ("mat"%string, CInts [[3]; [4; 5]]%Z); ("n"%string, CInts [[1]; [2; 3]]%Z)].
Example C48_example : avs_good (fl := int_floats) (fun z => z) avs_example /\ length (regroup (all_cells (av_cells avs_example))) = 1 /\
  match write_avs (fl := int_floats) str_of_Z (fun z => z) "5.3.5" avs_example with
  | Ok f => read_avs (fl := int_floats) (fun z => z) f = Ok (AvsOut (F := int_floats) (av_points avs_example)
      [Block "tetra" [[0; 1; 2; 3]; [1; 2; 3; 4]; [4; 3; 2; 1]]%Z] [[3; 4; 5]]%Z (av_pdata avs_example)
      [("q"%string, (None, [[[5]; [6]; [7]]]%Z)); ("n"%string, (None, [[[1]; [2]; [3]]]%Z))])
  | Err _ => False
  end.
Proof.
  split; [|split; [reflexivity|vm_compute; reflexivity]].
  unfold avs_good. cbn [av_points av_cells av_pdata av_cdata avs_example length].
  split; [now repeat (apply Forall_cons; [right; reflexivity|])|]. split; [|split; [|split; [|split; [|split; [|discriminate]]]]].
  - repeat (apply Forall_cons || apply Forall_nil); exists 4; (split; [cbn; tauto|]; repeat (apply Forall_cons || apply Forall_nil); (split; [reflexivity|repeat constructor; lia])).
  - repeat constructor; cbn; intuition discriminate.
  - repeat (apply Forall_cons || apply Forall_nil); (split; [split; reflexivity|]; split; [reflexivity|split; [cbn; lia|repeat constructor]]).
  - repeat constructor; cbn; intuition discriminate.
  - repeat (apply Forall_cons || apply Forall_nil); (split; [split; reflexivity|]); cbn; repeat constructor.
Qed.
Example C48_blocks_example :
  let m := AvsMesh (F := int_floats) [[0; 0; 0]; [1; 0; 0]; [0; 1; 0]]%Z [Block "line" [[0; 1]]%Z; Block "triangle" [[0; 1; 2]]%Z] []
             [("q"%string, CReals None [[[5]]; [[6]]]%Z)] in
  avs_good (fl := int_floats) (fun z => z) m /\ other_data (F := int_floats) (fun z => z) true (av_cdata m) <> [] /\ length (regroup (all_cells (av_cells m))) = 2.
Proof.
  split; [|split; [discriminate|reflexivity]].
  unfold avs_good. cbn [av_points av_cells av_pdata av_cdata length]. split; [now repeat (apply Forall_cons; [right; reflexivity|])|]. split; [|split; [constructor|split; [constructor|split; [|split; [|discriminate]]]]].
  - repeat (apply Forall_cons || apply Forall_nil); [exists 2|exists 3]; (split; [cbn; tauto|]; repeat (apply Forall_cons || apply Forall_nil); (split; [reflexivity|repeat constructor; lia])).
  - repeat constructor; cbn; intuition discriminate.
  - repeat (apply Forall_cons || apply Forall_nil). split; [split; reflexivity|]. cbn. repeat constructor.
Qed.
