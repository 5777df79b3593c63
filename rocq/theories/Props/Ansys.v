(** Property C52: ANSYS files; C62 for their reader. *)
From Coq Require Import Lia ZArith NArith.
From Verif.Lib Require Import Base Facts Text TextFacts Lines LinesFacts Bytes BytesFacts File Hex.
From Verif.Model Require Import Core Ansys.
From Verif.Spec Require Import Core Ansys.
From Verif.Proofs Require Import Stl Ansys.
Import Model.Ansys.

Definition line_ (s : string) : string := (s ++ String newline "")%string.

(** C52: the sections of a written file.  The points are declared and numbered from 1 to their number.  Section [k] of the cells contains
    block [k]; its range starts at the number of cells in the blocks before it and ends just before the next one: the ranges are
    contiguous and cover all cells.  (The declaration of the cells says 1 to their number, the sections count from 0.) *)
Theorem C52_sections {fl : floats} (c4 c8 : codec fl) v binary m file : write_ansys c4 c8 v binary m = Ok file ->
  exists first_lines points_body sections,
    file = (first_lines ++ line_ ("(10 (0 1 " ++ hex_of_Z (Z.of_nat (length (an_points m))) ++ " 0))") ++
            line_ ("(12 (0 1 " ++ hex_of_Z (Z.of_nat (cells_before (map snd (an_cells m)) (length (an_cells m)))) ++ " 0))") ++
            line_ ("(" ++ (if binary : bool then "3010" else "10") ++ " (1 1 " ++ hex_of_Z (Z.of_nat (length (an_points m))) ++ " 1 " ++ hex_of_Z (Z.of_nat (an_dim m)) ++ ")(") ++
            points_body ++ String.concat "" sections)%string /\
    length sections = length (an_cells m) /\
    forall k kb, nth_error (an_cells m) k = Some kb -> exists key code body,
      In key (if binary then ["2012"; "3012"] else ["12"]) /\ In (code, btype (snd kb)) [(1, "triangle"); (2, "tetra"); (3, "quad"); (4, "hexahedron"); (5, "pyramid"); (6, "wedge")]%Z /\
      nth_error sections k =
        Some (line_ ("(" ++ key ++ " (1 " ++ hex_of_Z (Z.of_nat (cells_before (map snd (an_cells m)) k)) ++ " " ++
                     hex_of_Z (Z.of_nat (cells_before (map snd (an_cells m)) (S k)) - 1) ++ " 1 " ++ str_of_Z code ++ ")(") ++ body)%string.
Proof.
  unfold write_ansys. destruct (negb _); [discriminate|]. destruct (ansys_blocks_text binary 0%Z (an_cells m)) as [s|] eqn:E; [|discriminate]. cbn [bind]. intros H.
  destruct (blocks_sections binary (an_cells m) 0%Z s E) as (ss & -> & Hl & Hn).
  assert (X : forall a b : string, Ok a = Ok b -> b = a) by congruence. apply X in H. subst file. clear X.
  set (q := String (ascii_of_nat 34) ""). exists (nl_ ("(1 " ++ q ++ "meshio " ++ v ++ q ++ ")") ++ nl_ ("(2 " ++ str_of_nat (an_dim m) ++ ")"))%string.
  exists (if binary then raw (concat (map (enc (if an_single m then c4 else c8)) (concat (an_points m)))) ++ String newline ")" ++ nl_ "End of Binary Section 3010)"
          else text_of (map (fun p => row_line (map ffmt p)) (an_points m)) ++ nl_ "))")%string.
  exists ss. split; [|split; [exact Hl|]].
  - unfold ansys_points_text. rewrite !str_app_assoc. unfold cells_before. rewrite <- (map_length snd (an_cells m)), firstn_all, map_map. reflexivity.
  - intros k kb Hk. destruct (Hn k kb Hk) as (key & t & body & Ek & Et & Es). exists key, t, body. split; [|split].
    + unfold ansys_key in Ek. destruct binary; [destruct (fst kb); try discriminate; injection Ek as <-; cbn; auto|injection Ek as <-; now left].
    + apply dget_In in Et. cbn in Et. repeat (destruct Et as [Et|Et]; [injection Et as <- <-; cbn; auto 10|]). destruct Et.
    + exact Es.
Qed.
Print Assumptions C52_sections.

Definition ex_ansys_mesh : ansys_mesh int_floats :=
  AnsysMesh (F := int_floats) 3 false [[0; 0; 0]; [1; 0; 0]; [0; 1; 0]; [0; 0; 1]; [1; 1; 17]]%Z
    [(I32, Block "triangle" [[0; 1; 2]; [0; 1; 3]]%Z); (I64, Block "triangle" []); (I64, Block "tetra" [[0; 1; 2; 3]; [0; 1; 2; 4]; [3; 1; 2; 4]]%Z)].
Example C52_sections_example : exists file, write_ansys (fl := int_floats) (int_codec 4) (int_codec 8) "5.3" false ex_ansys_mesh = Ok file /\
  file = text_of ["(1 " ++ String (ascii_of_nat 34) "" ++ "meshio 5.3" ++ String (ascii_of_nat 34) "" ++ ")"; "(2 3)"; "(10 (0 1 5 0))"; "(12 (0 1 5 0))";
                  "(10 (1 1 5 1 3)("; "0 0 0"; "1 0 0"; "0 1 0"; "0 0 1"; "1 1 17"; "))";
                  "(12 (1 0 1 1 1)("; "1 2 3"; "1 2 4"; "))"; "(12 (1 2 1 1 1)("; "))"; "(12 (1 2 4 1 2)("; "1 2 3 4"; "1 2 3 5"; "4 2 3 5"; "))"]%string.
Proof. eexists. split; vm_compute; reflexivity. Qed.

(** C52: reading the file back yields the points and the blocks: the cells refer to the same points.  In ASCII files for all meshes of
    supported types with two or three coordinates; in binary files if the coordinates are double precision numbers and the node numbers
    are 32 or 64 bit integers. *)
Theorem C52_roundtrip {fl : floats} (Hfl : floats_ok fl) (c4 c8 : codec fl) v (binary : bool) m : plain_version v -> ansys_good binary c8 m ->
  exists file, write_ansys c4 c8 v binary m = Ok file /\
    forall fuel, String.length file + 64 <= fuel -> read_ansys c4 c8 fuel file = Ok (AnsysOut (an_points m) (map snd (an_cells m))).
Proof. apply ansys_roundtrip, Hfl. Qed.
Print Assumptions C52_roundtrip.
Lemma ex_ansys_good binary : ansys_good binary (int_codec 8) ex_ansys_mesh.
Proof.
  split; [now right|]. split; [repeat constructor|]. split.
  - repeat (apply Forall_cons || apply Forall_nil); [exists 3|exists 3|exists 4]; (split; [cbn; auto 10|repeat constructor]).
  - intros _. split; [reflexivity|]. split; [intros x; apply sint_bytes_length|]. split; [intros x; apply sint_bytes_ok|]. split.
    + repeat (apply Forall_cons || apply Forall_nil); vm_compute; reflexivity.
    + repeat (apply Forall_cons || apply Forall_nil); (split; [discriminate|]); repeat (apply Forall_cons || apply Forall_nil); cbn; unfold sint_range; cbn; lia.
Qed.
Example C52_roundtrip_example : plain_version "5.3" /\ ansys_good true (int_codec 8) ex_ansys_mesh /\ ansys_good false (int_codec 8) ex_ansys_mesh.
Proof. split; [repeat split|]. split; apply ex_ansys_good. Qed.

(** C52, files of other programs: point sections numbered contiguously from any number on, cells numbered in the same way.  Reading
    subtracts that first number. *)
Theorem C52_offset {fl : floats} (Hfl : floats_ok fl) (c4 c8 : codec fl) d offset parts cs bs fuel :
  0 < d -> parts <> [] -> Forall (fun p => Forall (fun r : list fl => length r = d) (snd p)) parts -> Forall2 cell_part_block cs bs ->
  let file := (point_sections d offset parts ++ String.concat "" (map (cell_part_text offset) cs))%string in
  String.length file + 64 <= fuel -> read_ansys c4 c8 fuel file = Ok (AnsysOut (concat (map snd parts)) bs).
Proof. apply ansys_offset, Hfl. Qed.
Print Assumptions C52_offset.
Example C52_offset_example : exists bs, Forall2 cell_part_block [CellPart 2 1 1 1 [[0; 1; 2]]; CellPart 3 2 32 3 [[0; 1; 2; 3]; [1; 2; 3; 0]]]%Z bs /\
  bs = [Block "triangle" [[0; 1; 2]]; Block "quad" [[0; 1; 2; 3]; [1; 2; 3; 0]]]%Z /\
  point_sections (fl := int_floats) 2 10 [(1, 1, [[0; 0]; [1; 0]]); (7, 2, [[1; 1]; [0; 1]])]%Z =
    text_of ["(10 (1 a b 1 2)("; "0 0"; "1 0"; "))"; "(10 (7 c d 2 2)("; "1 1"; "0 1"; "))"].
Proof.
  eexists. split; [|split; [reflexivity|vm_compute; reflexivity]]. repeat constructor; eexists; eexists; (split; [|split; [|split; [|reflexivity]]]); cbn; auto; try lia; repeat constructor.
Qed.
(** C52: a gap between the ranges of two point sections is an error. *)
Theorem C52_gap {fl : floats} (Hfl : floats_ok fl) (c4 c8 : codec fl) d first zone kind (ps : list (list fl)) zone2 first2 kind2 (ps2 : list (list fl)) rest fuel :
  0 < d -> Forall (fun r => length r = d) ps -> first2 <> (first + Z.of_nat (length ps))%Z -> 50 <= fuel ->
  read_ansys c4 c8 fuel (point_section d zone first kind ps ++ point_section d zone2 first2 kind2 ps2 ++ rest) = Err ReadError.
Proof. apply ansys_gap, Hfl. Qed.
Print Assumptions C52_gap.
Example C52_gap_example : Forall (fun r => length r = 2) [[0; 0]; [1; 0]]%Z /\ (12 <> 1 + Z.of_nat (length [[0; 0]; [1; 0]]%Z))%Z.
Proof. split; [repeat constructor|cbn; lia]. Qed.

(** C52: integers that are neither 32 nor 64 bit wide, and types of cells without a code, are refused. *)
Theorem C52_refused {fl : floats} (c4 c8 : codec fl) v binary m : an_dim m = 2 \/ an_dim m = 3 ->
  (binary = true /\ Exists (fun kb => fst kb = OtherInt) (an_cells m)) \/ Exists (fun kb => ~ In (btype (snd kb)) (map fst ansys_types)) (an_cells m) ->
  write_ansys c4 c8 v binary m = Err KeyError.
Proof.
  intros Hd H. unfold write_ansys. assert ((Nat.eqb (an_dim m) 2 || Nat.eqb (an_dim m) 3) = true) as -> by (destruct Hd as [-> | ->]; reflexivity). cbn [negb].
  assert (E : forall kbs first, (binary = true /\ Exists (fun kb => fst kb = OtherInt) kbs) \/ Exists (fun kb => ~ In (btype (snd kb)) (map fst ansys_types)) kbs ->
              ansys_blocks_text binary first kbs = Err KeyError).
  { assert (N : forall t, ~ In t (map fst ansys_types) -> dget t meshio_to_ansys_type = None).
    { intros t Ht. apply dget_None. intros Hin. apply Ht. exact Hin. }
    induction kbs as [|kb kbs IH]; intros first Hx.
    - destruct Hx as [[_ X]|X]; inversion X.
    - cbn [ansys_blocks_text]. destruct (ansys_block_text binary first kb) as [s|e] eqn:Es.
      + cbn [bind]. rewrite IH; [reflexivity|]. unfold ansys_block_text in Es. destruct Hx as [[Hb X]|X].
        * left. split; [exact Hb|]. inversion X as [? ? Ho|]; subst; [|assumption]. unfold ansys_key in Es. rewrite Ho in Es. discriminate.
        * right. inversion X as [? ? Ho|]; subst; [|assumption]. rewrite (N _ Ho) in Es. destruct (ansys_key binary (fst kb)); discriminate.
      + cbn [bind]. unfold ansys_block_text in Es. destruct (ansys_key binary (fst kb)) as [key|e'] eqn:Ek.
        * cbn [bind] in Es. destruct (dget (btype (snd kb)) meshio_to_ansys_type); cbn [of_option bind] in Es; congruence.
        * cbn [bind] in Es. unfold ansys_key in Ek. destruct binary; [destruct (fst kb)|]; congruence. }
  rewrite E by exact H. reflexivity.
Qed.
Print Assumptions C52_refused.
Example C52_refused_example : write_ansys (fl := int_floats) (int_codec 4) (int_codec 8) "5.3" true
  (AnsysMesh (F := int_floats) 2 false [[0; 0]; [1; 0]; [0; 1]]%Z [(OtherInt, Block "triangle" [[0; 1; 2]]%Z)]) = Err KeyError.
Proof. vm_compute. reflexivity. Qed.

(** C52 fails for binary files with coordinates in single precision: the head announces double precision (key 3010), the numbers are
    written in single precision.  Reading
    this file never ends. *)
Definition ex_ansys_single (n : nat) : ansys_mesh int_floats :=
  AnsysMesh (F := int_floats) 2 true [[0; 0]; [1; 0]; [0; 1]]%Z (repeat (I32, Block "triangle" [[0; 1; 2]]%Z) n).
Theorem C52_single_refuted : exists v m file, plain_version v /\ an_single m = true /\ ansys_good false (int_codec 8) m /\
  Forall (Forall (exact (int_codec 4))) (an_points m) /\ Forall (fun kb => fst kb = I32 /\ Forall (Forall (fits_kind I32)) (bdata (snd kb))) (an_cells m) /\
  write_ansys (fl := int_floats) (int_codec 4) (int_codec 8) v true m = Ok file /\
  forall fuel, read_ansys (fl := int_floats) (int_codec 4) (int_codec 8) fuel file = Err OutOfFuel.
Proof.
  exists "5.3", (ex_ansys_single 1). eexists. split; [repeat split|]. split; [reflexivity|]. split; [|split; [|split; [|split; [apply write_ok; [now left|vm_compute; reflexivity]|]]]].
  - split; [now left|]. split; [repeat constructor|]. split; [|discriminate]. repeat (apply Forall_cons || apply Forall_nil). exists 3. split; [now left|repeat constructor].
  - repeat (apply Forall_cons || apply Forall_nil); vm_compute; reflexivity.
  - repeat (apply Forall_cons || apply Forall_nil); (split; [reflexivity|]); repeat (apply Forall_cons || apply Forall_nil); cbn; unfold sint_range; cbn; lia.
  - intros fuel. unfold read_ansys. assert (Hv : plain_version "5.3") by (repeat split). assert (Hd : an_dim (ex_ansys_single 1) = 2 \/ an_dim (ex_ansys_single 1) = 3) by now left.
    destruct (Nat.leb_spec fuel 4) as [Hle|Hgt].
    { rewrite (proj2 (head_steps (fl := int_floats) (int_codec 4) (int_codec 8) "5.3" (ex_ansys_single 1) 0 fuel _ Hv Hd) fuel Hle). reflexivity. }
    replace fuel with (4 + S (fuel - 5)) at 1 by lia. rewrite (proj1 (head_steps (fl := int_floats) _ _ _ _ _ _ _ Hv Hd)).
    match goal with |- context [ansys_loop _ _ _ _ _ ?s] => set (text := s) end.
    assert (E : text = (nl_ (head_line "30" "10" (args_of [1; 1; 3; 1; 2]%Z)) ++ snd (readline text))%string) by (vm_compute; reflexivity).
    rewrite E. rewrite head_step by (first [now right; right|now left|vm_compute; reflexivity]). set (body := snd (readline text)). change (index_is "10" ("30" ++ "10")) with true. cbv iota.
    unfold read_ansys_points. change (declaration _) with false. cbv iota. rewrite args_ok by (first [now right; right|now left]). cbn [bind arg nth as_first as_last]. rewrite head_open. cbn [bind].
    change (String.eqb "30" "") with false. change (String.eqb "30" "20") with false. cbv iota.
    match goal with |- context [raw_rows ?a ?b ?c ?d ?e] =>
      assert (R : exists ps rest, raw_rows a b c d e = Ok (ps, rest) /\ skip_close (String.length rest) 2 rest = Err OutOfFuel) by (eexists; eexists; split; vm_compute; reflexivity) end.
    destruct R as (ps & rest & -> & Hs). cbn [orb Z.ltb Z.compare bind fst snd]. change (3 - 1 + 1 <? 0)%Z with false. cbv iota. cbn [bind fst snd]. rewrite (close_never rest 1 Hs). reflexivity.
Qed.
Print Assumptions C52_single_refuted.

(** C62 fails for the ANSYS reader: if the file ends within the point section, after any number of complete lines, reading never ends. *)
Theorem C62_ansys_refuted {fl : floats} (Hfl : floats_ok fl) (c4 c8 : codec fl) v m j : plain_version v -> ansys_good false c8 m -> j <= length (an_points m) ->
  exists cut tail, write_ansys c4 c8 v false m = Ok (cut ++ tail)%string /\ tail <> ""%string /\ forall fuel, read_ansys c4 c8 fuel cut = Err OutOfFuel.
Proof. intros Hv Hm Hj. destruct (ansys_truncated Hfl c4 c8 v m j Hv Hm Hj) as (cut & tail & E & Ht & _ & R). exists cut, tail. auto. Qed.
Print Assumptions C62_ansys_refuted.
Example C62_ansys_example : plain_version "5.3" /\ ansys_good false (int_codec 8) ex_ansys_mesh /\ 4 <= length (an_points ex_ansys_mesh).
Proof. split; [repeat split|]. split; [apply ex_ansys_good|cbn; lia]. Qed.
