(** What writing does to the mesh of the caller (C57) and the names of converted sets (C65). *)
From Coq Require Import ZArith List String Ascii Bool Lia.
From Verif.Lib Require Import Base Facts Text TextFacts Lines.
From Verif.Model Require Import Core Flac3d Effects.
From Verif.Spec Require Import Core Effects.
From Verif.Proofs Require Import Effects.
From Verif.Props Require Flac3d.
Import ListNotations.

(** ** C57 *)
(** Writing the same object twice has the same outcome twice (the same file or the same error), whatever the format
    does with the prepared mesh. *)
Theorem C57_vtk42_twice : forall {G} (zero : G) {File} (rest : list (entry G) -> mesh (entry G) -> result File) m,
  same_twice (write_vtk42 zero rest) m.
Proof. intros. apply vtk42_twice. Qed.
Print Assumptions C57_vtk42_twice.
Theorem C57_vtk51_twice : forall {G} (zero : G) {File} (rest : list (entry G) -> mesh (entry G) -> result File) m,
  same_twice (write_vtk51 zero rest) m.
Proof. intros. apply vtk51_twice. Qed.
Print Assumptions C57_vtk51_twice.
Theorem C57_vtu_twice : forall {G} (zero : G) {File} check (rest : list (entry G) -> mesh (entry G) -> result File) m,
  same_twice (write_vtu zero check rest) m.
Proof. intros. apply vtu_twice. Qed.
Print Assumptions C57_vtu_twice.
Theorem C57_avsucd_twice : forall {G} (zero : G) {File} (rest : mesh (entry G) -> result File) m,
  same_twice (write_avsucd zero rest) m.
Proof. intros. apply avsucd_twice. Qed.
Print Assumptions C57_avsucd_twice.
Theorem C57_ply_twice : forall {O File} (head : O -> result unit) (rest : O -> list (bool * block) -> result File) m,
  same_twice (write_ply head rest) m.
Proof. intros. apply ply_twice. Qed.
Print Assumptions C57_ply_twice.

(** Exactly which meshes are left as they are *)
Theorem C57_vtk42_unchanged : forall {G} (zero : G) {File} (rest : list (entry G) -> mesh (entry G) -> result File) m,
  leaves_unchanged (write_vtk42 zero rest) m <-> no_vectors_2d m.
Proof. intros. apply vtk42_unchanged. Qed.
Print Assumptions C57_vtk42_unchanged.
Theorem C57_vtk51_unchanged : forall {G} (zero : G) {File} (rest : list (entry G) -> mesh (entry G) -> result File) m f,
  fst (write_vtk51 zero rest m) = Ok f ->
  (leaves_unchanged (write_vtk51 zero rest) m <-> no_vectors_2d m /\ point_sets m = [] /\ cell_sets m = []).
Proof.
  intros G zero File rest m f H. apply vtk51_unchanged. unfold write_vtk51 in H.
  destruct (convert_sets (pad_data zero m)) as [[[]|e] m']; [reflexivity|discriminate].
Qed.
Print Assumptions C57_vtk51_unchanged.
Theorem C57_vtu_unchanged : forall {G} (zero : G) {File} check (rest : list (entry G) -> mesh (entry G) -> result File) m f,
  fst (write_vtu zero check rest m) = Ok f ->
  (leaves_unchanged (write_vtu zero check rest) m <-> point_sets m = [] /\ cell_sets m = []).
Proof.
  intros G zero File check rest m f H. unfold write_vtu in H. destruct (check (cells m)) as [[]|e] eqn:Ec; [|discriminate].
  apply vtu_unchanged; [|exact Ec]. destruct (convert_sets m) as [[[]|e] m']; [reflexivity|discriminate].
Qed.
Print Assumptions C57_vtu_unchanged.
Theorem C57_avsucd_unchanged : forall {G} (zero : G) {File} (rest : mesh (entry G) -> result File) m,
  leaves_unchanged (write_avsucd zero rest) m <-> ~ vectors_2d (AOther (points m)).
Proof. intros. apply avsucd_unchanged. Qed.
Print Assumptions C57_avsucd_unchanged.
(** PLY: the node numbers stay the same if they fit into 32 bits; the type of the arrays changes. *)
Theorem C57_ply_unchanged : forall {O File} (head : O -> result unit) (rest : O -> list (bool * block) -> result File) m,
  Forall (fun b => Forall (Forall (fun i => (-2147483648 <= i < 2147483648)%Z)) (bdata (snd b))) (snd m) ->
  fst (snd (write_ply head rest m)) = fst m /\ map snd (snd (snd (write_ply head rest m))) = map snd (snd m).
Proof.
  intros O File head rest m H. unfold write_ply. destruct (head (fst m)) as [u|e]; cbn; [|split; reflexivity].
  split; [reflexivity|]. now apply ply_cells.
Qed.
Print Assumptions C57_ply_unchanged.
(** FLAC3D: one block *)
Theorem C57_flac3d_partial : forall {fl : floats} (g : geom fl) v date (m : flac_in fl) b, fi_cells m = [b] ->
  Forall (fun kv => length (snd kv) = 1) (fi_sets m) ->
  leaves_unchanged (flac3d_writer g v date) m /\ same_twice (flac3d_writer g v date) m.
Proof.
  intros fl g v date m b Hb Hs. assert (H : leaves_unchanged (flac3d_writer g v date) m) by exact (flac_one_block g v date m b Hb Hs).
  split; [exact H|]. now apply unchanged_twice.
Qed.
Print Assumptions C57_flac3d_partial.

(** A mesh of two triangles in the plane with velocities, a flag for each cell and sets *)
Definition plate : mesh (entry Z) := Mesh
  [Vec [0; 0]; Vec [1; 0]; Vec [0; 1]; Vec [1; 1]]%Z [Block "triangle" [[0; 1; 2]; [1; 3; 2]]%Z]
  [("velocity", AOther [Vec [1; 2]; Vec [3; 4]; Vec [5; 6]; Vec [7; 8]]%Z)]%string
  [("flag", [AInt [7; 8]%Z])]%string
  [("left", [0; 2]); ("right", [1; 3])]%string [("all", [Some [0; 1]])]%string.
Definition keep {G} (pts : list (entry G)) (m : mesh (entry G)) : result (list (entry G) * mesh (entry G)) := Ok (pts, m).

(** The mesh object is changed: two-component data get a third component, the sets become data. *)
Theorem C57_changed_refuted :
  snd (write_vtk42 0%Z keep plate) =
    Mesh (points plate) (cells plate) [("velocity", AOther [Vec [1; 2; 0]; Vec [3; 4; 0]; Vec [5; 6; 0]; Vec [7; 8; 0]]%Z)]%string
      (cell_data plate) (point_sets plate) (cell_sets plate) /\
  snd (write_vtu 0%Z (fun _ => Ok tt) keep plate) =
    Mesh (points plate) (cells plate)
      (point_data plate ++ [("leftleft-rightright"%string, AInt [0; 1; 0; 1]%Z)])
      [("flag", [AInt [7; 8]%Z]); ("all", [AInt [0; 0]%Z])]%string [] [] /\
  points (snd (write_avsucd 0%Z (fun m => Ok m) plate)) = [Vec [0; 0; 0]; Vec [1; 0; 0]; Vec [0; 1; 0]; Vec [1; 1; 0]]%Z /\
  ~ leaves_unchanged (write_vtk42 0%Z keep) plate /\ ~ leaves_unchanged (write_vtk51 0%Z keep) plate /\
  ~ leaves_unchanged (write_vtu 0%Z (fun _ => Ok tt) keep) plate /\ ~ leaves_unchanged (write_avsucd 0%Z (fun m => Ok m)) plate.
Proof.
  split; [vm_compute; reflexivity|]. split; [vm_compute; reflexivity|]. split; [vm_compute; reflexivity|].
  split; [discriminate|]. split; [discriminate|]. split; discriminate.
Qed.
Print Assumptions C57_changed_refuted.
(** A node number beyond 32 bits is changed by the PLY writer. *)
Theorem C57_ply_refuted :
  snd (snd (write_ply (fun _ : unit => Ok tt) (fun _ bs => Ok bs) (tt, [(true, Block "triangle" [[0; 1; 4294967297]%Z])]))) =
  [(false, Block "triangle" [[0; 1; 1]%Z])].
Proof. vm_compute. reflexivity. Qed.
(** FLAC3D with two blocks: the second file is different from the first. *)
Theorem C57_flac3d_refuted :
  ~ leaves_unchanged (flac3d_writer (fl := int_floats) Flac3d.int_geom "5" "today") Flac3d.grid /\
  ~ same_twice (flac3d_writer (fl := int_floats) Flac3d.int_geom "5" "today") Flac3d.grid.
Proof. unfold leaves_unchanged, same_twice. split; vm_compute; discriminate. Qed.
Print Assumptions C57_flac3d_refuted.

Example C57_hypotheses :
  (exists f, fst (write_vtk51 0%Z keep plate) = Ok f) /\ (exists f, fst (write_vtu 0%Z (fun _ => Ok tt) keep plate) = Ok f) /\
  no_vectors_2d (snd (write_vtk51 0%Z keep plate)) /\ ~ no_vectors_2d plate.
Proof.
  split; [eexists; vm_compute; reflexivity|]. split; [eexists; vm_compute; reflexivity|]. split.
  - apply (C57_vtk42_unchanged 0%Z keep). vm_compute. reflexivity.
  - intros H. apply (C57_vtk42_unchanged 0%Z keep) in H. discriminate.
Qed.
Example C57_one_block : snd (flac3d_writer (fl := int_floats) Flac3d.int_geom "5" "today" Flac3d.tets) = Flac3d.tets /\
  exists f, fst (flac3d_writer (fl := int_floats) Flac3d.int_geom "5" "today" Flac3d.tets) = Ok f.
Proof. split; [vm_compute; reflexivity|]. eexists. vm_compute. reflexivity. Qed.

(** ** C65 *)
(** Cell sets become one array; its name consists of the names of the sets, joined with a character that is in none of
    them, if there are several sets or no spaces in the name of the only set. *)
Theorem C65_cells_partial : forall {G} (m m' : mesh (entry G)), cell_sets m <> [] -> convert_cell_sets m = Ok m' ->
  (2 <= length (cell_sets m) \/ Forall (fun kv => char_in " " (fst kv) = false) (cell_sets m)) ->
  exists name values, cell_data m' = dset name (map AInt values) (cell_data m) /\ names_kept (dkeys (cell_sets m)) name /\ cell_sets m' = [].
Proof.
  intros G m m' Hne H Hn. unfold convert_cell_sets in H. destruct (cell_sets m) as [|p ps] eqn:E; [congruence|].
  destruct (set_key (dkeys (p :: ps))) as [key|] eqn:Ek; cbn [bind] in H; [|discriminate].
  unfold cell_sets_to_data in H. rewrite E in H.
  destruct (set_values_blocks _ _) as [f|]; cbn in H; [|discriminate]. injection H as <-. cbn [cell_data cell_sets].
  exists key, f. split; [reflexivity|]. split; [|reflexivity]. apply set_key_kept; [discriminate|exact Ek|].
  destruct Hn as [Hn|Hn]; [left; unfold dkeys; now rewrite map_length|right].
  unfold dkeys. apply Forall_map. exact Hn.
Qed.
Print Assumptions C65_cells_partial.
(** One point set keeps its name, *)
Theorem C65_one_point_set_partial : forall {G} (m m' : mesh (entry G)) name s, point_sets m = [(name, s)] -> convert_point_sets m = Ok m' ->
  exists values, point_data m' = dset name (AInt values) (point_data m) /\ point_sets m' = [].
Proof.
  intros G m m' name s E H. unfold convert_point_sets in H. rewrite E in H.
  destruct (set_key _) as [key|]; cbn in H; [|discriminate]. unfold point_sets_to_data in H. rewrite E in H.
  destruct (set_values _ _) as [f|]; cbn in H; [|discriminate]. injection H as <-. cbn. now exists f.
Qed.
Print Assumptions C65_one_point_set_partial.
(** but the names of several point sets are joined with the whole name of the array: the sets a and b give the same
    name as one set aa-bb, and no character separates the names. *)
Definition with_point_sets (ps : dict (list nat)) : mesh (entry Z) := Mesh (points plate) (cells plate) [] [] ps [].
Theorem C65_points_refuted :
  (do m <- convert_point_sets (with_point_sets [("a", [0; 1]); ("b", [2; 3])]); Ok (dkeys (point_data m)))%string = Ok ["aa-bb"]%string /\
  (do m <- convert_point_sets (with_point_sets [("aa-bb", [0; 1])]); Ok (dkeys (point_data m)))%string = Ok ["aa-bb"]%string /\
  ~ names_kept ["a"; "b"]%string "aa-bb"%string.
Proof.
  split; [vm_compute; reflexivity|]. split; [vm_compute; reflexivity|].
  intros (c & s & Hf & H). cbn [map replace_char] in H.
  apply (f_equal (join (String c ""))) in H.
  assert (Hl : forall x, join (String c "") (split_char c x) = x).
  { intros x. induction x as [|a x IH]; [reflexivity|]. cbn [split_char]. destruct (Ascii.eqb_spec a c) as [->|Hne].
    - destruct (split_char c x) as [|y l] eqn:Ex; [exfalso; exact (split_char_nonempty c x Ex)|]. rewrite join_cons. cbn [String.append]. now rewrite IH.
    - destruct (split_char c x) as [|y l] eqn:Ex; [exfalso; exact (split_char_nonempty c x Ex)|].
      destruct l as [|z l]; cbn in IH |- *; now rewrite IH. }
  rewrite Hl in H. apply (f_equal String.length) in H. discriminate.
Qed.
Print Assumptions C65_points_refuted.
(** One cell set with a space in its name gets the name of two sets. *)
Definition with_cell_sets (cs : dict (list (option (list nat)))) : mesh (entry Z) := Mesh (points plate) (cells plate) [] [] [] cs.
Theorem C65_space_refuted :
  (do m <- convert_cell_sets (with_cell_sets [("a_b c", [Some [0]])]); Ok (dkeys (cell_data m)))%string = Ok ["a_b-c"]%string /\
  (do m <- convert_cell_sets (with_cell_sets [("a_b", [Some [0]]); ("c", [Some [1]])]); Ok (dkeys (cell_data m)))%string = Ok ["a_b-c"]%string.
Proof. split; vm_compute; reflexivity. Qed.
Example C65_hypotheses :
  (do m <- convert_cell_sets (with_cell_sets [("left part", [Some [0]]); ("right-part", [Some [1]])]); Ok (cell_data m))%string =
  Ok [("left+part_right-part", [AInt [0; 1]%Z])]%string /\
  (do m <- convert_point_sets (with_point_sets [("my set", [0; 1])]); Ok (point_data m))%string = Ok [("my set", AInt [0; 0; -1; -1]%Z)]%string.
Proof. split; vm_compute; reflexivity. Qed.
