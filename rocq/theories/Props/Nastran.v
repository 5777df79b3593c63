(** Properties of Nastran files: C44, C62. *)
From Coq Require Import Lia ZArith.
From Verif.Lib Require Import Base Facts Text TextFacts Lines LinesFacts.
From Verif.Model Require Import Core Tables Abaqus Nastran.
From Verif.Spec Require Import Core Blocks Nastran.
From Verif.Proofs Require Import Core Blocks Nastran NastranFile Gmsh.
Import Model.Nastran Spec.Nastran.
Local Open Scope nat_scope.

(** C44: for all meshes of cells of the format whose numbers fit, with points in any of the three formats and cells in the format fixed-small,
    the file is read as the same points, the same cells in the same order (with the nodes in the same order), the same references, and the
    numbers 1, 2, 3... as identifiers of points and cells.  [ffix]: the text of a number with six digits after the point.
    Missing: cells in the formats fixed-large and free (refuted below), and numbers that do not have enough digits. *)
Theorem C44_nastran_partial {fl : floats} (ffix : fl -> string) (version : string) (point_format : nas_format) (m : nas_mesh fl) (fuel : nat) :
  nas_ok ffix point_format m -> numbers_fit m -> 1 <= fuel ->
  exists file, write_nastran ffix version point_format Small m = Ok file /\ read_nastran fuel file = Ok (read_back m).
Proof. apply small_roundtrip. Qed.
Print Assumptions C44_nastran_partial.
(** In particular blocks come back one by one if no two neighbouring blocks have the same type and no block is empty. *)
Theorem C44_blocks_partial {fl : floats} (ffix : fl -> string) (version : string) (point_format : nas_format) (m : nas_mesh fl) (fuel : nat) :
  nas_ok ffix point_format m -> numbers_fit m -> 1 <= fuel -> grouped (nm_cells m) ->
  exists file r, write_nastran ffix version point_format Small m = Ok file /\ read_nastran fuel file = Ok r /\
    nr_points r = points_3d m /\ nr_cells r = nm_cells m /\ (forall l, nm_prefs m = Some l -> l <> [] -> nr_prefs r = Some l) /\
    (forall l, nm_crefs m = Some l -> l <> [] -> nr_crefs r = Some l).
Proof.
  intros H N Hf G. destruct (small_roundtrip ffix version point_format m fuel H N Hf) as (file & W & R). exists file, (read_back m). split; [exact W|]. split; [exact R|].
  unfold read_back. cbn [nr_points nr_cells nr_prefs nr_crefs]. rewrite (regroup_id _ G). split; [reflexivity|]. split; [reflexivity|]. split.
  - intros l -> Hl. destruct l; [contradiction|reflexivity].
  - intros l E Hl. rewrite E. assert (L := no_crefs _ _ _ H l E).
    assert (X : data_for (nm_cells m) (concat l) = l).
    { unfold data_for. replace (map blen (nm_cells m)) with (map (@length Z) l); [apply split_lens_concat|]. clear -L. induction L as [|r b l bs Hr _ IH]; [reflexivity|]. cbn [map]. unfold blen at 1. now rewrite Hr, IH. }
    rewrite X. destruct l; [contradiction|reflexivity].
Qed.
Print Assumptions C44_blocks_partial.
(** The two conversions of the order of the nodes are inverse to each other for all types of the format. *)
Definition nastran_nodes (t : string) : nat :=
  match dget t nastran_to_meshio_type with Some m => match dget m num_nodes_per_cell with Some n => n | None => 0 end | None => 0 end.
Theorem C44_orders t (c : cell) : In t (dkeys nastran_to_meshio_type) -> length c = nastran_nodes t ->
  (exists c1, to_nastran_ordering t c = Ok c1 /\ to_vtk_ordering t c1 = Ok c) /\ (exists c1, to_vtk_ordering t c = Ok c1 /\ to_nastran_ordering t c1 = Ok c).
Proof.
  intros Ht Hc. assert (O : order_length t (length c)).
  { rewrite Hc. clear Hc. revert t Ht. assert (G : forallb (fun t => (negb (smem t ["CTRAX6"; "CTRIAX6"]) || Nat.eqb (nastran_nodes t) 6) && (negb (String.eqb t "CHEXA_") || Nat.eqb (nastran_nodes t) 20) &&
       (negb (String.eqb t "CPENTA_") || Nat.eqb (nastran_nodes t) 15)) (dkeys nastran_to_meshio_type) = true) by (vm_compute; reflexivity).
    rewrite forallb_forall in G. intros t Ht. specialize (G t Ht). rewrite !andb_true_iff, !orb_true_iff, !negb_true_iff, !Nat.eqb_eq in G. destruct G as ((G1 & G2) & G3). split; [|split].
    - intros E. destruct G1; [congruence|auto].
    - intros ->. destruct G2; [discriminate|auto].
    - intros ->. destruct G3; [discriminate|auto]. }
  split; [destruct (orders t c O) as (c1 & A & _ & B & _); eauto|].
  destruct O as (H1 & H2 & H3). unfold to_nastran_ordering, to_vtk_ordering. destruct (smem t ["CTRAX6"; "CTRIAX6"]).
  - destruct (Perm.permute_inverse 6 [0;2;4;1;3;5] [0;3;1;4;2;5] c eq_refl (H1 eq_refl)) as (r & E & L & B). exists r. now rewrite E, B.
  - destruct (String.eqb_spec t "CHEXA_") as [Et|]; [destruct (Perm.permute_inverse 20 hexa_order hexa_order c eq_refl (H2 Et)) as (r & E & L & B); exists r; now rewrite E, B|].
    destruct (String.eqb_spec t "CPENTA_") as [Et|]; [destruct (Perm.permute_inverse 15 penta_order penta_order c eq_refl (H3 Et)) as (r & E & L & B); exists r; now rewrite E, B|]. eauto.
Qed.
Print Assumptions C44_orders.
Example C44_hexa_moves : to_nastran_ordering "CHEXA_" (map Z.of_nat (seq 0 20)) = Ok [0;1;2;3;4;5;6;7;8;9;10;11;16;17;18;19;12;13;14;15]%Z.
Proof. reflexivity. Qed.

(** Refuted for cells in the format fixed-large: no cell and no reference of a cell of any file is read, without an error. *)
Theorem C44_large_refuted {fl : floats} (ffix : fl -> string) (version : string) (point_format : nas_format) (m : nas_mesh fl) (fuel : nat) :
  nas_ok ffix point_format m -> numbers_fit m -> (Z.of_nat (number_of_cells (nm_cells m)) < 16 ^ 6)%Z -> 1 <= fuel ->
  exists file, write_nastran ffix version point_format Large m = Ok file /\
    read_nastran fuel file = Ok (NasRead (points_3d m) [] (nonempty (nm_prefs m)) None (numbers (length (nm_points m))) []).
Proof. apply large_lost. Qed.
Print Assumptions C44_large_refuted.
(** Refuted for cells in the format free: no mesh with a cell can be written. *)
Theorem C44_free_refuted {fl : floats} (ffix : fl -> string) (version : string) (point_format : nas_format) (m : nas_mesh fl) :
  nas_ok ffix point_format m -> numbers_fit m -> all_cells (nm_cells m) <> [] -> write_nastran ffix version point_format Free m = Err UnboundLocalError.
Proof.
  intros H N Hc. destruct (points_read ffix point_format m H N) as (pc & pr & P1 & _). unfold write_nastran. fold (points_3d m). rewrite P1. cbn [bind].
  assert (B := blocks_fit ffix point_format m H N). assert (R := no_crefs _ _ _ H). clear -B Hc R.
  assert (G : forall bs k id, Forall (fun b => exists nt n, nas_type (btype b) nt n /\ Forall (fun c => length c = n /\ Forall small_node c) (bdata b)) bs -> all_cells bs <> [] ->
    (forall l, nm_crefs m = Some l -> Forall2 (fun r b => length r = length (bdata b)) (skipn k l) bs) -> write_blocks Free (nm_crefs m) bs k id = Err UnboundLocalError).
  { clear. induction bs as [|b bs IH]; intros k id B Hc R; [contradiction|]. inversion B as [|? ? (nt & n & T & Hn) B']; subst. cbn [write_blocks]. rewrite (nt_get _ _ _ T). cbn [of_option bind].
    assert (Er : exists br, match nm_crefs m with Some cl => do r <- of_option IndexError (nth_error cl k); Ok (Some r) | None => Ok None end = Ok br /\ (forall x, br = Some x -> length x = length (bdata b)) /\
       (forall l, nm_crefs m = Some l -> Forall2 (fun r b => length r = length (bdata b)) (skipn (S k) l) bs)).
    { destruct (nm_crefs m) as [cl|]; [|exists None; repeat split; discriminate]. specialize (R cl eq_refl). inversion R as [|r ? rest ? Hlen F' E1 E2]. destruct (nth_error cl k) as [x|] eqn:Ex.
      - rewrite (skipn_cons k cl x Ex) in E1. injection E1 as -> ->. exists (Some x). split; [reflexivity|]. split; [now intros x' [= <-]|now intros cl' [= <-]].
      - apply nth_error_None in Ex. rewrite skipn_all2 in E1 by lia. discriminate. }
    destruct Er as (br & -> & E2 & E3). cbn [bind]. destruct (bdata b) as [|c cs] eqn:Eb.
    - cbn [write_cells bind length]. rewrite IH; auto. rewrite all_cells_cons, Eb in Hc. exact Hc.
    - cbn [write_cells]. inversion Hn as [|? ? (Hn1 & _) _]; subst.
      assert (Ef : exists s, match br with Some l0 => do r0 <- of_option IndexError (nth_error l0 0); Ok (str_of_Z r0) | None => Ok "" end = Ok s).
      { destruct br as [[|x l]|]; [discriminate (E2 [] eq_refl)|cbn; eauto|eauto]. }
      destruct Ef as (s & ->). cbn [bind]. unfold cell_lines. destruct (orders nt (map (fun i => (i + 1)%Z) c)) as (c1 & -> & _); [rewrite map_length; apply T|]. reflexivity. }
  rewrite G; auto.
Qed.
Print Assumptions C44_free_refuted.

(** Refuted for coordinates of points in the format fixed-small: the text of a number is cut after eight characters, and
    123456789 is read as 12345678 without an error. *)
Definition point_floats : floats :=
  Floats Z (fun z => (str_of_Z z ++ ".")%string) (fun s => match parse_Z s with Some v => Some v | None => parse_Z (rstrip_char "." s) end) 0%Z.
Definition six_digits (z : Z) : string := (str_of_Z z ++ ".000000")%string.
Theorem C44_digits_refuted : exists (m : nas_mesh point_floats) file r,
  write_nastran (fl := point_floats) six_digits "5.3.5" Small Small m = Ok file /\ read_nastran (fl := point_floats) 1 file = Ok r /\
  nm_points m = [[123456789; 0; 0]; [1; 2; 3]]%Z /\ nr_points r = [[12345678; 0; 0]; [1; 2; 3]]%Z.
Proof. exists (NasMesh (F := point_floats) 3 [[123456789; 0; 0]; [1; 2; 3]]%Z [] None None). eexists _, _. repeat split; vm_compute; reflexivity. Qed.
Print Assumptions C44_digits_refuted.

(** C62: a file that was cut anywhere is never accepted, but if it ends after the line BEGIN BULK, the reader asks for further lines for ever. *)
Theorem C62_nastran_cut {fl : floats} (ffix : fl -> string) (version : string) (point_format cell_format : nas_format) (m : nas_mesh fl) : cell_format = Small \/ cell_format = Large ->
  nas_ok ffix point_format m -> numbers_fit m -> (Z.of_nat (number_of_cells (nm_cells m)) < 16 ^ 6)%Z ->
  exists file, write_nastran ffix version point_format cell_format m = Ok file /\
    forall j fuel, j < length file -> exists e, read_nastran (fl := fl) fuel (firstn j file) = Err e.
Proof.
  intros Hcf H N HL. destruct (written_tail ffix version point_format cell_format m Hcf H N (fun _ => HL)) as (file & W & T & _). exists file. split; [exact W|].
  intros j fuel Hj. apply no_end. now apply tail_cut.
Qed.
Print Assumptions C62_nastran_cut.
Theorem C62_nastran_refuted {fl : floats} (ffix : fl -> string) (version : string) (point_format cell_format : nas_format) (m : nas_mesh fl) : cell_format = Small \/ cell_format = Large ->
  nas_ok ffix point_format m -> numbers_fit m -> (Z.of_nat (number_of_cells (nm_cells m)) < 16 ^ 6)%Z ->
  exists file, write_nastran ffix version point_format cell_format m = Ok file /\
    forall fuel, read_nastran (fl := fl) fuel (firstn 2 file) = Err OutOfFuel.
Proof.
  intros Hcf H N HL. destruct (written_tail ffix version point_format cell_format m Hcf H N (fun _ => HL)) as (file & W & _ & F). exists file. split; [exact W|].
  intros fuel. rewrite F. unfold read_nastran. rewrite header. cbn [bind]. now rewrite skip_forever.
Qed.
Print Assumptions C62_nastran_refuted.

(** Integers in place of real numbers: all assumptions can be met. *)
Definition nas_example : nas_mesh int_floats :=
  NasMesh (F := int_floats) 3 (map (fun i => [Z.of_nat i; 0; -5]%Z) (seq 0 20))
    [Block "hexahedron20" [map Z.of_nat (seq 0 20); rev (map Z.of_nat (seq 0 20))]; Block "triangle" [[0;1;2];[3;4;5]]%Z; Block "quad8" [[0;1;2;3;4;5;6;7]]%Z; Block "vertex" [[3]]%Z; Block "line" [[3;4]]%Z]
    (Some (map Z.of_nat (seq 3 20))) (Some [[1;2];[3;4];[6];[7];[8]]%Z).
Lemma int_float_fits z : int_fits 16 z -> float_fits (fl := int_floats) str_of_Z Large z.
Proof.
  intros H. split; [apply str_of_Z_length; [lia|exact H]|]. split; [apply word_str_of_Z|]. split; [apply comma_int|apply parse_Z_str_of_Z].
Qed.
Definition small_numbers (l : list Z) : bool := forallb (fun z => Z.ltb (-1000) z && Z.ltb z 1000) l.
Lemma small_fits w l : 4 < w -> small_numbers l = true -> Forall (int_fits w) l.
Proof.
  intros Hw H. apply Forall_forall. intros z Hz. unfold small_numbers in H. rewrite forallb_forall in H. specialize (H z Hz). rewrite andb_true_iff, !Z.ltb_lt in H. unfold int_fits.
  assert (X : (10 ^ 3 <= 10 ^ (Z.of_nat w - 1))%Z) by (apply Z.pow_le_mono_r; lia). assert (Y : (10 ^ 3 <= 10 ^ Z.of_nat w)%Z) by (apply Z.pow_le_mono_r; lia). change (10 ^ 3)%Z with 1000%Z in *. lia.
Qed.
Lemma small_float z : (-1000 < z < 1000)%Z -> float_fits (fl := int_floats) str_of_Z Large z.
Proof.
  intros H. apply int_float_fits. assert (X : Forall (int_fits 16) [z]); [|now inversion X].
  apply small_fits; [lia|]. unfold small_numbers. cbn [forallb]. rewrite andb_true_r. apply andb_true_iff. rewrite !Z.ltb_lt. exact H.
Qed.
Example nas_example_ok : nas_ok (fl := int_floats) str_of_Z Large nas_example /\ numbers_fit (fl := int_floats) nas_example /\ grouped (nm_cells nas_example).
Proof.
  split; [|split].
  - constructor.
    + now right.
    + apply Forall_forall. intros p Hp. apply in_map_iff in Hp as (i & <- & _). reflexivity.
    + assert (K : forall t, smem t (map fst topological_dimension) = true -> known_type t) by (intros t Ht; right; now apply smem_In).
      assert (D : forall t, smem t (dkeys meshio_to_nastran_type) = true -> In t (dkeys meshio_to_nastran_type)) by (intros t Ht; now apply smem_In).
      assert (C : forall n (cs : list cell) t, forallb (fun c => match dget t num_nodes_per_cell with Some k => Nat.eqb k (length c) | None => false end && forallb (fun i => Z.leb 0 i && Z.ltb i n) c) cs = true ->
         Forall (fun c => dget t num_nodes_per_cell = Some (length c) /\ Forall (fun i => 0 <= i < n)%Z c) cs).
      { intros n cs t Hb. apply Forall_forall. intros c Hin. rewrite forallb_forall in Hb. specialize (Hb c Hin). apply andb_true_iff in Hb as [B1 B2]. split.
        - destruct (dget t num_nodes_per_cell); [apply Nat.eqb_eq in B1; now subst|discriminate].
        - apply Forall_forall. intros i Hi. rewrite forallb_forall in B2. specialize (B2 i Hi). lia. }
      repeat (apply Forall_cons; [split; [apply K; vm_compute; reflexivity|split; [apply D; vm_compute; reflexivity|apply C; vm_compute; reflexivity]]|]). constructor.
    + split.
      * apply Forall_forall. intros p Hp. apply in_map_iff in Hp as (i & <- & Hi). apply in_seq in Hi. repeat (apply Forall_cons; [apply small_float; lia|]). constructor.
      * apply small_float. change (fzero (f := int_floats)) with 0%Z. lia.
    + intros l [= <-]. split; [reflexivity|]. apply small_fits; [cbn; lia|vm_compute; reflexivity].
    + intros l [= <-]. repeat constructor.
  - split; [vm_compute; reflexivity|]. split; [vm_compute; reflexivity|]. split; [right; vm_compute; reflexivity|].
    intros l [= <-]. repeat (apply Forall_cons; [apply small_fits; [lia|vm_compute; reflexivity]|]). constructor.
  - repeat (split; [eexists _, _; split; [reflexivity|split; [repeat constructor|cbn; discriminate]]|]). exact I.
Qed.
Example C44_instance : bind (write_nastran (fl := int_floats) str_of_Z "5.3.5" Large Small nas_example) (read_nastran (fl := int_floats) 1) =
  Ok (NasRead (F := int_floats) (nm_points nas_example) (nm_cells nas_example) (nm_prefs nas_example) (nm_crefs nas_example) (map Z.of_nat (seq 1 20)) [[1;2];[3;4];[5];[6];[7]]%Z).
Proof. now vm_compute. Qed.
Example C44_lines : option_map (firstn 3) (match write_nastran (fl := int_floats) str_of_Z "5.3.5" Small Small (NasMesh (F := int_floats) 3 [] [Block "quad8" [[9;1;2;3;4;5;6;7]]]%Z None None) with Ok f => Some (skipn 2 f) | Err _ => None end) =
  Some ["CQUAD8  1               10      2       3       4       5       6       +11     "; "+11     7       8       "; "ENDDATA"]%string.
Proof. now vm_compute. Qed.
