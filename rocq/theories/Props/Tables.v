(** C58: the type tables of the formats.  C51: MDPA files. *)
From Verif.Lib Require Import Base Facts Text Lines.
From Verif.Model Require Import Core Tables Gmsh Vtk Abaqus Xdmf Su2 Medit Exodus Snoc Mdpa.
From Verif.Spec Require Import Core Blocks Tables Mdpa.
From Verif.Proofs Require Import Mdpa.

(** ** C58 *)

(** A table made by exchanging keys and values agrees with the table it is made from, whatever the table. *)
Theorem C58_inverted (d : dict string) : NoDup (dkeys d) -> tables_agree (fun t => dget t (invert d)) (fun c => dget c d).
Proof.
  intros N t c H. apply dget_In in H. unfold invert in H. apply in_rev in H. apply in_map_iff in H as ([k v] & E & H). injection E as <- <-.
  now apply In_dget.
Qed.
Print Assumptions C58_inverted.
(** If no two keys share a value, it can be used in the other direction, too. *)
Theorem C58_injective (d : dict string) : NoDup (dkeys d) -> NoDup (dvals d) -> tables_agree (fun t => dget t d) (fun c => dget c (invert d)).
Proof.
  intros N M t c H. apply dget_In in H. apply In_dget.
  - unfold dkeys, invert. rewrite map_rev, map_map. cbn [fst]. apply NoDup_rev. exact M.
  - unfold invert. apply in_rev. rewrite rev_involutive. apply in_map_iff. exists (t, c). auto.
Qed.
Print Assumptions C58_injective.

Lemma agree_check {C} (to : dict C) back : forallb (fun kv => match back (snd kv) with Some t => String.eqb t (fst kv) | None => false end) to = true ->
  tables_agree (fun t => dget t to) back.
Proof.
  intros H t c E. rewrite forallb_forall in H. specialize (H _ (dget_In _ _ _ E)). cbn [fst snd] in H.
  destruct (back c) as [t'|]; [|discriminate]. now apply String.eqb_eq in H as ->.
Qed.
Definition opt_nat_eqb (a b : option nat) : bool :=
  match a, b with Some x, Some y => Nat.eqb x y | None, None => true | _, _ => false end.
Lemma nodes_check {C} (to : dict C) nodes :
  forallb (fun kv => opt_nat_eqb (nodes (snd kv)) (dget (fst kv) num_nodes_per_cell)) to = true -> nodes_agree (fun t => dget t to) nodes.
Proof.
  intros H t c E. rewrite forallb_forall in H. specialize (H _ (dget_In _ _ _ E)). cbn [fst snd] in H. unfold opt_nat_eqb in H.
  destruct (nodes c), (dget t num_nodes_per_cell); try discriminate; auto. now apply Nat.eqb_eq in H as ->.
Qed.

(** The tables of the formats, except Tecplot and FLAC3D. *)
Theorem C58_tables_partial :
  tables_agree (fun t => dget t meshio_to_gmsh_type) (fun c => zget c gmsh_to_meshio_type) /\
  tables_agree (fun t => dget t meshio_to_vtk_type) (fun c => zget c vtk_to_meshio_type) /\
  tables_agree (fun t => dget t meshio_to_abaqus_type) (fun c => dget c abaqus_to_meshio_type) /\
  tables_agree (fun t => option_map (hd ""%string) (dget t meshio_to_xdmf_type)) (fun c => dget c xdmf_to_meshio_type) /\
  tables_agree (fun t => dget t meshio_type_to_xdmf_index) (fun c => zget c xdmf_idx_to_meshio_type) /\
  tables_agree (fun t => dget t meshio_to_su2) su2_name /\
  tables_agree (fun t => dget t names_from_meshio) (fun c => option_map fst (dget c medit_names)) /\
  tables_agree (fun t => dget t medit_keys)
    (fun c => match zget c medit_codes with Some (n, _, _) => option_map fst (dget n meshio_from_medit) | None => None end) /\
  tables_agree (fun t => dget t meshio_to_exodus_type) (fun c => dget (upper c) exodus_to_meshio_type) /\
  tables_agree (fun t => dget t meshio_to_mdpa_type) (fun c => dget c mdpa_to_meshio_type) /\
  tables_agree (fun t => dget t meshio_to_nastran_type) (fun c => dget c nastran_to_meshio_type) /\
  tables_agree (fun t => dget t meshio_to_permas_type) (fun c => dget c permas_to_meshio_type) /\
  tables_agree (fun t => dget t meshio_to_avsucd_type) (fun c => dget c avsucd_to_meshio_type) /\
  tables_agree (fun t => dget t meshio_to_med_type) (fun c => dget c med_to_meshio_type) /\
  tables_agree (fun t => dget t meshio_to_h5m_type) (fun c => dget c h5m_to_meshio_type) /\
  tables_agree (fun t => dget t meshio_to_dolfin_type) (fun c => option_map fst (dget c dolfin_to_meshio_type)) /\
  tables_agree (fun t => dget t meshio_to_ansys_type) (fun c => option_map fst (zget c ansys_to_meshio_type)).
Proof.
  repeat match goal with |- _ /\ _ => split end; try (apply agree_check; vm_compute; reflexivity).
  intros t c H. destruct (dget t meshio_to_xdmf_type) as [l|] eqn:E; [|discriminate]. cbn in H. injection H as <-.
  apply dget_In in E.
  assert (X : forallb (fun kv => match dget (hd "" (snd kv)) xdmf_to_meshio_type with Some t => String.eqb t (fst kv) | None => false end)%string meshio_to_xdmf_type = true)
    by (vm_compute; reflexivity).
  rewrite forallb_forall in X. specialize (X _ E). cbn [fst snd] in X.
  destruct (dget (hd ""%string l) xdmf_to_meshio_type) as [t'|]; [|discriminate]. now apply String.eqb_eq in X as ->.
Qed.
Print Assumptions C58_tables_partial.

(** Numbers of nodes that formats store beside the type. *)
Theorem C58_nodes :
  nodes_agree (fun t => dget t meshio_to_su2) su2_numnodes /\
  nodes_agree (fun t => dget t names_from_meshio) (fun c => option_map snd (dget c medit_names)) /\
  nodes_agree (fun t => dget t medit_keys)
    (fun c => match zget c medit_codes with Some (n, _, _) => option_map snd (dget n meshio_from_medit) | None => None end) /\
  nodes_agree (fun t => dget t meshio_to_ansys_type) (fun c => option_map snd (zget c ansys_to_meshio_type)) /\
  nodes_agree (fun t => dget t meshio_to_dolfin_type) (fun c => option_map snd (dget c dolfin_to_meshio_type)).
Proof. repeat match goal with |- _ /\ _ => split end; apply nodes_check; vm_compute; reflexivity. Qed.
Print Assumptions C58_nodes.

(** In Netgen and FLAC3D files the type of a cell is given by its dimension and number of nodes (not all
    of the types have a dimension in meshio, see C59). *)
Theorem C58_by_count (d : Z) (n : Z) (t : string) :
  zget n (match d with 0 => netgen0d_to_meshio_type | 1 => netgen1d_to_meshio_type | 2 => netgen2d_to_meshio_type | 3 => netgen3d_to_meshio_type | _ => [] end)%Z = Some t \/
  zget n (match d with 2 => flac3d_face_nodes | 3 => flac3d_zone_nodes | _ => [] end)%Z = Some t ->
  (forall k, cellblock_dim t = Ok k -> k = Z.to_nat d) /\ option_map Z.of_nat (dget t num_nodes_per_cell) = Some n.
Proof.
  assert (G : forall (tab : zdict string) k, zget n tab = Some t ->
    forallb (fun kv => match cellblock_dim (snd kv), dget (snd kv) num_nodes_per_cell with
                       | Ok k', Some m => Nat.eqb k' k && Z.eqb (Z.of_nat m) (fst kv) | Err _, Some m => Z.eqb (Z.of_nat m) (fst kv) | _, None => false end) tab = true ->
    (forall k', cellblock_dim t = Ok k' -> k' = k) /\ option_map Z.of_nat (dget t num_nodes_per_cell) = Some n).
  { intros tab k H X. rewrite forallb_forall in X. assert (I : In (n, t) tab).
    { clear X. induction tab as [|[a b] tab IH]; [discriminate|]. cbn in H. destruct (Z.eqb_spec n a) as [->|]; [injection H as ->; now left|right; auto]. }
    specialize (X _ I). cbn [fst snd] in X. destruct (dget t num_nodes_per_cell) as [m|]; [|now destruct (cellblock_dim t)]. destruct (cellblock_dim t) as [k'|].
    - apply andb_true_iff in X as [A B]. apply Nat.eqb_eq in A as ->. apply Z.eqb_eq in B as <-. split; [congruence|reflexivity].
    - apply Z.eqb_eq in X as <-. split; [discriminate|reflexivity]. }
  intros [H|H].
  - destruct d as [|[[p|p|]|[p|p|]|]|p]; try discriminate; eapply G; try exact H; vm_compute; reflexivity.
  - destruct d as [|[[p|p|]|[p|p|]|]|p]; try discriminate; eapply G; try exact H; vm_compute; reflexivity.
Qed.
Print Assumptions C58_by_count.

(** Tecplot has no pyramids and wedges: they come back as hexahedra. *)
Theorem C58_tecplot_refuted : exists t c, dget t meshio_to_tecplot_type = Some c /\ dget c tecplot_to_meshio_type = Some "hexahedron"%string /\ t <> "hexahedron"%string.
Proof. exists "pyramid"%string, "FEBRICK"%string. repeat split; discriminate. Qed.
Print Assumptions C58_tecplot_refuted.
Theorem C58_tecplot_others : forall t c, dget t meshio_to_tecplot_type = Some c -> t <> "pyramid"%string -> t <> "wedge"%string ->
  dget c tecplot_to_meshio_type = Some t.
Proof.
  intros t c H A B. apply dget_In in H. repeat (destruct H as [H|H]; [injection H as <- <-; try congruence; reflexivity|]). destruct H.
Qed.
Print Assumptions C58_tecplot_others.
(** FLAC3D: cells of higher order are accepted and come back as first order cells with fewer nodes. *)
Theorem C58_flac3d_refuted : exists t t' n, dget t flac3d_zones = Some t' /\ t' <> t /\ dget t num_nodes_per_cell = Some n /\ dget t' num_nodes_per_cell <> Some n.
Proof. exists "tetra10"%string, "tetra"%string, 10. repeat split; discriminate. Qed.
Print Assumptions C58_flac3d_refuted.
(** Exodus: some types in the table are not known to meshio at all. *)
Theorem C58_unknown_refuted : exists c t, dget c exodus_to_meshio_type = Some t /\ cellblock_dim t = Err KeyError.
Proof. exists "TET4"%string, "tetra4"%string. split; reflexivity. Qed.
Print Assumptions C58_unknown_refuted.

Example C58_example : dget "hexahedron20"%string meshio_to_nastran_type = Some "CHEXA_"%string /\ dget "line"%string meshio_to_permas_type = Some "FSCPIPE2"%string.
Proof. split; vm_compute; reflexivity. Qed.

(** ** C51: MDPA *)

(** Whatever name the writer chooses for a block, in two or three dimensions, the reader turns the lines of the block into cells of that type. *)
Theorem C51_names (t : string) (w d : nat) (dim3 : bool) : In (t, (w, d)) mdpa_types -> (d = 3 -> dim3 = true) ->
  exists n, entity_name dim3 t = Ok n /\
    forall bs k rows rest, Forall (fun c => length c = w) rows ->
      read_mdpa_cells ("Begin Elements " ++ n) bs (map elem_line (combine (seq k (length rows)) rows) ++ "End Elements"%string :: rest)
      = Ok (fold_left (fun bs tc => snoc_cell bs (fst tc) (snd tc)) (map (pair t) rows) bs, rest).
Proof.
  intros H Hd. destruct (names_ok t w d dim3 H Hd) as (n & E & _). exists n. split; [exact E|]. intros bs k rows rest Hr. now apply (read_cells_ok dim3 t w d).
Qed.
Print Assumptions C51_names.

(** Files with any blocks, point data and cell data: points (in space) and cells come back, neighbouring blocks of the same type in one. *)
Theorem C51_roundtrip (fl : floats) (m : mdpa_mesh fl) : floats_ok fl -> mdpa_floats fl ->
  Forall (fun p => length p = 2 \/ length p = 3) (mm_points m) -> Forall mdpa_block (mm_cells m) ->
  exists file, write_mdpa m = Ok file /\ read_mdpa file = Ok (map in_space (mm_points m), regroup (all_cells (mm_cells m))).
Proof. intros A B C D. now apply mdpa_roundtrip. Qed.
Print Assumptions C51_roundtrip.

Lemma mdpa_int_floats : mdpa_floats int_floats.
Proof.
  split; intros k.
  - apply Gmsh.char_in_str_of_Z; [reflexivity|discriminate].
  - exists (Z.of_nat k). cbn [int_floats fparse]. rewrite LinesFacts.str_of_nat_Z. apply TextFacts.parse_Z_str_of_Z.
Qed.
Example C51_example :
  let m := MdpaMesh [[0; 0]; [1; 0]; [0; 1]; [2; 2]]%Z [Block "line3" [[0; 1; 2]]; Block "triangle" []; Block "line3" [[1; 2; 3]]; Block "triangle" [[0; 1; 2]]]%Z
             [("u", [["1"]; ["2"]; ["3"]; ["4"]])]%string [] in
  Forall (fun p => length p = 2 \/ length p = 3) (mm_points m) /\ Forall mdpa_block (mm_cells m) /\
  exists file, write_mdpa (fl := int_floats) m = Ok file /\
    read_mdpa (fl := int_floats) file = Ok ([[0; 0; 0]; [1; 0; 0]; [0; 1; 0]; [2; 2; 0]]%Z, [Block "line3" [[0; 1; 2]; [1; 2; 3]]; Block "triangle" [[0; 1; 2]]]%Z).
Proof.
  cbv zeta. split; [|split].
  - repeat constructor.
  - cbn [mm_cells]. repeat (apply Forall_cons; [eexists _, _; split; [cbn; intuition reflexivity|repeat constructor]|]). apply Forall_nil.
  - eexists. split; vm_compute; reflexivity.
Qed.
(** In three dimensions line3 gets a name that is not in the table of the reader; the number of nodes decides. *)
Example C51_example_fallback : entity_name true "line3" = Ok "Line3D3"%string /\ entity_type "Begin Elements Line3D3" = None /\ zget 3%Z inverse_num_nodes = Some "line3"%string.
Proof. repeat split; vm_compute; reflexivity. Qed.

(** VTK 4.2: where the table of the reader gives a number of nodes for a code, it is that of the type. *)
Theorem C58_vtk_nodes (t : string) (c k : Z) : dget t meshio_to_vtk_type = Some c ->
  nth_error vtk_type_to_numnodes (Z.to_nat c) = Some k -> (0 < k)%Z -> forall n, dget t num_nodes_per_cell = Some n -> Z.of_nat n = k.
Proof.
  intros H E P n N. apply dget_In in H.
  assert (X : forallb (fun kv => match nth_error vtk_type_to_numnodes (Z.to_nat (snd kv)), dget (fst kv) num_nodes_per_cell with
     | Some k, Some n => Z.leb k 0 || Z.eqb (Z.of_nat n) k | _, _ => true end) meshio_to_vtk_type = true) by (vm_compute; reflexivity).
  rewrite forallb_forall in X. specialize (X _ H). cbn [fst snd] in X. rewrite E, N in X. apply orb_true_iff in X as [X|X]; [apply Z.leb_le in X; lia|now apply Z.eqb_eq].
Qed.
Print Assumptions C58_vtk_nodes.
