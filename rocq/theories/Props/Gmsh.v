(** Property theorems for the Gmsh formats: C22, C23, C26, C60. *)
From Verif.Lib Require Import Base Facts Text TextFacts Lines LinesFacts.
From Verif.Model Require Import Core Gmsh Gmsh22.
From Verif.Spec Require Import Core Blocks Gmsh Gmsh22.
From Verif.Proofs Require Import Gmsh Gmsh22 Gmsh22File.

(** C22: node orders, in both directions, for every type and every row of the type's
    width. *)
Theorem C22_meshio_gmsh_meshio {A} t (row : list A) :
  (forall n, dget t num_nodes_per_cell = Some n -> length row = n) ->
  exists r, meshio_to_gmsh_order t row = Ok r /\ length r = length row /\ gmsh_to_meshio_order t r = Ok row.
Proof.
  intros H. apply apply_order_inverse; [exact gmsh_tables|]. intros p Hp. apply H. now apply ordering_widths'.
Qed.
Print Assumptions C22_meshio_gmsh_meshio.

Theorem C22_gmsh_meshio_gmsh {A} t (row : list A) :
  (forall n, dget t num_nodes_per_cell = Some n -> length row = n) ->
  exists r, gmsh_to_meshio_order t row = Ok r /\ length r = length row /\ meshio_to_gmsh_order t r = Ok row.
Proof.
  intros H. apply apply_order_inverse; [exact meshio_tables|]. intros p Hp. apply H. now apply ordering_widths.
Qed.
Print Assumptions C22_gmsh_meshio_gmsh.

(** The conversion respects where the nodes sit: the list of edge, face and cell midpoints
    in Gmsh's documented order becomes the list in VTK's order, and conversely. *)
Theorem C22_node_positions t g m : dget t gmsh_support = Some g -> dget t meshio_support = Some m ->
  gmsh_to_meshio_order t g = Ok m /\ meshio_to_gmsh_order t m = Ok g.
Proof.
  intros Hg Hm.
  assert (C : forallb (fun t => match dget t gmsh_support, dget t meshio_support with
     | Some g, Some m =>
         match gmsh_to_meshio_order t g, meshio_to_gmsh_order t m with
         | Ok m', Ok g' => if list_eq_dec (list_eq_dec Nat.eq_dec) m m' then
                             if list_eq_dec (list_eq_dec Nat.eq_dec) g g' then true else false
                           else false
         | _, _ => false
         end
     | _, _ => true
     end) (dkeys gmsh_support) = true) by now vm_compute.
  rewrite forallb_forall in C. specialize (C t (dget_Some_key _ _ _ Hg)). rewrite Hg, Hm in C.
  destruct (gmsh_to_meshio_order t g); [|discriminate]. destruct (meshio_to_gmsh_order t m); [|discriminate].
  destruct (list_eq_dec _ m a); [|discriminate]. destruct (list_eq_dec _ g a0); [|discriminate]. now subst.
Qed.
Print Assumptions C22_node_positions.

Example C22_instance :
  let row := map Z.of_nat (seq 100 20) in
  (forall n, dget "hexahedron20" num_nodes_per_cell = Some n -> length row = n) /\
  meshio_to_gmsh_order "hexahedron20" row <> Ok row /\
  (do r <- meshio_to_gmsh_order "hexahedron20" row; gmsh_to_meshio_order "hexahedron20" r) = Ok row.
Proof.
  repeat split.
  - intros n H. vm_compute in H. injection H as <-. reflexivity.
  - vm_compute. discriminate.
Qed.

(** C26: whatever distinct positive tags the nodes carry, in whatever order, the cells that
    are read refer to the points that carry the tags on the element's line. *)
Theorem C26_sparse_tags tags els rest :
  tags <> [] -> NoDup tags -> Forall (fun t => 1 <= t)%Z tags -> Forall (element_ok tags) els ->
  exists p g,
    read_elements tags (str_of_nat (length els) :: map element_line els ++ "$EndElements" :: rest) =
      Ok (regroup (map (element_cell tags) els), p, g, rest).
Proof.
  intros H1 H2 H3 H4. destruct (read_elements_spec tags els rest H1 H2 H3 H4) as (p & g & E & _). eauto.
Qed.
Print Assumptions C26_sparse_tags.

(** [element_cell] refers to the right points: the point at each position it gives carries
    the tag of the node at that place of the reordered element. *)
Theorem C26_cell_nodes tags e : element_ok tags e ->
  exists ns, gmsh_to_meshio_order (e_type e) (e_nodes e) = Ok ns /\
    Forall2 (fun i n => nth_error tags (Z.to_nat i) = Some n) (snd (element_cell tags e)) ns.
Proof.
  intros (_ & Hn & Ht). destruct (gmsh_order_total _ _ _ Hn eq_refl) as (ns & E1 & _ & E2).
  exists ns. split; [auto|]. cbn [element_cell snd]. rewrite E1.
  assert (H : Forall (fun n => In n tags) ns).
  { apply Forall_forall. intros n Hi. rewrite Forall_forall in Ht. apply Ht. eapply permute_In; eauto. }
  clear - H. induction H as [|n ns Hn H IH]; cbn; constructor; auto. rewrite Nat2Z.id. now apply position_nth.
Qed.
Print Assumptions C26_cell_nodes.

(** The nodes section yields the tags and points of the file, so the two fit together. *)
Theorem C26_nodes {fl : floats} (tags : list Z) (pts : list (list fl)) rest : floats_ok fl ->
  length tags = length pts -> Forall (fun p => length p = 3) pts ->
  read_nodes (str_of_nat (length pts) ::
    map (fun tp => row_line (str_of_Z (fst tp) :: map ffmt (snd tp))) (combine tags pts) ++ "$EndNodes" :: rest) =
  Ok (tags, pts, rest).
Proof. intros H. exact (node_rows_ok H tags pts rest). Qed.
Print Assumptions C26_nodes.

Definition ex_tags : list Z := [70; 3; 12; 5; 900]%Z.
Definition ex_els : list element :=
  [Element "triangle" 4 [7; 8] [900; 12; 3]; Element "triangle" 9 [] [5; 12; 70]; Element "line" 1 [2] [3; 900]]%Z.
Example C26_instance :
  ex_tags <> [] /\ NoDup ex_tags /\ Forall (fun t => 1 <= t)%Z ex_tags /\ Forall (element_ok ex_tags) ex_els /\
  map (element_cell ex_tags) ex_els = [("triangle", [4; 2; 1]); ("triangle", [3; 2; 0]); ("line", [1; 4])]%Z%string.
Proof.
  split; [discriminate|]. split; [|split; [|split; [|reflexivity]]].
  - unfold ex_tags. repeat (constructor; [cbn; intuition lia|]). constructor.
  - unfold ex_tags. repeat (constructor; [lia|]). constructor.
  - unfold ex_els. repeat (constructor; [split; [eexists; reflexivity|]; split; [reflexivity|];
      cbn [e_nodes]; repeat (constructor; [cbn; intuition|]); constructor|]). constructor.
Qed.

(** C23: everything that is read from a written MSH 2.2 file, for every mesh that fits the
    format.  Points are padded to three coordinates; the third column of tags ("cell_tags")
    is not read; missing tags come back as zeros.  Reading fails with ValueError exactly when
    there is further cell data that does not happen to fit blocks of two cells. *)
Theorem C23_roundtrip_partial {fl : floats} (m : gmesh fl) : floats_ok fl -> msh22_mesh m ->
  exists lines body names, write22 m = Ok lines /\ read_header lines = Ok ("2.2"%string, true, body) /\
    (forall k, dget k names = dget k (g_names m)) /\
    read22 body =
      if match g_cdata m with [] => true | _ => splittable m end
      then Ok (GMesh (map pad3 (g_points m)) (merged m) (tags_read m (g_phys m)) (tags_read m (g_geom m)) None
                 names (g_periodic m) (g_pdata m)
                 (map (fun kv => (fst kv, data_for (merged m) (concat (snd kv)))) (g_cdata m)))
      else Err ValueError.
Proof. intros H. exact (msh22_roundtrip H m). Qed.
Print Assumptions C23_roundtrip_partial.

(** The blocks that are read hold the cells of the mesh in order. *)
Theorem C23_cells {fl : floats} (m : gmesh fl) : all_cells (merged m) = all_cells (g_cells m).
Proof. exact (Blocks.regroup_cells _). Qed.
Print Assumptions C23_cells.

(** Instances: two blocks of triangles that merge, one of tetrahedra, with tags, names, a
    periodic link and point data; the same with cell data. *)
Definition ex_mesh22 (cd : dict (list (list (list Z)))) : gmesh int_floats :=
  @GMesh int_floats [[0; 0; 0]; [1; 0; 0]; [0; 1; 0]; [0; 0; 1]]%Z
    [Block "triangle" [[0; 1; 2]]; Block "triangle" [[1; 2; 3]]; Block "tetra" [[0; 1; 2; 3]; [3; 2; 1; 0]; [0; 1; 3; 2]]]%Z
    (Some [[5]; [6]; [7; 7; 8]]%Z) None None [("wall of stone", (5, 2)); ("air", (7, 3))]%Z
    (Some [@Periodic int_floats 0 1 2 None [(0, 1)]; @Periodic int_floats 1 1 2 (Some [1; 0; 0; 1]) []]%Z)
    [("u", [[1]; [2]; [3]; [4]])]%Z cd.
Definition ex_cdata22 : dict (list (list (list Z))) := [("c", [[[1]]; [[2]]; [[3]; [4]; [5]]])]%Z.

Lemma ex_mesh22_ok cd : NoDup (dkeys cd) -> Forall plain_name (dkeys cd) ->
  Forall (fun kv => per_cell (g_cells (ex_mesh22 [])) (snd kv) /\ @gmsh_rows int_floats (concat (snd kv))) cd ->
  msh22_mesh (ex_mesh22 cd).
Proof.
  intros H1 H2 H3. constructor.
  - discriminate.
  - unfold ex_mesh22. cbn [g_points]. repeat (constructor; [now right|]). constructor.
  - unfold ex_mesh22. cbn [g_cells]. repeat (constructor; [eexists _, _; split; [reflexivity|split; [reflexivity|]];
      unfold rows_have; cbn [bdata]; repeat (constructor; [reflexivity|]); constructor|]). constructor.
  - unfold ex_mesh22, indices_below. cbn [g_cells g_points length].
    repeat (constructor; [cbn [bdata]; repeat (constructor; [repeat (constructor; [lia|]); constructor|]); constructor|]).
    constructor.
  - intros d E. injection E as <-. repeat (constructor; [reflexivity|]). constructor.
  - discriminate.
  - discriminate.
  - split; [|repeat (constructor; [repeat split|]); constructor].
    cbn. repeat (constructor; [cbn; intuition discriminate|]). constructor.
  - intros ps E. injection E as <-. repeat (constructor; [discriminate|]). constructor.
  - split; repeat (constructor; [repeat split; auto|]); constructor.
  - cbn [g_pdata ex_mesh22]. constructor; [|constructor]. split; [reflexivity|]. exists 1. split; [now left|].
    repeat (constructor; [reflexivity|]). constructor.
  - auto.
  - cbn [g_cdata ex_mesh22]. eapply Forall_impl; [|exact H3]. intros kv [A B]. split; [discriminate|]. auto.
  - cbn [g_cells ex_mesh22]. repeat (constructor; [eexists; reflexivity|]). constructor.
Qed.

Example C23_instance :
  floats_ok int_floats /\ msh22_mesh (ex_mesh22 []) /\ msh22_mesh (ex_mesh22 ex_cdata22) /\
  splittable (ex_mesh22 ex_cdata22) = true /\
  merged (ex_mesh22 []) = [Block "triangle" [[0; 1; 2]; [1; 2; 3]]; Block "tetra" [[0; 1; 2; 3]; [3; 2; 1; 0]; [0; 1; 3; 2]]]%Z /\
  (do l <- write22 (ex_mesh22 ex_cdata22); do h <- read_header l; do r <- @read22 int_floats (snd h); Ok (g_phys r, g_cdata r)) =
    Ok (Some [[5; 6]; [7; 7; 8]]%Z, [("c", [[[1]; [2]]; [[3]; [4]; [5]]])]%Z).
Proof.
  split; [exact int_floats_ok|]. split; [|split; [|split; [|split]]].
  - apply ex_mesh22_ok; constructor.
  - apply ex_mesh22_ok.
    + cbn. constructor; [intros []|constructor].
    + repeat (constructor; [repeat split|]). constructor.
    + constructor; [|constructor]. split.
      * repeat (constructor; [reflexivity|]). constructor.
      * exists 1. split; [now left|]. repeat (constructor; [reflexivity|]). constructor.
  - reflexivity.
  - reflexivity.
  - now vm_compute.
Qed.

(** The property without the restriction on cell data fails: one triangle and one quad with
    a value each. *)
Definition bad_mesh22 : gmesh int_floats :=
  @GMesh int_floats [[0; 0; 0]; [1; 0; 0]; [1; 1; 0]; [0; 1; 0]]%Z
    [Block "triangle" [[0; 1; 2]]; Block "quad" [[0; 1; 2; 3]]]%Z
    None None None [] None [] [("c", [[[1]]; [[2]]])]%Z.
Theorem C23_refuted : ~ (forall m : gmesh int_floats, msh22_mesh m ->
  exists lines body r, write22 m = Ok lines /\ read_header lines = Ok ("2.2"%string, true, body) /\ @read22 int_floats body = Ok r).
Proof.
  intros H. assert (V : msh22_mesh bad_mesh22).
  { constructor; try discriminate; try (split; repeat (constructor; [cbn; try tauto; repeat split|]); constructor).
    - unfold bad_mesh22. cbn [g_points]. repeat (constructor; [now right|]). constructor.
    - unfold bad_mesh22. cbn [g_cells]. repeat (constructor; [eexists _, _; split; [reflexivity|split; [reflexivity|]];
        unfold rows_have; cbn [bdata]; repeat (constructor; [reflexivity|]); constructor|]). constructor.
    - unfold bad_mesh22, indices_below. cbn [g_cells g_points length].
      repeat (constructor; [cbn [bdata]; repeat (constructor; [repeat (constructor; [lia|]); constructor|]); constructor|]).
      constructor.
    - constructor.
    - constructor; [|constructor]. split; [discriminate|]. split.
      * repeat (constructor; [reflexivity|]). constructor.
      * exists 1. split; [now left|]. repeat (constructor; [reflexivity|]). constructor.
    - repeat (constructor; [eexists; reflexivity|]). constructor. }
  destruct (H bad_mesh22 V) as (l & b & r & H1 & H2 & H3).
  vm_compute in H1. injection H1 as <-. vm_compute in H2. injection H2 as <-. vm_compute in H3. discriminate.
Qed.
Print Assumptions C23_refuted.

(** C60: physical names. *)
Theorem C60_physical_names fd rest : NoDup (dkeys fd) -> Forall plain_name (dkeys fd) -> fd <> [] ->
  exists fd', read_physical_names [] (tl (write_physical_names fd ++ rest)) = Ok (fd', rest) /\
    (forall k, dget k fd' = dget k fd) /\ hd "" (write_physical_names fd) = "$PhysicalNames".
Proof. exact (physical_names_ok fd rest). Qed.
Print Assumptions C60_physical_names.

Example C60_instance :
  let fd := [("b 'x y", (5, 2)); ("", (-3, 1)); ("a", (5, 0))]%Z%string in
  NoDup (dkeys fd) /\ Forall plain_name (dkeys fd) /\
  length (write_physical_names fd) = 6.
Proof.
  split; [|split; [|reflexivity]].
  - cbn. repeat (constructor; [cbn; intuition discriminate|]). constructor.
  - cbn. repeat (constructor; [repeat split|]). constructor.
Qed.

(** A name with a backslash is not restored. *)
Example C60_backslash :
  exists l, nth_error (write_physical_names [("a\\b", (1, 1))]%Z%string) 2 = Some l /\
    read_physical_name l = Ok ("a\b", (1, 1))%Z%string.
Proof. eexists. split; [reflexivity|]. now vm_compute. Qed.
