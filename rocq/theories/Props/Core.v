(** Property theorems for the mesh object: C01-C10, C59. *)
From Coq Require Import Sorting.Sorted.
From Verif.Lib Require Import Base Facts Text TextFacts.
From Verif.Model Require Import Core.
From Verif.Spec Require Import Core.
From Verif.Proofs Require Import Core CoreSets CoreMisc.

(** C01: a mesh is constructed exactly from consistent arguments, and then holds them
    unchanged. *)
Theorem C01_constructor {F} (pts : list F) cs pd cd ps csets m :
  mk_mesh pts cs pd cd ps csets = Ok m <->
  consistent pts cs pd cd /\
  m = Mesh pts (map (fun c => Block (fst c) (snd c)) cs) pd cd ps csets.
Proof. exact (mk_mesh_ok pts cs pd cd ps csets m). Qed.
Print Assumptions C01_constructor.

Example C01_accepts :
  is_ok (mk_mesh [tt; tt; tt] [("triangle", [[0; 1; 2]%Z]); ("line", [[0; 1]; [1; 2]]%Z)]
    [("a", AOther [tt; tt; tt])] [("c", [AInt [7%Z]; AInt [8; 9]%Z])] [] []) = true.
Proof. reflexivity. Qed.
Example C01_rejects :
  mk_mesh [tt; tt; tt] [("triangle", [[0; 1; 2]%Z]); ("line", [[0; 1]; [1; 2]]%Z)]
    [] [("c", [AInt [7; 8]%Z; AInt [9%Z]])] [] [] = Err ValueError.
Proof. reflexivity. Qed.

(** C02 *)
Theorem C02_cells_dict t bs :
  (In t (map btype bs) -> dget t (cells_dict bs) = Some (cells_of t bs)) /\
  (~ In t (map btype bs) -> dget t (cells_dict bs) = None).
Proof. exact (cells_dict_get t bs). Qed.
Print Assumptions C02_cells_dict.

Theorem C02_cells_dict_keys bs : map fst (cells_dict bs) = first_occurrences (map btype bs).
Proof. exact (cells_dict_keys bs). Qed.
Print Assumptions C02_cells_dict_keys.

Theorem C02_get_cells_type t bs :
  (In t (map btype bs) \/ In t (map fst num_nodes_per_cell) ->
     get_cells_type bs t = Ok (cells_of t bs)) /\
  (~ In t (map btype bs) -> ~ In t (map fst num_nodes_per_cell) ->
     get_cells_type bs t = Err KeyError).
Proof. exact (get_cells_type_spec t bs). Qed.
Print Assumptions C02_get_cells_type.

Theorem C02_position bs j b k c :
  nth_error bs j = Some b -> nth_error (bdata b) k = Some c ->
  nth_error (cells_of (btype b) bs) (type_offset (btype b) bs j + k) = Some c.
Proof. exact (cells_of_position bs j b k c). Qed.
Print Assumptions C02_position.

Definition bs0 : list block :=
  [Block "triangle" [[0; 1; 2]; [1; 2; 3]]%Z; Block "line" [[0; 1]%Z];
   Block "triangle" [[2; 3; 4]%Z]].
Example C02_ex : cells_dict bs0 =
  [("triangle", [[0; 1; 2]; [1; 2; 3]; [2; 3; 4]]%Z); ("line", [[0; 1]%Z])].
Proof. reflexivity. Qed.

(** C03 *)
Theorem C03_cell_data_dict_position {V} bs (data : list (list V)) j b d k v :
  Forall2 (fun b d => length d = blen b) bs data ->
  nth_error bs j = Some b -> nth_error data j = Some d -> nth_error d k = Some v ->
  exists vs, dget (btype b) (cell_data_dict1 bs data) = Some vs /\
    length vs = length (cells_of (btype b) bs) /\
    nth_error vs (type_offset (btype b) bs j + k) = Some v.
Proof. exact (cell_data_dict_position bs data j b d k v). Qed.
Print Assumptions C03_cell_data_dict_position.

Theorem C03_get_cell_data {V} bs (cd : dict (list (list V))) name data t :
  dget name cd = Some data -> length data = length bs -> In t (map btype bs) ->
  exists vs, get_cell_data bs cd name t = Ok vs /\ dget t (cell_data_dict1 bs data) = Some vs.
Proof. exact (get_cell_data_agrees bs cd name data t). Qed.
Print Assumptions C03_get_cell_data.

Example C03_ex : cell_data_dict bs0 [("u", [[10; 11]; [12]; [13]])] =
  [("u", [("triangle", [10; 11; 13]); ("line", [12])])].
Proof. reflexivity. Qed.

(** C04, for types none of whose blocks has the entry None; [type_offset] counts all
    earlier cells of the type.  What is missing is the case of None entries, for which
    the property is false (next theorem). *)
Theorem C04_cell_sets_dict_partial bs members t i :
  length members = length bs ->
  (forall j b, nth_error bs j = Some b -> btype b = t -> nth_error members j <> Some None) ->
  (exists l, dget t (cell_sets_dict1 bs members) = Some l /\ In i l) <->
  (exists j b m, nth_error bs j = Some b /\ btype b = t /\ member members j m /\
     i = type_offset t bs j + m).
Proof. exact (cell_sets_dict1_members bs members t i). Qed.
Print Assumptions C04_cell_sets_dict_partial.

Example C04_ex : cell_sets_dict1 bs0 [Some [1]; None; Some [0]] = [("triangle", [1; 2])].
Proof. reflexivity. Qed.

(** A block whose entry is None does not advance the offset, so later members are
    reported at the wrong position. *)
Theorem C04_cell_sets_dict_refuted :
  ~ (forall bs members t i,
       length members = length bs ->
       (exists l, dget t (cell_sets_dict1 bs members) = Some l /\ In i l) <->
       (exists j b m, nth_error bs j = Some b /\ btype b = t /\ member members j m /\
          i = type_offset t bs j + m)).
Proof.
  intros H.
  specialize (H [Block "triangle" [[0; 1; 2]; [1; 2; 3]]%Z; Block "triangle" [[2; 3; 4]%Z]]
                [None; Some [0]] "triangle" 2 eq_refl).
  destruct H as [_ H].
  destruct H as (l & Hl & Hi).
  - exists 1. eexists. exists 0. cbn. split; [reflexivity|]. split; [reflexivity|].
    split; [|reflexivity]. exists [0]. cbn. auto.
  - vm_compute in Hl. injection Hl as <-. cbn in Hi. lia.
Qed.
Print Assumptions C04_cell_sets_dict_refuted.

(** C05 *)
Theorem C05_cell_sets_to_data {F} (m : mesh F) dn :
  cell_sets m <> [] -> sets_fit (map snd (cell_sets m)) (cells m) ->
  exists f,
    cell_sets_to_data dn m = Ok (Mesh (points m) (cells m) (point_data m)
       (dset (match dn with Some n => n | None => join "-" (map fst (cell_sets m)) end)
             (map AInt f) (cell_data m)) (point_sets m) []) /\
    Forall2 (fun v b => length v = blen b) f (cells m) /\
    forall j b k, nth_error (cells m) j = Some b -> k < blen b ->
      exists v z, nth_error f j = Some v /\ length v = blen b /\ nth_error v k = Some z /\
        ((exists i, last_set_containing (map snd (cell_sets m)) j k i /\ z = Z.of_nat i) \/
         (in_no_set (map snd (cell_sets m)) j k /\ z = (-1)%Z)).
Proof. exact (cell_sets_to_data_values m dn). Qed.
Print Assumptions C05_cell_sets_to_data.

Theorem C05_roundtrip {F} (m : mesh F) :
  cell_sets m <> [] ->
  sets_fit (map snd (cell_sets m)) (cells m) ->
  partitions (map snd (cell_sets m)) (cells m) ->
  NoDup (map fst (cell_sets m)) -> Forall no_dash (map fst (cell_sets m)) ->
  ~ In (join "-" (map fst (cell_sets m))) (map fst (cell_data m)) ->
  (forall s e, In s (map snd (cell_sets m)) -> In e s -> exists l, e = Some l /\ StronglySorted lt l) ->
  exists m1, cell_sets_to_data None m = Ok m1 /\
    cell_data_to_sets (join "-" (map fst (cell_sets m))) m1 = Ok m.
Proof. exact (cell_sets_roundtrip_exact m). Qed.
Print Assumptions C05_roundtrip.

Definition m5 : mesh unit :=
  Mesh (repeat tt 5) bs0 [] []
    [("left", [0; 1]); ("right", [2; 3; 4])]
    [("a", [Some [1]; Some []; Some [0]]); ("b", [Some [0]; Some [0]; Some []])].
Example C05_ex : cell_sets_to_data None m5 =
  Ok (Mesh (repeat tt 5) bs0 [] [("a-b", [AInt [1; 0]; AInt [1]; AInt [0]]%Z)]
       [("left", [0; 1]); ("right", [2; 3; 4])] []).
Proof. reflexivity. Qed.
Example C05_ex_back :
  (do m1 <- cell_sets_to_data None m5; cell_data_to_sets "a-b" m1) = Ok m5.
Proof. reflexivity. Qed.
Example C05_ex_fits : sets_fit (map snd (cell_sets m5)) (cells m5).
Proof.
  intros s [<-|[<-|[]]]; (split; [reflexivity|]); intros j k b Hj [ms [Hm Hin]];
    destruct j as [|[|[|j]]]; cbn in *; try (destruct j; discriminate);
    injection Hj as <-; injection Hm as <-; cbn in *; intuition lia.
Qed.

(** C06 *)
Theorem C06_point_sets_to_data {F} (m : mesh F) jc :
  point_sets m <> [] ->
  (forall s k, In s (map snd (point_sets m)) -> In k s -> k < length (points m)) ->
  exists f,
    point_sets_to_data jc m = Ok (Mesh (points m) (cells m)
       (dset (join jc (map fst (point_sets m))) (AInt f) (point_data m))
       (cell_data m) [] (cell_sets m)) /\
    length f = length (points m) /\
    forall k, k < length (points m) ->
      (exists i s, nth_error (map snd (point_sets m)) i = Some s /\ In k s /\
         (forall i' s', i < i' -> nth_error (map snd (point_sets m)) i' = Some s' -> ~ In k s') /\
         nth_error f k = Some (Z.of_nat i)) \/
      ((forall s, In s (map snd (point_sets m)) -> ~ In k s) /\ nth_error f k = Some (-1)%Z).
Proof. exact (point_sets_to_data_values m jc). Qed.
Print Assumptions C06_point_sets_to_data.

Theorem C06_roundtrip {F} (m : mesh F) :
  point_sets m <> [] ->
  (forall s k, In s (map snd (point_sets m)) -> In k s -> k < length (points m)) ->
  (forall k, k < length (points m) -> exists i,
      (exists s, nth_error (map snd (point_sets m)) i = Some s /\ In k s) /\
      forall i' s, nth_error (map snd (point_sets m)) i' = Some s -> In k s -> i' = i) ->
  (forall s, In s (map snd (point_sets m)) -> s <> []) ->
  NoDup (map fst (point_sets m)) -> Forall no_dash (map fst (point_sets m)) ->
  ~ In (join "-" (map fst (point_sets m))) (map fst (point_data m)) ->
  exists m1 sets,
    point_sets_to_data "-" m = Ok m1 /\
    point_data_to_sets (join "-" (map fst (point_sets m))) m1 =
      Ok (Mesh (points m) (cells m) (point_data m) (cell_data m) sets (cell_sets m)) /\
    map fst sets = map fst (point_sets m) /\
    forall name s, dget name (point_sets m) = Some s ->
      exists s', dget name sets = Some s' /\ StronglySorted lt s' /\
        forall k, In k s' <-> In k s.
Proof. exact (point_sets_roundtrip m). Qed.
Print Assumptions C06_roundtrip.

Example C06_ex :
  (do m1 <- point_sets_to_data "-" m5; point_data_to_sets "left-right" m1) = Ok m5.
Proof. reflexivity. Qed.

(** C07: every distinct value of the integer data becomes one set, which contains exactly
    the cells that carry this value; so the sets cover the cells without overlap. *)
Theorem C07_cell_data_to_sets {F} (m : mesh F) key data :
  dget key (cell_data m) = Some (map AInt data) -> data <> [] -> NoDup (map fst (cell_data m)) ->
  exists m' names tags,
    cell_data_to_sets key m = Ok m' /\
    points m' = points m /\ cells m' = cells m /\ point_data m' = point_data m /\
    point_sets m' = point_sets m /\
    dget key (cell_data m') = None /\
    (forall k, k <> key -> dget k (cell_data m') = dget k (cell_data m)) /\
    StronglySorted Z.lt tags /\
    (forall v, In v tags <-> exists d, In d data /\ In v d) /\
    NoDup names /\ length names = length tags /\
    (forall i name v, nth_error names i = Some name -> nth_error tags i = Some v ->
       exists s, dget name (cell_sets m') = Some s /\ length s = length data /\
         forall j k, member s j k <->
           exists d, nth_error data j = Some d /\ nth_error d k = Some v) /\
    (forall name, ~ In name names -> dget name (cell_sets m') = dget name (cell_sets m)).
Proof. exact (cell_data_to_sets_cover_values m key data). Qed.
Print Assumptions C07_cell_data_to_sets.

Example C07_ex :
  cell_data_to_sets "mat"
    (Mesh [tt] bs0 [] [("mat", [AInt [5; -2]; AInt [5]; AInt [7]]%Z)] [] []) =
  Ok (Mesh [tt] bs0 [] [] []
       [("set-mat--2", [Some [1]; Some []; Some []]);
        ("set-mat-5", [Some [0]; Some [0]; Some []]);
        ("set-mat-7", [Some []; Some []; Some [0]])]).
Proof. reflexivity. Qed.

(** C08 *)
Theorem C08_join_strings l j c :
  l <> [] -> join_strings l = Ok (j, c) -> split_char c j = l.
Proof. exact (join_strings_split l j c). Qed.
Print Assumptions C08_join_strings.

Theorem C08_fails_only_if_all_separators_occur l :
  (exists e, join_strings l = Err e) <->
  (forall c, In c ["-"; "_"; "#"; "+"; "/"]%char ->
     exists s i, In s l /\ String.get i s = Some c).
Proof. exact (join_strings_err l). Qed.
Print Assumptions C08_fails_only_if_all_separators_occur.

Example C08_ex : join_strings ["a-b"; "c d"; ""] = Ok ("a-b_c d_", "_"%char).
Proof. reflexivity. Qed.
Example C08_ex_fail : join_strings ["-_"; "#+/"] = Err AssertionError.
Proof. reflexivity. Qed.

(** C09 *)
Theorem C09_replace_space s t c :
  replace_space s = Ok (t, c) ->
  char_in " " t = false /\ String.length t = String.length s /\ replace_char c " " t = s.
Proof. exact (replace_space_ok s t c). Qed.
Print Assumptions C09_replace_space.

Theorem C09_fails s :
  (exists e, replace_space s = Err e) <->
  (forall c, In c ["_"; "-"; "+"; "X"; "/"; "#"]%char -> char_in c s = true).
Proof. exact (replace_space_err s). Qed.
Print Assumptions C09_fails.

Theorem C09_no_collision s1 s2 t c :
  replace_space s1 = Ok (t, c) -> replace_space s2 = Ok (t, c) -> s1 = s2.
Proof.
  intros H1 H2. apply replace_space_ok in H1. apply replace_space_ok in H2.
  destruct H1 as (_ & _ & <-), H2 as (_ & _ & <-). reflexivity.
Qed.
Print Assumptions C09_no_collision.

Example C09_ex : replace_space "a b_c d" = Ok ("a-b_c-d", "-"%char).
Proof. reflexivity. Qed.

(** C10 *)
Theorem C10_split_concat {A} lens (cd : dict (list (list A))) :
  lens <> [] -> (forall name d, In (name, d) cd -> map (@length A) d = lens) ->
  exists raw, raw_from_cell_data cd = Ok raw /\ cell_data_from_raw lens raw = cd.
Proof. exact (raw_roundtrip lens cd). Qed.
Print Assumptions C10_split_concat.

Theorem C10_concat_split {A} lens (raw : dict (list A)) :
  lens <> [] -> raw_from_cell_data (cell_data_from_raw lens raw) = Ok raw.
Proof. exact (raw_roundtrip_back lens raw). Qed.
Print Assumptions C10_concat_split.

Theorem C10_piece_lengths {A} lens (raw : list A) :
  lens <> [] -> length raw = sum_nat lens ->
  map (@length A) (cell_data_from_raw1 lens raw) = lens.
Proof.
  intros H1 H2. rewrite from_raw_split by auto. now apply split_lens_lengths.
Qed.
Print Assumptions C10_piece_lengths.

Example C10_ex : cell_data_from_raw [2; 0; 1] [("u", [7; 8; 9])] = [("u", [[7; 8]; []; [9]])].
Proof. reflexivity. Qed.

(** C59 is false: four types have a node count but no topological dimension. *)
Theorem C59_constructible_refuted :
  ~ (forall t n, In (t, n) num_nodes_per_cell -> exists d, cellblock_dim t = Ok d).
Proof.
  intros H. destruct (H "wedge15" 15) as [d Hd].
  - vm_compute. repeat (try (left; reflexivity); right).
  - vm_compute in Hd. discriminate.
Qed.
Print Assumptions C59_constructible_refuted.

(** ... and those four are the only ones. *)
Theorem C59_constructible_partial t n :
  In (t, n) num_nodes_per_cell ->
  ~ In t ["wedge15"; "pyramid13"; "hexahedron24"; "hexahedron1331"] ->
  exists d, cellblock_dim t = Ok d.
Proof.
  intros Hin Hne.
  assert (H : forallb (fun tn => smem (fst tn) ["wedge15"; "pyramid13"; "hexahedron24"; "hexahedron1331"]
                        || is_ok (cellblock_dim (fst tn))) num_nodes_per_cell = true)
    by (vm_compute; reflexivity).
  rewrite forallb_forall in H. specialize (H _ Hin). cbn [fst] in H.
  apply orb_true_iff in H. destruct H as [H|H].
  - apply smem_In in H. contradiction.
  - destruct (cellblock_dim t); [eauto|discriminate].
Qed.
Print Assumptions C59_constructible_partial.

(** The dimension recorded for a block is that of its shape. *)
Theorem C59_dimension t d : cellblock_dim t = Ok d -> shape_dimension t = Some d.
Proof.
  unfold cellblock_dim. destruct (startswith t "polyhedron") eqn:E.
  - intros H. injection H as <-. unfold startswith in E.
    assert (P : forall p, (forall s, String.prefix p ("polyhedron" ++ s) = false) -> String.prefix p t = false).
    { assert (X : exists s, t = ("polyhedron" ++ s)%string).
      { clear - E. revert E. generalize "polyhedron". intros p; revert t.
        induction p as [|a p IH]; intros t H; [exists t; reflexivity|]. destruct t as [|b t]; [discriminate|].
        cbn in H. destruct (ascii_dec a b) as [->|]; [|discriminate]. destruct (IH t H) as (s & ->). now exists s. }
      destruct X as (s & ->). intros p Hp. apply Hp. }
    unfold shape_dimension.
    assert (V : String.eqb t "vertex" = false).
    { destruct (String.eqb_spec t "vertex") as [->|]; [discriminate|reflexivity]. }
    rewrite V, E, !(P "line"), !(P "VTK_LAGRANGE_CURVE"), !(P "triangle"), !(P "quad"), !(P "polygon"),
      !(P "VTK_LAGRANGE_TRIANGLE"), !(P "VTK_LAGRANGE_QUADRILATERAL") by reflexivity.
    rewrite !orb_true_r. reflexivity.
  - destruct (dget t topological_dimension) as [d'|] eqn:G; cbn [of_option]; [|discriminate].
    intros H. injection H as <-. apply dget_In in G.
    assert (C : forallb (fun kv => match shape_dimension (fst kv) with Some d => Nat.eqb d (snd kv) | None => false end)
                  topological_dimension = true) by now vm_compute.
    rewrite forallb_forall in C. specialize (C _ G). cbn [fst snd] in C.
    destruct (shape_dimension t); [|discriminate]. apply Nat.eqb_eq in C. now subst.
Qed.
Print Assumptions C59_dimension.
Example C59_dimension_instance : cellblock_dim "hexahedron27" = Ok 3 /\ cellblock_dim "polyhedron12" = Ok 3.
Proof. split; reflexivity. Qed.
