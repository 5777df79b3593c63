(** Property theorems for binary MSH 2.2 files: C23. *)
From Coq Require Import ZArith NArith List String Ascii Bool Lia ZifyBool ZifyNat ZifyN.
From Verif.Lib Require Import Base Facts Text TextFacts Lines LinesFacts Bytes BytesFacts File.
From Verif.Model Require Import Core Gmsh Gmsh22 Port Gmsh22Bin.
From Verif.Spec Require Import Core Blocks Gmsh Gmsh22 Msh41.
From Verif.Proofs Require Import Gmsh22Bin.
From Verif.Props Require Import Msh41.
Import ListNotations.

(** C23: everything that is read from a binary MSH 2.2 file that was written, for every mesh whose numbers fit 32 bits
    and that has no empty block; the mesh is the one read from a text file (C23_roundtrip_partial). *)
Theorem C23_binary_partial {fl : floats} (c : codec fl) (m : gmesh fl) : floats_ok fl -> codec_ok c ->
  msh22_mesh m -> binary22 m ->
  exists s names, write22_bin c m = Ok s /\ (forall k, dget k names = dget k (g_names m)) /\
    read22_file c s =
      if match g_cdata m with [] => true | _ => splittable m end
      then Ok (GMesh (map pad3 (g_points m)) (merged m) (tags_read m (g_phys m)) (tags_read m (g_geom m)) None
                 names (g_periodic m) (g_pdata m)
                 (map (fun kv => (fst kv, data_for (merged m) (concat (snd kv)))) (g_cdata m)))
      else Err ValueError.
Proof. intros Hf Hc. exact (msh22_binary c Hf Hc m). Qed.
Print Assumptions C23_binary_partial.

(** An instance: two blocks of triangles that merge, one of tetrahedra, with three kinds of tags, names, periodic links,
    point data and cell data. *)
Definition ex22b {fl : floats} (f : Z -> fl) : gmesh fl :=
  GMesh [[f 0; f 0]; [f 1; f 0]; [f 0; f 1]; [f 1; f 1]]%Z
    [Block "triangle" [[0; 1; 2]]; Block "triangle" [[1; 2; 3]]; Block "quad" [[0; 1; 3; 2]; [3; 2; 0; 1]; [0; 1; 3; 2]]]%Z
    (Some [[5]; [-6]; [7; 7; 8]]%Z) None (Some [[1]; [2]; [3; 4; 5]]%Z) [("wall of stone"%string, (5, 2)); ("air"%string, (7, 3))]%Z
    (Some [Periodic 0 1 2 None [(0, 1)]; Periodic 1 1 2 (Some [f 1; f 0; f 0; f 1]) []]%Z)
    [("u"%string, [[f 1]; [f 2]; [f 3]; [f 10]])]%Z [("c"%string, [[[f 1]]; [[f 2]]; [[f 3]; [f 4]; [f 10]]])]%Z.

Lemma ex22b_ok {fl : floats} (f : Z -> fl) : msh22_mesh (ex22b f) /\ binary22 (ex22b f).
Proof.
  split; constructor; cbn [ex22b g_points g_cells g_phys g_geom g_extra g_names g_periodic g_pdata g_cdata].
  - discriminate.
  - repeat (constructor; [now left|]). constructor.
  - repeat (constructor; [eexists _, _; split; [reflexivity|split; [reflexivity|]];
      unfold rows_have; cbn [bdata]; repeat (constructor; [reflexivity|]); constructor|]). constructor.
  - unfold indices_below. cbn [length].
    repeat (constructor; [cbn [bdata]; repeat (constructor; [repeat (constructor; [lia|]); constructor|]); constructor|]).
    constructor.
  - intros d E. injection E as <-. repeat (constructor; [reflexivity|]). constructor.
  - discriminate.
  - intros d E. injection E as <-. repeat (constructor; [reflexivity|]). constructor.
  - split; [|repeat (constructor; [repeat split|]); constructor].
    cbn. repeat (constructor; [cbn; intuition discriminate|]). constructor.
  - intros ps E. injection E as <-. repeat (constructor; [discriminate|]). constructor.
  - split; repeat (constructor; [repeat split; auto|]); constructor.
  - constructor; [|constructor]. split; [reflexivity|]. exists 1. split; [now left|].
    repeat (constructor; [reflexivity|]). constructor.
  - split; repeat (constructor; [repeat split; auto|]); constructor.
  - constructor; [|constructor]. split; [discriminate|]. split.
    + repeat (constructor; [reflexivity|]). constructor.
    + exists 1. split; [now left|]. repeat (constructor; [reflexivity|]). constructor.
  - repeat (constructor; [eexists; reflexivity|]). constructor.
  - repeat (constructor; [cbn; lia|]). constructor.
  - cbn. lia.
  - cbn. lia.
  - intros d [E|[E|[E|[]]]]; try discriminate E; injection E as <-;
      repeat (constructor; [repeat (constructor; [lia|]); constructor|]); constructor.
Qed.

(** Words of eight bytes satisfy both hypotheses on doubles: printed as the number that the bytes are. *)
Definition word_floats : floats := Floats word64
  (fun w => str_of_Z (Z.of_N (le_value (enc word_codec w))))
  (fun s => option_map (fun z => dec word_codec (le_bytes 8 (Z.to_N z))) (parse_Z s)) (word_of 0).
Lemma le_bytes_value bs : Forall is_byte bs -> le_bytes (length bs) (le_value bs) = bs.
Proof.
  induction 1 as [|b bs Hb H IH]; [reflexivity|]. cbn [length le_bytes le_value]. unfold is_byte in Hb.
  assert (E1 : ((b + 256 * le_value bs) mod 256 = b)%N).
  { rewrite N.mul_comm, N.mod_add by discriminate. now apply N.mod_small. }
  assert (E2 : ((b + 256 * le_value bs) / 256 = le_value bs)%N).
  { rewrite N.mul_comm, N.div_add by discriminate. rewrite N.div_small by exact Hb. reflexivity. }
  now rewrite E1, E2, IH.
Qed.
Lemma word_floats_ok : floats_ok word_floats.
Proof.
  intros w. cbn [ffmt fparse word_floats]. split; [apply word_str_of_Z|]. rewrite parse_Z_str_of_Z. cbn [option_map]. f_equal.
  rewrite N2Z.id. destruct word_codec_ok as (H1 & H2 & H3).
  rewrite <- (H1 w) at 1. rewrite le_bytes_value by apply H3. exact (f_equal Some (H2 w)).
Qed.
Example C23_binary_hypotheses : floats_ok word_floats /\ codec_ok (F := word_floats) word_codec /\
  msh22_mesh (ex22b (fl := word_floats) word_of) /\ binary22 (ex22b (fl := word_floats) word_of) /\
  splittable (ex22b (fl := word_floats) word_of) = true.
Proof.
  split; [exact word_floats_ok|]. split; [exact word_codec_ok|].
  split; [apply ex22b_ok|]. split; [apply ex22b_ok|reflexivity].
Qed.
(** The parts of a mesh, with their types written out *)
Definition points_of (r : gmesh int_floats) : list (list Z) := g_points r.
Definition data_of (r : gmesh int_floats) : dict (list (list (list Z))) := g_cdata r.
Definition written_and_read : result (gmesh int_floats) :=
  do s <- write22_bin (fl := int_floats) (int_codec 8) (ex22b (fl := int_floats) (fun z => z)); read22_file (fl := int_floats) (int_codec 8) s.
Example C23_binary_instance :
  match written_and_read with
  | Ok r => (points_of r, g_cells r, (g_phys r, g_geom r), data_of r)
  | Err _ => ([], [], (None, None), [])
  end =
    ([[0; 0; 0]; [1; 0; 0]; [0; 1; 0]; [1; 1; 0]]%Z,
     [Block "triangle" [[0; 1; 2]; [1; 2; 3]]; Block "quad" [[0; 1; 3; 2]; [3; 2; 0; 1]; [0; 1; 3; 2]]]%Z,
     (Some [[5; -6]; [7; 7; 8]]%Z, Some [[0; 0]; [0; 0; 0]]%Z), [("c"%string, [[[1]; [2]]; [[3]; [4]; [10]]])]%Z).
Proof. vm_compute. reflexivity. Qed.

(** With an empty block the property fails: the file cannot be read if the block's type also has cells elsewhere before
    the end. *)
Definition gap22 (bs : list block) : gmesh int_floats :=
  @GMesh int_floats [[0; 0; 0]; [1; 0; 0]; [0; 1; 0]]%Z bs None None None [] None [] [].
Definition gap_blocks : list block := [Block "triangle" [[0; 1; 2]]; Block "triangle" []; Block "line" [[0; 1]]]%Z.
Lemma gap22_ok bs : Forall gmsh_block bs -> Forall (indices_below 3) bs ->
  Forall (fun b => exists d, cellblock_dim (btype b) = Ok d) bs -> msh22_mesh (gap22 bs).
Proof.
  intros H1 H2 H3. constructor; cbn [gap22 g_points g_cells g_phys g_geom g_extra g_names g_periodic g_pdata g_cdata]; auto; try discriminate.
  - split; [apply NoDup_nil|apply Forall_nil].
  - split; [apply NoDup_nil|apply Forall_nil].
  - split; [apply NoDup_nil|apply Forall_nil].
Qed.
Theorem C23_binary_empty_refuted :
  ~ (forall m : gmesh int_floats, msh22_mesh m ->
       exists s r, write22_bin (fl := int_floats) (int_codec 8) m = Ok s /\ read22_file (fl := int_floats) (int_codec 8) s = Ok r).
Proof.
  intros H. destruct (H (gap22 gap_blocks)) as (s & r & Hw & Hr).
  - apply gap22_ok.
    + repeat (constructor; [eexists _, _; split; [reflexivity|split; [reflexivity|]];
        unfold rows_have; cbn [bdata]; repeat (constructor; [reflexivity|]); constructor|]). constructor.
    + unfold indices_below.
      repeat (constructor; [cbn [bdata]; repeat (constructor; [repeat (constructor; [lia|]); constructor|]); constructor|]).
      constructor.
    + repeat (constructor; [eexists; reflexivity|]). constructor.
  - assert (E : (do s <- write22_bin (fl := int_floats) (int_codec 8) (gap22 gap_blocks);
                 do r <- read22_file (fl := int_floats) (int_codec 8) s; Ok (g_cells r)) = Err ValueError) by (vm_compute; reflexivity).
    rewrite Hw in E. cbn [bind] in E. rewrite Hr in E. discriminate E.
Qed.
Print Assumptions C23_binary_empty_refuted.

(** Otherwise an empty block stays, unlike in text files, unless no cells follow. *)
Example C23_binary_empty :
  let blocks bs := (do s <- write22_bin (fl := int_floats) (int_codec 8) (gap22 bs);
                    do r <- read22_file (fl := int_floats) (int_codec 8) s; Ok (g_cells r)) in
  let tri := Block "triangle" [[0; 1; 2]]%Z in
  blocks [tri; Block "line" []; tri; Block "vertex" []]%Z = Ok [tri; Block "line" []; tri]%Z /\
  (do l <- write22 (gap22 [tri; Block "line" []; tri]); do h <- read_header l; do r <- @read22 int_floats (snd h); Ok (g_cells r))
    = Ok [Block "triangle" [[0; 1; 2]; [0; 1; 2]]]%Z.
Proof. vm_compute. auto. Qed.
