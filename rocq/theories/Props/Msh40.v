(** C24: MSH 4.0 files. *)
From Coq Require Import ZArith NArith List String Ascii Bool Lia.
From Verif.Lib Require Import Base Facts Text Lines LinesFacts Bytes File.
From Verif.Model Require Import Core Gmsh Gmsh22 Port Msh41 Msh40.
From Verif.Spec Require Import Core Blocks Gmsh Gmsh22 Msh41 Msh40.
From Verif.Proofs Require Import Gmsh22File Port Msh41 Msh41File Msh40.
From Verif.Props Require Import Msh41.
Import Model.Gmsh Model.Port Model.Msh41 Model.Msh40 Spec.Msh41 Spec.Msh40.
Import ListNotations.

(** A mesh that fits the format is written as text and read back: the same points, blocks, names, periodic links and
    data ([kept40]).  Partial: links with a transformation are lost (see [C24_affine_refuted]), blocks without cells
    cannot be read (see [C24_empty_refuted]). *)
Theorem C24_ascii_partial {fl : floats} (zero : fl) (m : mesh40 fl) : floats_ok fl -> msh40_mesh m ->
  (forall ks, q_periodic m = Some ks -> Forall plain_link ks /\ in_range CInt (Z.of_nat (length ks))) ->
  exists s m', write40 zero ascii_port m = Ok s /\ read40 ascii_port s = Ok m' /\ kept40 zero m m'.
Proof.
  intros H W K. apply (msh40_roundtrip zero ascii_port _ _ (ascii_port_ok H) (ascii_nodes H) m W).
  intros ks E. destruct (K ks E). now apply (ascii_periodic H).
Qed.
Print Assumptions C24_ascii_partial.

(** As bytes, too, if there are no periodic links: any link is lost (see [C24_periodic_binary_refuted]). *)
Theorem C24_binary_partial {F : Type} (c : codec F) (zero : F) (m : mesh40 F) : codec_ok c -> msh40_mesh m ->
  (forall ks, q_periodic m = Some ks -> ks = []) ->
  exists s m', write40 zero (binary_port c) m = Ok s /\ read40 (binary_port c) s = Ok m' /\ kept40 zero m m'.
Proof.
  intros H W K. apply (msh40_roundtrip zero (binary_port c) _ _ (binary_port_ok c H) (binary_nodes c H) m W).
  intros ks E. rewrite (K ks E). now apply binary_periodic_nil.
Qed.
Print Assumptions C24_binary_partial.

(** Three points in the plane and one above; lines, triangles and a tetrahedron; two links. *)
Definition ex40_with {F} (ks : option (list (link F))) (f : Z -> F) : mesh40 F :=
  Mesh40 [[f 0; f 0]; [f 1; f 0]; [f 0; f 1]; [f 0; f 0; f 1]]%Z
    [Block "line" [[0; 1]; [1; 2]]; Block "triangle" [[0; 1; 2]]; Block "tetra10" [[0; 1; 2; 3; 0; 1; 2; 3; 1; 2]]]%Z
    [("a b", (7, 1)); ("c", (8, 2))]%Z ks
    [("x", [[f 1]; [f 2]; [f 3]; [f 4]])]%Z
    [("y", [[[f 1; f 2; f 3]; [f 4; f 5; f 6]]; [[f 7; f 8; f 9]]; [[f 0; f 0; f 0]]]); ("gmsh:geometrical", [[[f 5]; [f 5]]; [[f 6]]; [[f 7]]])]%Z.
Definition links40 {F} : list (link F) := [Link 1 3 4 None [(0, 1); (2, 3)]; Link 0 (-5) 6 None []]%Z.
Definition ex40 : mesh40 Z := ex40_with (Some links40) (fun z => z).
Example ex40_ok {F} ks (f : Z -> F) : msh40_mesh (ex40_with ks f).
Proof.
  constructor.
  - split; [discriminate|reflexivity].
  - repeat (constructor; [cbn; auto|]). constructor.
  - discriminate.
  - repeat (constructor; [split; [split; [eexists _, _; split; [reflexivity|split; [reflexivity|]];
      unfold rows_have; cbn [bdata]; repeat (constructor; [reflexivity|]); constructor|eexists; reflexivity]|discriminate]|]). constructor.
  - reflexivity.
  - unfold indices_below. cbn [q_cells q_points ex40_with length].
    repeat (constructor; [cbn [bdata]; repeat (constructor; [repeat (constructor; [lia|]); constructor|]); constructor|]). constructor.
  - split; repeat (constructor; [cbn; first [intuition discriminate | now repeat split]|]); constructor.
  - split; repeat (constructor; [cbn; first [intuition discriminate | now repeat split]|]); constructor.
  - constructor; [|constructor]. split; [reflexivity|]. exists 1. split; [now left|]. repeat (constructor; [reflexivity|]). constructor.
  - split; repeat (constructor; [cbn; first [intuition discriminate | now repeat split]|]); constructor.
  - constructor; [|constructor; [|constructor]].
    + split; [repeat (constructor; [reflexivity|]); constructor|]. exists 3. split; [right; now left|]. repeat (constructor; [reflexivity|]). constructor.
    + split; [repeat (constructor; [reflexivity|]); constructor|]. exists 1. split; [now left|]. repeat (constructor; [reflexivity|]). constructor.
Qed.
Example C24_hypotheses : floats_ok int_floats /\ codec_ok word_codec /\ msh40_mesh ex40 /\ msh40_mesh (ex40_with (Some []) word_of) /\
  (forall ks, q_periodic ex40 = Some ks -> Forall plain_link ks /\ in_range CInt (Z.of_nat (length ks))).
Proof.
  split; [exact int_floats_ok|]. split; [exact word_codec_ok|]. split; [apply ex40_ok|]. split; [apply ex40_ok|].
  intros ks E. injection E as <-. split; [|cbn; lia].
  repeat (constructor; [unfold plain_link; cbn; repeat split; try lia; repeat (constructor; [cbn; lia|]); constructor|]). constructor.
Qed.
Example ex40_ascii :
  (do s <- write40 (F:=Z) 0%Z (ascii_port (fl:=int_floats)) ex40; read40 (ascii_port (fl:=int_floats)) s) =
  Ok (Read40 (Mesh40 [[0; 0; 0]; [1; 0; 0]; [0; 1; 0]; [0; 0; 1]]%Z (q_cells ex40) (q_names ex40) (Some links40) (q_pdata ex40)
       [("y", [[[1; 2; 3]; [4; 5; 6]]; [[7; 8; 9]]; [[0; 0; 0]]])]%Z) None (Some [[1; 1]; [1]; [1]])%Z).
Proof. now vm_compute. Qed.
Example ex40_words :
  (do s <- write40 (word_of 0) (binary_port word_codec) (ex40_with (Some []) word_of); read40 (binary_port word_codec) s) =
  Ok (Read40 (Mesh40 (map (map word_of) [[0; 0; 0]; [1; 0; 0]; [0; 1; 0]; [0; 0; 1]]%Z) (q_cells ex40) (q_names ex40) (Some [])
       [("x", map (map word_of) [[1]; [2]; [3]; [4]])]%Z
       [("y", map (map (map word_of)) [[[1; 2; 3]; [4; 5; 6]]; [[7; 8; 9]]; [[0; 0; 0]]])]%Z) None (Some [[1; 1]; [1]; [1]])%Z).
Proof. now vm_compute. Qed.

(** A link with a transformation is written as the number -1 and a line of floats, where the reader expects the word
    Affine: the file cannot be read (ValueError). *)
Theorem C24_affine_refuted : exists s,
  write40 0%Z (ascii_port (fl:=int_floats)) (ex40_with (Some [Link 1 3 4 (Some [1; 0; 0; 0; 0; 1; 0; 0; 0; 0; 1; 0; 0; 0; 0; 1]) [(0, 1)]]%Z) (fun z => z)) = Ok s /\
  read40 (ascii_port (fl:=int_floats)) s = Err ValueError.
Proof. eexists; (split; [vm_compute; reflexivity | vm_compute; reflexivity]). Qed.
Print Assumptions C24_affine_refuted.

(** In a binary file the number of pairs takes four bytes, and the reader reads eight: the links differ, or the file
    cannot be read. *)
Theorem C24_periodic_binary_refuted : exists s m',
  write40 0%Z (binary_port (int_codec 8)) (ex40_with (Some [Link 1 3 4 None [(0, 1)]]%Z) (fun z => z)) = Ok s /\
  read40 (binary_port (int_codec 8)) s = Ok m' /\ q_periodic (o_mesh m') <> Some [Link 1 3 4 None [(0, 1)]]%Z.
Proof. eexists _, _. split; [vm_compute; reflexivity|]. split; [vm_compute; reflexivity|]. vm_compute. discriminate. Qed.
Print Assumptions C24_periodic_binary_refuted.

(** Point data with two values per point is refused, in particular the entity of every point, gmsh:dim_tags, that
    reading an MSH 4.1 file leaves in the point data: such a mesh cannot be written as MSH 4.0. *)
Theorem C24_dim_tags_refuted :
  write40 0%Z (ascii_port (fl:=int_floats))
    (Mesh40 (q_points ex40) (q_cells ex40) [] None [("gmsh:dim_tags", [[0; 1]; [1; 1]; [2; 1]; [3; 1]])]%Z []) = Err WriteError.
Proof. now vm_compute. Qed.
Print Assumptions C24_dim_tags_refuted.

(** A block without cells is written, and the file cannot be read. *)
Theorem C24_empty_refuted :
  (exists s, write40 0%Z (ascii_port (fl:=int_floats)) (Mesh40 [[0; 0; 0]; [1; 0; 0]]%Z [Block "line" []; Block "vertex" [[1]]]%Z [] None [] []) = Ok s /\
     read40 (ascii_port (fl:=int_floats)) s = Err ValueError) /\
  (exists s, write40 0%Z (binary_port (int_codec 8)) (Mesh40 [[0; 0; 0]; [1; 0; 0]]%Z [Block "line" []; Block "vertex" [[1]]]%Z [] None [] []) = Ok s /\
     read40 (binary_port (int_codec 8)) s = Err ValueError).
Proof. split; eexists; (split; [vm_compute; reflexivity | vm_compute; reflexivity]). Qed.
Print Assumptions C24_empty_refuted.
