(** C25, C66: MSH 4.1 files. *)
From Coq Require Import ZArith NArith List String Ascii Bool Lia Permutation Sorted.
From Verif.Lib Require Import Base Facts Text Lines LinesFacts Bytes File.
From Verif.Model Require Import Core Gmsh Gmsh22 Port Msh41.
From Verif.Spec Require Import Core Blocks Gmsh Gmsh22 Msh41.
From Verif.Proofs Require Import Gmsh22File Port Msh41 Msh41File.
Import Model.Gmsh Model.Port Model.Msh41 Spec.Msh41.
Import ListNotations.

(** A mesh that fits the format is written and read back, as text or as bytes: the points come back grouped by
    entity, the cells refer to the points they referred to, and every block keeps its tags, bounding entities, names,
    data and links ([kept41]).  Partial: point data is not regrouped (see [C25_point_data_refuted]), and a mesh must
    give every block an entity of its own with a point of its own (see [C25_entities_refuted]). *)
Theorem C25_ascii_partial {fl : floats} (zero : fl) (m : mesh41 fl) : floats_ok fl -> msh41_mesh m ->
  exists s m' order, write41 zero ascii_port m = Ok s /\ read41 ascii_port s = Ok m' /\ kept41 zero m m' order /\
    match m_dim_tags m with Some dt => by_entity dt order | None => order = seq 0 (length (m_points m)) end.
Proof. intros H. exact (msh41_roundtrip zero ascii_port _ _ (ascii_port_ok H) m). Qed.
Print Assumptions C25_ascii_partial.

Theorem C25_binary_partial {F : Type} (c : codec F) (zero : F) (m : mesh41 F) : codec_ok c -> msh41_mesh m ->
  exists s m' order, write41 zero (binary_port c) m = Ok s /\ read41 (binary_port c) s = Ok m' /\ kept41 zero m m' order /\
    match m_dim_tags m with Some dt => by_entity dt order | None => order = seq 0 (length (m_points m)) end.
Proof. intros H. exact (msh41_roundtrip zero (binary_port c) _ _ (binary_port_ok c H) m). Qed.
Print Assumptions C25_binary_partial.

(** Hence the vertices of every cell have the coordinates they had. *)
Theorem C25_corners_ascii {fl : floats} (zero : fl) (m : mesh41 fl) : floats_ok fl -> msh41_mesh m ->
  exists s m', write41 zero ascii_port m = Ok s /\ read41 ascii_port s = Ok m' /\
    map (corners (m_points m')) (m_cells m') = map (corners (in_space zero (m_points m))) (m_cells m) /\
    Permutation (m_points m') (in_space zero (m_points m)).
Proof.
  intros H W. destruct (C25_ascii_partial zero m H W) as (s & m' & order & A & B & K & O). exists s, m'.
  split; [exact A|]. split; [exact B|]. split; [now apply (corners_kept zero m m' order)|]. exact (points_kept zero m m' order W K O).
Qed.
Print Assumptions C25_corners_ascii.
Theorem C25_corners_binary {F : Type} (c : codec F) (zero : F) (m : mesh41 F) : codec_ok c -> msh41_mesh m ->
  exists s m', write41 zero (binary_port c) m = Ok s /\ read41 (binary_port c) s = Ok m' /\
    map (corners (m_points m')) (m_cells m') = map (corners (in_space zero (m_points m))) (m_cells m) /\
    Permutation (m_points m') (in_space zero (m_points m)).
Proof.
  intros H W. destruct (C25_binary_partial c zero m H W) as (s & m' & order & A & B & K & O). exists s, m'.
  split; [exact A|]. split; [exact B|]. split; [now apply (corners_kept zero m m' order)|]. exact (points_kept zero m m' order W K O).
Qed.
Print Assumptions C25_corners_binary.

(** Points that are already listed by entity stay where they are, and so do their data, their links and the cells. *)
Theorem C25_grouped_ascii {fl : floats} (zero : fl) (m : mesh41 fl) dt : floats_ok fl -> msh41_mesh m ->
  m_dim_tags m = Some dt -> listed_by_entity dt ->
  exists s m', write41 zero ascii_port m = Ok s /\ read41 ascii_port s = Ok m' /\
    m_points m' = in_space zero (m_points m) /\ m_cells m' = m_cells m /\ m_dim_tags m' = Some dt /\
    m_pdata m' = m_pdata m /\ m_cdata m' = m_cdata m /\
    option_map (map k_nodes) (m_periodic m') = option_map (map k_nodes) (m_periodic m).
Proof.
  intros H W E L. destruct (C25_ascii_partial zero m H W) as (s & m' & order & A & B & K & O). exists s, m'.
  split; [exact A|]. split; [exact B|]. rewrite E in O. exact (grouped_kept zero m m' order dt W K E L O).
Qed.
Print Assumptions C25_grouped_ascii.
Theorem C25_grouped_binary {F : Type} (c : codec F) (zero : F) (m : mesh41 F) dt : codec_ok c -> msh41_mesh m ->
  m_dim_tags m = Some dt -> listed_by_entity dt ->
  exists s m', write41 zero (binary_port c) m = Ok s /\ read41 (binary_port c) s = Ok m' /\
    m_points m' = in_space zero (m_points m) /\ m_cells m' = m_cells m /\ m_dim_tags m' = Some dt /\
    m_pdata m' = m_pdata m /\ m_cdata m' = m_cdata m /\
    option_map (map k_nodes) (m_periodic m') = option_map (map k_nodes) (m_periodic m).
Proof.
  intros H W E L. destruct (C25_binary_partial c zero m H W) as (s & m' & order & A & B & K & O). exists s, m'.
  split; [exact A|]. split; [exact B|]. rewrite E in O. exact (grouped_kept zero m m' order dt W K E L O).
Qed.
Print Assumptions C25_grouped_binary.

(** An instance with everything: points in the plane listed out of order, two blocks, tags, bounding entities, names,
    links, point data and cell data. *)
Definition ex41_with {F} (dt : list (Z * Z)) (f : Z -> F) : mesh41 F := Mesh41
  [[f 0; f 0]; [f 1; f 0]; [f 1; f 1]; [f 0; f 1]]%Z
  [Block "line" [[0; 1]; [1; 2]]; Block "triangle" [[0; 1; 2]; [0; 2; 3]]]%Z
  (Some dt) (Some [[7; 7]; [8; 8]])%Z (Some [[3; 3]; [5; 5]])%Z
  (Some [Some [1; 2]; Some []])%Z
  [("a b"%string, (7, 1)); ("c"%string, (8, 2))]%Z []
  (Some [Link 1 3 4 None [(0, 1); (2, 3)]; Link 2 5 6 (Some [f 1; f 2; f 3]) []])%Z
  [("x"%string, [[f 1]; [f 2]; [f 3]; [f 4]])]%Z
  [("y"%string, [[[f 1; f 2; f 3]; [f 4; f 5; f 6]]; [[f 7; f 8; f 9]; [f 10; f 10; f 10]]])]%Z.
Definition mixed_tags : list (Z * Z) := [(2, 5); (1, 3); (2, 5); (0, 1)]%Z.
Definition listed_tags : list (Z * Z) := [(0, 1); (1, 3); (2, 5); (2, 5)]%Z.
Definition ex41 : mesh41 Z := ex41_with mixed_tags (fun z => z).
(** Words of eight bytes, which satisfy the hypothesis on doubles. *)
Inductive word64 : Type := Word (a b c d e f g h : ascii).
Definition word_codec : codec word64 := Codec (F := word64)
  (fun w => let (a, b, c, d, e, f, g, h) := w in map N_of_ascii [a; b; c; d; e; f; g; h])
  (fun bs => let x (k : nat) := ascii_of_N (nth k bs 0%N) in Word (x 0) (x 1) (x 2) (x 3) (x 4) (x 5) (x 6) (x 7)).
Lemma word_codec_ok : codec_ok word_codec.
Proof.
  split; [intros [a b c d e f g h]; reflexivity|]. split.
  - intros [a b c d e f g h]. unfold exact. cbn [enc dec word_codec map nth]. now rewrite !ascii_N_embedding.
  - intros [a b c d e f g h]. cbn [enc word_codec map]. repeat (constructor; [apply N_ascii_bounded|]). constructor.
Qed.
Definition word_of (z : Z) : word64 := dec word_codec (enc (int_codec 8) z).
Example ex41_ok {F} (f : Z -> F) dt : In dt [mixed_tags; listed_tags] -> msh41_mesh (ex41_with dt f).
Proof.
  intros Hdt. unfold mixed_tags, listed_tags in Hdt. destruct Hdt as [<- | [<- | []]]; constructor.
  - split; [discriminate|reflexivity].
  - repeat (constructor; [now left|]). constructor.
  - discriminate.
  - repeat (constructor; [split; [split; [eexists _, _; split; [reflexivity|split; [reflexivity|]];
      unfold rows_have; cbn [bdata]; repeat (constructor; [reflexivity|]); constructor|eexists; reflexivity]|discriminate]|]). constructor.
  - reflexivity.
  - unfold indices_below. cbn [m_cells m_points ex41_with length].
    repeat (constructor; [cbn [bdata]; repeat (constructor; [repeat (constructor; [lia|]); constructor|]); constructor|]). constructor.
  - cbn [m_dim_tags ex41_with]. constructor.
    + reflexivity.
    + repeat (constructor; [cbn; lia|]). constructor.
    + eexists. split; [reflexivity|]. cbn. split.
      * repeat (constructor; [cbn; intuition discriminate|]). constructor.
      * intros e [<-|[<-|[]]]; cbn; tauto.
    + eexists; reflexivity.
    + intros bs E. injection E as <-. repeat (constructor; [cbn; split; [repeat (constructor; [cbn; lia|]); constructor|lia]|]). constructor.
  - intros l E. injection E as <-. split; repeat (constructor; [first [reflexivity | repeat (constructor; [cbn; lia|]); constructor]|]); constructor.
  - intros l E. injection E as <-. split; repeat (constructor; [first [reflexivity | repeat (constructor; [cbn; lia|]); constructor]|]); constructor.
  - split; repeat (constructor; [cbn; first [intuition discriminate | now repeat split]|]); constructor.
  - intros ks E. injection E as <-. split; [|cbn; lia].
    repeat (constructor; [unfold link_ok; cbn; repeat split; try lia; repeat (constructor; [cbn; lia|]); constructor|]). constructor.
  - split; repeat (constructor; [cbn; first [intuition discriminate | now repeat split]|]); constructor.
  - constructor; [|constructor]. split; [reflexivity|]. exists 1. split; [now left|]. repeat (constructor; [reflexivity|]). constructor.
  - split; repeat (constructor; [cbn; first [intuition discriminate | now repeat split]|]); constructor.
  - constructor; [|constructor]. split; [repeat (constructor; [reflexivity|]); constructor|].
    exists 3. split; [right; now left|]. repeat (constructor; [reflexivity|]). constructor.
  - split; [discriminate|reflexivity].
  - repeat (constructor; [now left|]). constructor.
  - discriminate.
  - repeat (constructor; [split; [split; [eexists _, _; split; [reflexivity|split; [reflexivity|]];
      unfold rows_have; cbn [bdata]; repeat (constructor; [reflexivity|]); constructor|eexists; reflexivity]|discriminate]|]). constructor.
  - reflexivity.
  - unfold indices_below. cbn [m_cells m_points ex41_with length].
    repeat (constructor; [cbn [bdata]; repeat (constructor; [repeat (constructor; [lia|]); constructor|]); constructor|]). constructor.
  - cbn [m_dim_tags ex41_with]. constructor.
    + reflexivity.
    + repeat (constructor; [cbn; lia|]). constructor.
    + eexists. split; [reflexivity|]. cbn. split.
      * repeat (constructor; [cbn; intuition discriminate|]). constructor.
      * intros e [<-|[<-|[]]]; cbn; tauto.
    + eexists; reflexivity.
    + intros bs E. injection E as <-. repeat (constructor; [cbn; split; [repeat (constructor; [cbn; lia|]); constructor|lia]|]). constructor.
  - intros l E. injection E as <-. split; repeat (constructor; [first [reflexivity | repeat (constructor; [cbn; lia|]); constructor]|]); constructor.
  - intros l E. injection E as <-. split; repeat (constructor; [first [reflexivity | repeat (constructor; [cbn; lia|]); constructor]|]); constructor.
  - split; repeat (constructor; [cbn; first [intuition discriminate | now repeat split]|]); constructor.
  - intros ks E. injection E as <-. split; [|cbn; lia].
    repeat (constructor; [unfold link_ok; cbn; repeat split; try lia; repeat (constructor; [cbn; lia|]); constructor|]). constructor.
  - split; repeat (constructor; [cbn; first [intuition discriminate | now repeat split]|]); constructor.
  - constructor; [|constructor]. split; [reflexivity|]. exists 1. split; [now left|]. repeat (constructor; [reflexivity|]). constructor.
  - split; repeat (constructor; [cbn; first [intuition discriminate | now repeat split]|]); constructor.
  - constructor; [|constructor]. split; [repeat (constructor; [reflexivity|]); constructor|].
    exists 3. split; [right; now left|]. repeat (constructor; [reflexivity|]). constructor.
Qed.
Example C25_hypotheses : floats_ok int_floats /\ codec_ok word_codec /\ msh41_mesh ex41 /\ msh41_mesh (ex41_with mixed_tags word_of) /\
  msh41_mesh (ex41_with listed_tags word_of).
Proof. split; [exact int_floats_ok|]. split; [exact word_codec_ok|]. split; [|split]; apply ex41_ok; cbn; tauto. Qed.
Example ex41_words : match (do s <- write41 (word_of 0) (binary_port word_codec) (ex41_with mixed_tags word_of); read41 (binary_port word_codec) s) with
  | Ok m => m_points m = map (map word_of) [[0; 1; 0]; [1; 0; 0]; [0; 0; 0]; [1; 1; 0]]%Z
  | Err _ => False end.
Proof. now vm_compute. Qed.
Example ex41_ascii :
  (do s <- write41 (F:=Z) 0%Z (ascii_port (fl:=int_floats)) ex41; read41 (ascii_port (fl:=int_floats)) s) =
  Ok (Mesh41 [[0; 1; 0]; [1; 0; 0]; [0; 0; 0]; [1; 1; 0]]%Z
  [Block "line" [[2; 1]; [1; 3]]; Block "triangle" [[2; 1; 3]; [2; 3; 0]]]%Z
  (Some [(0, 1); (1, 3); (2, 5); (2, 5)])%Z (Some [[7; 7]; [8; 8]])%Z (Some [[3; 3]; [5; 5]])%Z
  (Some [Some [1; 2]; Some []])%Z
  [("a b", (7, 1)); ("c", (8, 2))]%Z [("a b", [[0; 1]; []]); ("c", [[]; [0; 1]])]
  (Some [Link 1 3 4 (Some []) [(0, 1); (2, 3)]; Link 2 5 6 (Some [1; 2; 3]) []])%Z
  [("x", [[1]; [2]; [3]; [4]])]%Z [("y", [[[1; 2; 3]; [4; 5; 6]]; [[7; 8; 9]; [10; 10; 10]]])]%Z).
Proof. now vm_compute. Qed.
Example ex41_binary :
  (do s <- write41 (F:=Z) 0%Z (binary_port (int_codec 8)) ex41; read41 (binary_port (int_codec 8)) s) =
  (do s <- write41 (F:=Z) 0%Z (ascii_port (fl:=int_floats)) ex41; read41 (ascii_port (fl:=int_floats)) s).
Proof. now vm_compute. Qed.

(** The same mesh with the points listed by entity. *)
Example listed_ok : listed_by_entity listed_tags.
Proof.
  unfold listed_by_entity, listed_tags. cbn [length seq].
  repeat (constructor; [|repeat (constructor; [first [left; unfold pair_less; cbn; lia | right; cbn; split; [reflexivity|lia]]|]); constructor]). constructor.
Qed.

(** Point data is not carried along: the value of the first point of [ex41] belongs to another point afterwards. *)
Theorem C25_point_data_refuted : ~ (forall (m m' : mesh41 Z) s, msh41_mesh m ->
  write41 0%Z (ascii_port (fl:=int_floats)) m = Ok s -> read41 (ascii_port (fl:=int_floats)) s = Ok m' ->
  forall name v v', dget name (m_pdata m) = Some v -> dget name (m_pdata m') = Some v' ->
    Permutation (combine (m_points m') v') (combine (in_space 0%Z (m_points m)) v)).
Proof.
  intros H. destruct (write41 (F:=Z) 0%Z (ascii_port (fl:=int_floats)) ex41) as [s|] eqn:A; [|vm_compute in A; discriminate].
  destruct (read41 (ascii_port (fl:=int_floats)) s) as [m'|] eqn:B.
  2:{ exfalso. pose proof ex41_ascii as E. rewrite A in E. cbn [bind] in E. congruence. }
  assert (m' = match read41 (ascii_port (fl:=int_floats)) s with Ok x => x | Err _ => ex41 end) by now rewrite B.
  pose proof ex41_ascii as E. rewrite A in E. cbn [bind] in E. rewrite B in E. injection E as E.
  specialize (H ex41 m' s (ex41_ok _ _ (or_introl eq_refl)) A B "x"%string [[1]; [2]; [3]; [4]]%Z [[1]; [2]; [3]; [4]]%Z eq_refl).
  assert (D : dget "x" (m_pdata m') = Some [[1]; [2]; [3]; [4]]%Z) by (rewrite E; reflexivity).
  specialize (H D). rewrite E in H. cbn [m_points combine in_space map ex41 ex41_with] in H.
  assert (I : In ([0; 1; 0], [1])%Z [([0; 0; 0], [1]); ([1; 0; 0], [2]); ([1; 1; 0], [3]); ([0; 1; 0], [4])]%Z).
  { eapply Permutation_in; [exact H|]. now left. }
  cbn in I. intuition discriminate.
Qed.
Print Assumptions C25_point_data_refuted.

(** C66: nor are the nodes of periodic links: a link names nodes by number, and the numbers stay the same while the
    points move. *)
Theorem C66_periodic_refuted : ~ (forall (m m' : mesh41 Z) s, msh41_mesh m ->
  write41 0%Z (ascii_port (fl:=int_floats)) m = Ok s -> read41 (ascii_port (fl:=int_floats)) s = Ok m' ->
  option_map (map (link_points (m_points m'))) (m_periodic m') =
  option_map (map (link_points (in_space 0%Z (m_points m)))) (m_periodic m)).
Proof.
  intros H. destruct (write41 (F:=Z) 0%Z (ascii_port (fl:=int_floats)) ex41) as [s|] eqn:A; [|vm_compute in A; discriminate].
  destruct (read41 (ascii_port (fl:=int_floats)) s) as [m'|] eqn:B.
  2:{ exfalso. pose proof ex41_ascii as E. rewrite A in E. cbn [bind] in E. congruence. }
  pose proof ex41_ascii as E. rewrite A in E. cbn [bind] in E. rewrite B in E. injection E as E.
  specialize (H ex41 m' s (ex41_ok _ _ (or_introl eq_refl)) A B). rewrite E in H. vm_compute in H. discriminate.
Qed.
Print Assumptions C66_periodic_refuted.
(** They are if the points are listed by entity. *)
Theorem C66_grouped_ascii_partial {fl : floats} (zero : fl) (m : mesh41 fl) dt : floats_ok fl -> msh41_mesh m ->
  m_dim_tags m = Some dt -> listed_by_entity dt ->
  exists s m', write41 zero ascii_port m = Ok s /\ read41 ascii_port s = Ok m' /\
    option_map (map (link_points (m_points m'))) (m_periodic m') =
    option_map (map (link_points (in_space zero (m_points m)))) (m_periodic m).
Proof.
  intros H W E L. destruct (C25_grouped_ascii zero m dt H W E L) as (s & m' & A & B & P & _ & _ & _ & _ & K). exists s, m'.
  split; [exact A|]. split; [exact B|]. rewrite P. now apply links_same.
Qed.
Print Assumptions C66_grouped_ascii_partial.
Theorem C66_grouped_binary_partial {F : Type} (c : codec F) (zero : F) (m : mesh41 F) dt : codec_ok c -> msh41_mesh m ->
  m_dim_tags m = Some dt -> listed_by_entity dt ->
  exists s m', write41 zero (binary_port c) m = Ok s /\ read41 (binary_port c) s = Ok m' /\
    option_map (map (link_points (m_points m'))) (m_periodic m') =
    option_map (map (link_points (in_space zero (m_points m)))) (m_periodic m).
Proof.
  intros H W E L. destruct (C25_grouped_binary c zero m dt H W E L) as (s & m' & A & B & P & _ & _ & _ & _ & K). exists s, m'.
  split; [exact A|]. split; [exact B|]. rewrite P. now apply links_same.
Qed.
Print Assumptions C66_grouped_binary_partial.

(** Two points joined by a line: the points lie on the end points of a curve (entities 1 and 2 of dimension 0) and the
    line on the curve (entity 1 of dimension 1), which has no point of its own.  The file is written without the curve
    and cannot be read (KeyError), as text and as bytes. *)
Definition segment41 : mesh41 Z := Mesh41 [[0; 0; 0]; [1; 0; 0]]%Z [Block "line" [[0; 1]]]%Z
  (Some [(0, 1); (0, 2)])%Z (Some [[7]])%Z (Some [[1]])%Z None [] [] None [] [].
Theorem C25_entities_refuted :
  (exists s, write41 0%Z (ascii_port (fl:=int_floats)) segment41 = Ok s /\ read41 (ascii_port (fl:=int_floats)) s = Err KeyError) /\
  (exists s, write41 0%Z (binary_port (int_codec 8)) segment41 = Ok s /\ read41 (binary_port (int_codec 8)) s = Err KeyError).
Proof. split; eexists; (split; [vm_compute; reflexivity | vm_compute; reflexivity]). Qed.
Print Assumptions C25_entities_refuted.
(** A block without cells is written, and the file cannot be read. *)
Definition hollow41 : mesh41 Z := Mesh41 [[0; 0; 0]; [1; 0; 0]]%Z [Block "line" []]%Z
  None None None None [] [] None [] [].
Theorem C25_empty_refuted :
  (exists s, write41 0%Z (ascii_port (fl:=int_floats)) hollow41 = Ok s /\ read41 (ascii_port (fl:=int_floats)) s = Err ValueError) /\
  (exists s, write41 0%Z (binary_port (int_codec 8)) hollow41 = Ok s /\ read41 (binary_port (int_codec 8)) s = Err ValueError).
Proof. split; eexists; (split; [vm_compute; reflexivity | vm_compute; reflexivity]). Qed.
Print Assumptions C25_empty_refuted.
(** Two blocks on one entity, and entity information without geometrical tags, are refused by the writer with Python's
    own exceptions rather than WriteError. *)
Definition shared41 : mesh41 Z := Mesh41 [[0; 0; 0]; [1; 0; 0]; [0; 1; 0]; [1; 1; 0]]%Z
  [Block "triangle" [[0; 1; 2]]; Block "quad" [[0; 1; 3; 2]]]%Z
  (Some [(2, 1); (2, 1); (2, 1); (2, 1)])%Z (Some [[7]; [7]])%Z (Some [[1]; [1]])%Z None [] [] None [] [].
Theorem C25_shared_refuted :
  write41 0%Z (ascii_port (fl:=int_floats)) shared41 = Err ValueError /\
  write41 0%Z (ascii_port (fl:=int_floats))
    (Mesh41 (m_points shared41) (m_cells shared41) (m_dim_tags shared41) (m_phys shared41) None None [] [] None [] []) = Err KeyError.
Proof. split; vm_compute; reflexivity. Qed.
Print Assumptions C25_shared_refuted.
