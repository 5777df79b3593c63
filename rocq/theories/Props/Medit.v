(** C42 and C43: Medit. *)
From Verif.Lib Require Import Base Facts Text TextFacts Lines LinesFacts Bytes BytesFacts File.
From Verif.Model Require Import Core Medit.
From Verif.Spec Require Import Core Medit.
From Verif.Proofs Require Import Medit MeditAscii.

(** ** C42: binary files *)

(** Following the stored positions from the first keyword (Dimension, at offset 8) visits exactly the
    keywords of the file: Dimension, Vertices, one keyword for every block of a supported type, and End, which
    is at the end of the file. *)
Theorem C42_chain (F : Type) (fcodec : bool -> nat -> codec F) (big_ints : bool) (m : medit_in F) file :
  codec_width (fcodec false 8) 8 -> medit_mesh m ->
  write_medit_binary F fcodec big_ints m = Ok file -> (Z.of_nat (length file) < 2 ^ 63)%Z ->
  keyword_chain file 8 ([3; 4]%Z ++ map (fun b => medit_key (btype b)) (filter (fun b => medit_type (btype b)) (mi_cells m)) ++ [54%Z]).
Proof.
  intros Hc Hm E Hl.
  assert (Ek : map (fun b => medit_key (btype b)) (filter (fun b => medit_type (btype b)) (mi_cells m)) = map (fun bl => medit_key (btype (fst bl))) (kept m)).
  { destruct (cell_labels_ok m Hm) as (_ & _ & Hlen & _). unfold kept. apply (f_equal (@length nat)) in Hlen. rewrite !map_length in Hlen. clear - Hlen. revert Hlen.
    generalize (cell_refs m). induction (mi_cells m) as [|b bs IH]; intros [|r rs] H; try discriminate; [reflexivity|]. cbn [length] in H. injection H as H. cbn [filter combine fst].
    destruct (medit_type (btype b)); cbn [map fst]; now rewrite (IH rs H). }
  rewrite Ek. destruct big_ints.
  - exact (binary_chain fcodec Hc 8 m file Hm (or_intror eq_refl) E Hl).
  - exact (binary_chain fcodec Hc 4 m file Hm (or_introl eq_refl) E Hl).
Qed.
Print Assumptions C42_chain.

(** Points, blocks of supported types in order, and labels come back (the labels are the first integer data,
    or ones) if the numbers fit into the fields: integers have 8 bytes if some block has 64 bit integers, else 4. *)
Theorem C42_roundtrip_partial (F : Type) (fcodec : bool -> nat -> codec F) (big_ints : bool) (m : medit_in F) :
  codec_width (fcodec false 8) 8 -> medit_mesh m ->
  medit_fits (exact (fcodec false 8)) (sint_range (if big_ints then 8 else 4)) m ->
  exists file, write_medit_binary F fcodec big_ints m = Ok file /\
    read_medit_binary F fcodec file = Ok (MeditOut (mi_points m) (map fst (kept m)) (Some (point_refs m)) (map snd (kept m))).
Proof.
  intros Hc Hm Hf. destruct big_ints.
  - exact (binary_roundtrip fcodec Hc 8 m Hm (or_intror eq_refl) Hf).
  - exact (binary_roundtrip fcodec Hc 4 m Hm (or_introl eq_refl) Hf).
Qed.
Print Assumptions C42_roundtrip_partial.

(** Reading any file of any version and byte order: with whatever positions, with sections in any order, the
    marks among them skipped, and the last vertices kept. *)
Theorem C42_read (F : Type) (fcodec : bool -> nat -> codec F) (big : bool) version iw fw pw pos dim pre vpos ps post tail :
  In (version, (iw, fw, pw)) medit_widths -> codec_width (fcodec big fw) fw -> dim = 2 \/ dim = 3 ->
  Forall (sec_fits (exact (fcodec big fw)) (sint_range iw) dim) (pre ++ SVertices vpos ps :: post) ->
  forallb no_vertices post = true -> medit_tail big tail ->
  read_medit_binary F fcodec (medit_bytes (enc (fcodec big fw)) big iw pw version pos dim (pre ++ SVertices vpos ps :: post) tail) =
  Ok (MeditOut (map fst ps) (sec_blocks (pre ++ post)) (Some (map snd ps)) (sec_refs (pre ++ post))).
Proof.
  intros Hv Hc Hd Hs Hn Ht. destruct (widths_cases _ _ _ _ Hv) as (_ & Hi & Hf & _). now apply read_binary.
Qed.
Print Assumptions C42_read.

(** The hypotheses can be met. *)
Definition ex_codec (big : bool) (w : nat) : codec Z := Codec (sint_bytes big w) (sint_value big).
Definition ex_medit : medit_in Z :=
  MeditIn F8 2 [[0; 5]; [7; -8]; [100; 3]]%Z [Block "vertex" [[1%Z]]; Block "triangle" [[0; 1; 2]]%Z; Block "line" [[0; 1]; [2; 1]]%Z]
    [("mass", RealArr [1; 2; 3]%Z); ("ref", IntArr [4; 5; 6]%Z)] [("a", [IntArr [9]%Z; IntArr [10]%Z; IntArr [11; 12]%Z])].
Lemma ex_medit_mesh : medit_mesh ex_medit.
Proof.
  split; cbn; repeat first [apply Forall_nil | apply Forall_cons | split]; try reflexivity; try discriminate;
    try (repeat constructor; cbn; intuition discriminate); try (intuition discriminate); try (intros; repeat constructor).
Qed.
Lemma small_int z : (-1000 <= z <= 1000)%Z -> sint_range 4 z.
Proof. apply range4. Qed.
Example C42_example : medit_mesh ex_medit /\ medit_fits (exact (ex_codec false 8)) (sint_range 4) ex_medit /\
  kept ex_medit = [(Block "triangle" [[0; 1; 2]]%Z, [10%Z]); (Block "line" [[0; 1]; [2; 1]]%Z, [11; 12]%Z)] /\ point_refs ex_medit = [4; 5; 6]%Z /\
  map (fun b => medit_key (btype b)) (filter (fun b => medit_type (btype b)) (mi_cells ex_medit)) = [6; 5]%Z.
Proof.
  split; [exact ex_medit_mesh|]. split; [|repeat split].
  split; cbn; repeat first [apply Forall_nil | apply Forall_cons | split]; auto; try (apply small_int; lia); vm_compute; reflexivity || discriminate.
Qed.
Example C42_example_file : exists file, write_medit_binary Z ex_codec true ex_medit = Ok file /\ length file = 248 /\
  read_medit_binary Z ex_codec file = Ok (MeditOut (mi_points ex_medit) (map fst (kept ex_medit)) (Some [4; 5; 6]%Z) [[10]; [11; 12]]%Z).
Proof. eexists. split; [vm_compute; reflexivity|]. split; vm_compute; reflexivity. Qed.
Example C42_example_read :
  let secs := [SMarks 7 13 [1; 2]; SCells 0 "quad" [([0; 1; 2; 3], 5)]; SVertices (-1) [([1; 2; 3], 0); ([4; 5; 6], 1)]; SCells 3 "pyramid" []]%Z in
  Forall (sec_fits (exact (ex_codec true 4)) (sint_range 4) 3) secs /\
  read_medit_binary Z ex_codec (medit_bytes (enc (ex_codec true 4)) true 4 4 1 20 3 secs []) =
  Ok (MeditOut [[1; 2; 3]; [4; 5; 6]]%Z [Block "quad" [[0; 1; 2; 3]]%Z; Block "pyramid" []] (Some [0; 1]%Z) [[5%Z]; []]).
Proof.
  split; [|now vm_compute].
  repeat first [apply Forall_nil | apply Forall_cons | split]; cbn; auto; try (apply small_int; lia); vm_compute; reflexivity || discriminate.
Qed.

(** Not for every mesh: with 32 bit cells, labels are cut to 32 bits; points with one coordinate are written but
    cannot be read; and with data but no points (or no cells) nothing is written. *)
Theorem C42_labels_refuted : exists m file, medit_mesh m /\ write_medit_binary Z ex_codec false m = Ok file /\ point_refs m = [4294967297%Z] /\
  exists r, read_medit_binary Z ex_codec file = Ok r /\ mo_point_ref r = Some [1%Z].
Proof.
  exists (MeditIn F8 2 [[0; 0]]%Z [] [("ref", IntArr [4294967297%Z])] []). eexists. split; [|split; [vm_compute; reflexivity|split; [reflexivity|]]].
  - split; cbn; repeat first [apply Forall_nil | apply Forall_cons | split]; try reflexivity; try discriminate; try (repeat constructor; cbn; intuition discriminate); try (intuition discriminate).
  - eexists. split; [vm_compute; reflexivity|reflexivity].
Qed.
Print Assumptions C42_labels_refuted.
Theorem C42_line_refuted : exists m file, medit_mesh m /\ write_medit_binary Z ex_codec true m = Ok file /\ read_medit_binary Z ex_codec file = Err ReadError.
Proof.
  exists (MeditIn F8 1 [[0]; [1]]%Z [Block "line" [[0; 1]]%Z] [] []). eexists. split; [|split; [vm_compute; reflexivity|vm_compute; reflexivity]].
  split; cbn; repeat first [apply Forall_nil | apply Forall_cons | split]; try reflexivity; try tauto; try (intros; repeat constructor); repeat constructor; cbn; tauto.
Qed.
Print Assumptions C42_line_refuted.
Theorem C42_empty_refuted (F : Type) fcodec big_ints (d : nat) (a : darr F) : dlen a = 0 ->
  write_medit_binary F fcodec big_ints (MeditIn F8 d [] [] [("a", a)] []) = Err IndexError.
Proof. intros H. unfold write_medit_binary, point_labels, pick_first_int, point_int0. cbn [mi_point_data mapM snd fst bind]. now rewrite H. Qed.
Print Assumptions C42_empty_refuted.

(** ** C43: ASCII files *)

(** The same for ASCII files, for points of any dimension but 0, if the labels of the points survive being
    read as floating point numbers. *)
Theorem C43_roundtrip_partial (fl : floats) (to_int : fl -> Z) (m : medit_in fl) :
  floats_ok fl -> medit_mesh m -> 0 < mi_dim m -> mi_dtype m <> OtherType -> Forall (label_reads to_int) (point_refs m) ->
  exists file, write_medit_ascii (fl := fl) m = Ok file /\
    read_medit_ascii (fl := fl) to_int file = Ok (MeditOut (mi_points m) (map fst (kept m)) (Some (point_refs m)) (map snd (kept m))).
Proof. intros. now apply ascii_roundtrip. Qed.
Print Assumptions C43_roundtrip_partial.

(** Reading any file with sections in any order, comments, blank lines and sections that are skipped. *)
Theorem C43_read (fl : floats) (to_int : fl -> Z) version dim pre (ps : list (list fl * Z)) post tail :
  floats_ok fl -> In version ["0"; "1"; "2"] -> 0 < dim ->
  Forall (part_ok (label_reads to_int) dim) (pre ++ AVertices ps :: post) -> forallb no_verts post = true -> tail = [] \/ tail = ["End"] ->
  read_medit_ascii (fl := fl) to_int ([row_line ["MeshVersionFormatted"; version]; row_line ["Dimension"; str_of_nat dim]] ++
     flat_map part_lines (pre ++ AVertices ps :: post) ++ tail) =
  Ok (MeditOut (map fst ps) (part_blocks (pre ++ post)) (Some (map snd ps)) (part_refs (pre ++ post))).
Proof. intros. now apply read_ascii. Qed.
Print Assumptions C43_read.

Example C43_example : medit_mesh ex_medit /\ Forall (label_reads (fl := int_floats) (fun z => z)) (point_refs ex_medit) /\
  exists file, write_medit_ascii (fl := int_floats) ex_medit = Ok file /\
    firstn 7 file = ["MeshVersionFormatted 2"; "Dimension 2"; ""; "Vertices"; "3"; "0 5 4"; "7 -8 5"] /\
    read_medit_ascii (fl := int_floats) (fun z => z) file = Ok (MeditOut (mi_points ex_medit) (map fst (kept ex_medit)) (Some [4; 5; 6]%Z) [[10]; [11; 12]]%Z).
Proof.
  split; [exact ex_medit_mesh|]. split.
  - repeat constructor; eexists; split; reflexivity.
  - eexists. split; [vm_compute; reflexivity|]. split; vm_compute; reflexivity.
Qed.
Example C43_example_read :
  let parts := [ANote "  # a mesh"; ALines "RequiredVertices" ["1"; "whatever"]; ACells "Hexaedra" "hexahedron" [([0; 1; 2; 3; 4; 5; 6; 7], 5)%Z];
                AVertices [([1; 2; 3], 0)%Z; ([4; 5; 6], 1)%Z]; ANote ""; ANumbers "SubDomainFromMesh" [[3; 4; 5; 6]%Z]; ACells "Edges" "line" [([0; 1], 7)%Z]] in
  Forall (part_ok (fl := int_floats) (label_reads (fl := int_floats) (fun z => z)) 3) parts.
Proof.
  repeat first [apply Forall_nil | apply Forall_cons]; cbn; auto;
    try (split; [reflexivity|eexists; split; reflexivity]); try (split; [reflexivity|]; split; [auto|]; repeat constructor).
  - right. eexists. reflexivity.
  - exists 4. split; [auto|]. repeat constructor.
Qed.

(** Not for every label: they are read as floating point numbers, of 32 bits if the points are.  Numbers with 24
    bits: what is left of an integer above 2^24 is rounded to an even one. *)
Definition round24 (z : Z) : Z := if (16777216 <? z)%Z then (z / 2 * 2)%Z else z.
Definition float24 : floats := Floats Z str_of_Z (fun s => option_map round24 (parse_Z s)) 0%Z.
Theorem C43_labels_refuted : exists m file, medit_mesh m /\ write_medit_ascii (fl := float24) m = Ok file /\ point_refs m = [16777217%Z] /\
  exists r, read_medit_ascii (fl := float24) (fun z => z) file = Ok r /\ mo_points r = mi_points m /\ mo_point_ref r = Some [16777216%Z].
Proof.
  exists (MeditIn F4 2 [[0; 0]]%Z [] [("ref", IntArr [16777217%Z])] []). eexists. split; [|split; [vm_compute; reflexivity|split; [reflexivity|]]].
  - split; cbn; repeat first [apply Forall_nil | apply Forall_cons | split]; try reflexivity; try discriminate; try (repeat constructor; cbn; intuition discriminate); try (intuition discriminate).
  - eexists. split; [vm_compute; reflexivity|split; reflexivity].
Qed.
Print Assumptions C43_labels_refuted.
(** Points of another type (integers, say) are refused. *)
Theorem C43_dtype_refuted (fl : floats) dim pts cells pd cd : write_medit_ascii (fl := fl) (MeditIn OtherType dim pts cells pd cd) = Err KeyError.
Proof. reflexivity. Qed.
Print Assumptions C43_dtype_refuted.
