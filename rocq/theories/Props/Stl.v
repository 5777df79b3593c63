(** Property theorems for STL: C27, C28. *)
From Verif.Lib Require Import Base Facts Text TextFacts Lines LinesFacts Bytes BytesFacts File Unique.
From Verif.Model Require Import Core Stl.
From Verif.Spec Require Import Core Surface.
From Verif.Proofs Require Import Stl.
From Coq Require Import NArith ZifyBool ZifyN ZifyNat.

(** C27: for every list of facets and every order of the coordinate rows, the points are
    pairwise distinct corners of the facets, and the k-th triangle has the corners of the
    k-th facet. *)
Theorem C27_facets {fl : floats} (ple : list fl -> list fl -> bool) facets :
  total_order ple -> Forall (fun t => length t = 3) facets ->
  shows ple (fst (data_from_facets ple facets)) (snd (data_from_facets ple facets)) facets.
Proof. intros. now apply data_from_facets_ok. Qed.
Print Assumptions C27_facets.

(** The points come in the order in which they first occur in the file. *)
Theorem C27_order {fl : floats} (ple : list fl -> list fl -> bool) facets :
  total_order ple -> facets <> [] ->
  exists positions, fst (data_from_facets ple facets) = take (concat facets) positions /\
    Sorted.StronglySorted lt positions /\
    (forall i, In i positions <-> exists p, nth_error (concat facets) i = Some p /\
        forall j q, j < i -> nth_error (concat facets) j = Some q -> ~ same_point ple p q).
Proof.
  intros [Ht Htr] Hne. destruct facets as [|t ts]; [congruence|]. unfold data_from_facets. cbn [fst].
  set (pts := concat (t :: ts)). exists (filter (firstb ple pts) (seq 0 (length pts))).
  split; [now apply dedup_points_ok|]. split.
  - apply filter_sorted, seq_sorted.
  - intros i. rewrite filter_In, in_seq, firstb_ok. unfold is_first. split.
    + intros [_ (p & Hp & Hf)]. exists p. split; [auto|]. intros j q Hj Hq. rewrite <- eqv_same. specialize (Hf j q Hj Hq). congruence.
    + intros (p & Hp & Hf). assert (i < length pts) by (apply nth_error_Some; congruence). split; [lia|].
      exists p. split; [auto|]. intros j q Hj Hq. specialize (Hf j q Hj Hq). rewrite <- eqv_same in Hf.
      destruct (eqv ple p q); congruence.
Qed.
Print Assumptions C27_order.

(** Rows of integers, compared lexicographically. *)
Fixpoint zlex (a b : list Z) : bool :=
  match a, b with
  | [], _ => true
  | _ :: _, [] => false
  | x :: a', y :: b' => (x <? y)%Z || ((x =? y)%Z && zlex a' b')
  end.
Lemma zlex_order : total_order zlex.
Proof.
  split.
  - induction a as [|x a IH]; intros [|y b]; cbn; auto. destruct (IH b); lia.
  - induction a as [|x a IH]; intros [|y b] [|z c]; cbn; try discriminate; auto. intros H1 H2.
    destruct (Z.ltb_spec x z); [reflexivity|]. cbn. destruct (Z.eqb_spec x z); [|lia].
    assert (x = y) by lia. subst. cbn. rewrite Z.ltb_irrefl, Z.eqb_refl in *. cbn in *. eauto.
Qed.

Definition ex_facets : list (list (list Z)) :=
  [[[0; 0; 0]; [1; 0; 0]; [0; 1; 0]]; [[1; 0; 0]; [1; 1; 0]; [0; 1; 0]]]%Z.
Example C27_instance :
  total_order zlex /\ Forall (fun t => length t = 3) ex_facets /\
  @data_from_facets int_floats zlex ex_facets =
    ([[0; 0; 0]; [1; 0; 0]; [0; 1; 0]; [1; 1; 0]]%Z, [Block "triangle" [[0; 1; 2]; [1; 3; 2]]%Z]).
Proof. split; [exact zlex_order|]. split; [repeat constructor|]. now vm_compute. Qed.

(** C28: binary round trip.  Coordinates must be representable in four bytes. *)
Theorem C28_binary_roundtrip {fl : floats} (f4 : codec fl) ple normal_of version pts bs tris :
  total_order ple -> codec_width f4 4 -> (forall t, length (normal_of t) = 3) ->
  String.length version <= 43 -> (N.of_nat (length tris) < 2 ^ 32)%N ->
  Forall (fun p => length p = 2 \/ length p = 3) pts ->
  Forall (Forall (exact f4)) (map (in_space fzero) pts) ->
  triangles_of fzero pts bs tris ->
  exists nfs r, stl_facets normal_of pts bs None = Ok nfs /\
    read_stl f4 ple (write_binary f4 version nfs) = Ok r /\
    shows ple (t_points r) (t_cells r) tris.
Proof.
  intros Ho Hw Hn Hv Hl Hp He Ht. destruct (stl_facets_ok f4 normal_of pts bs tris Hn Hp Ht) as (nfs & E & <- & _ & Hg & Hx).
  rewrite map_length in Hl.
  destruct (binary_roundtrip f4 ple Ho Hw version nfs Hv Hl Hg (Hx He)) as (r & R1 & R2 & _). eauto.
Qed.
Print Assumptions C28_binary_roundtrip.

(** Any 80-byte header, any record contents: the size decides. *)
Theorem C28_binary_detection {fl : floats} (f4 : codec fl) ple header n records :
  length header = 80 -> (n < 2 ^ 32)%N -> N.of_nat (length records) = (50 * n)%N ->
  read_stl f4 ple (header ++ uint_bytes false 4 n ++ records) = Ok (read_stl_binary f4 ple (N.to_nat n) records).
Proof. exact (binary_detected f4 ple header n records). Qed.
Print Assumptions C28_binary_detection.

(** Every file of fewer than 80 bytes and every file of at least 84 bytes whose size does
    not match its count is read as text. *)
Theorem C28_text_detection_partial {fl : floats} (f4 : codec fl) ple b :
  (length b < 80 -> read_stl f4 ple b = read_stl_ascii ple (lines_of (bytes_string b))) /\
  (84 <= length b -> (84 + uint_value false (firstn 4 (skipn 80 b)) * 50)%N <> N.of_nat (length b) ->
     read_stl f4 ple b = read_stl_ascii ple (tl (lines_of (bytes_string b)))).
Proof.
  split.
  - intros H. unfold read_stl. destruct (N.ltb_spec (N.of_nat (length b)) 80); [reflexivity|lia].
  - intros H1 H2. unfold read_stl. destruct (N.ltb_spec (N.of_nat (length b)) 80); [lia|].
    destruct (N.ltb_spec (N.of_nat (length b)) 84); [lia|]. unfold slice.
    destruct (N.eqb_spec (84 + uint_value false (firstn (84 - 80) (skipn 80 b)) * 50) (N.of_nat (length b))); [contradiction|reflexivity].
Qed.
Print Assumptions C28_text_detection_partial.

(** Files of 80 to 83 bytes are not read at all: a correct text file of one triangle. *)
Definition short_stl : list string :=
  ["solid triangle"; "facet normal 0 0 1"; "vertex 0 0 0"; "vertex 1 0 0"; "vertex 0 1 0"; "endsolid"].
Definition short_file : bytes := string_bytes (text_of short_stl).
Lemma short_file_read : @read_stl int_floats (int_codec 4) zlex short_file = Err IndexError.
Proof. vm_compute. reflexivity. Qed.
Lemma short_file_size : N.of_nat (length short_file) <> (84 + uint_value false (firstn 4 (skipn 80 short_file)) * 50)%N.
Proof. vm_compute. discriminate. Qed.
Lemma short_file_text : exists r, @read_stl_ascii int_floats zlex (lines_of (bytes_string short_file)) = Ok r.
Proof.
  exists (@StlMesh Z [[0; 0; 0]; [1; 0; 0]; [0; 1; 0]]%Z [Block "triangle" [[0; 1; 2]]%Z] (Some [[0; 0; 1]]%Z)).
  vm_compute. reflexivity.
Qed.
Theorem C28_short_refuted :
  ~ (forall b, N.of_nat (length b) <> (84 + uint_value false (firstn 4 (skipn 80 b)) * 50)%N ->
       (exists r, @read_stl_ascii int_floats zlex (lines_of (bytes_string b)) = Ok r) ->
       exists r, @read_stl int_floats (int_codec 4) zlex b = Ok r).
Proof.
  intros H. assert (E : @read_stl int_floats (int_codec 4) zlex short_file = Err IndexError) by exact short_file_read.
  destruct (H short_file short_file_size short_file_text) as [r Hr]. rewrite E in Hr. discriminate.
Qed.
Print Assumptions C28_short_refuted.

(** ASCII round trip: triangles and normals, if the text contains no control characters
    below TAB and the file is not as large as the count that four letters spell. *)
Theorem C28_ascii_roundtrip {fl : floats} (f4 : codec fl) ple normal_of pts bs tris :
  total_order ple -> floats_ok fl -> (forall t, length (normal_of t) = 3) ->
  Forall (fun p => length p = 2 \/ length p = 3) pts ->
  triangles_of fzero pts bs tris ->
  exists nfs, stl_facets normal_of pts bs None = Ok nfs /\
    let file := string_bytes (text_of (write_ascii nfs)) in
    Forall (fun b => 9 <= b)%N file -> (length file < 80 \/ 84 <= length file) ->
    (N.of_nat (length file) < 7579354134)%N ->
    exists r, read_stl f4 ple file = Ok r /\ shows ple (t_points r) (t_cells r) tris /\
      t_normals r = match tris with [] => None | _ => Some (map normal_of tris) end.
Proof.
  intros Ho Hfl Hn Hp Ht. destruct (stl_facets_ok f4 normal_of pts bs tris Hn Hp Ht) as (nfs & E & <- & E3 & Hg & _).
  exists nfs. split; [exact E|]. intros file H1 H2 H3. unfold file in *. rewrite string_bytes_length in *.
  destruct (ascii_roundtrip f4 ple Ho Hfl nfs Hg H1) as (r & R1 & R2 & R3); [lia|].
  exists r. split; [exact R1|]. split; [exact R2|]. rewrite R3, E3.
  destruct nfs; reflexivity.
Qed.
Print Assumptions C28_ascii_roundtrip.

Definition ex_stl_points : list (list Z) := [[0; 0]; [1; 0]; [0; 1]; [1; 1]]%Z.
Definition ex_stl_cells : list block := [Block "triangle" [[0; 1; 2]]; Block "line" [[0; 1]]; Block "triangle" [[1; 3; 2]]]%Z.
Lemma int_codec_exact z : sint_range 4 z -> @exact int_floats (int_codec 4) z.
Proof. intros. unfold exact, int_codec. cbn [enc dec]. now apply sint_value_bytes. Qed.
Example C28_instance :
  @triangles_of int_floats 0%Z ex_stl_points ex_stl_cells ex_facets /\
  Forall (Forall (@exact int_floats (int_codec 4))) (map (in_space 0%Z) ex_stl_points) /\
  @codec_width int_floats (int_codec 4) 4 /\
  (do nfs <- @stl_facets int_floats (fun _ => [0; 0; 1]%Z) ex_stl_points ex_stl_cells None;
   @read_stl int_floats (int_codec 4) zlex (@write_binary int_floats (int_codec 4) "5.3.5" nfs)) =
    Ok (@StlMesh Z [[0; 0; 0]; [1; 0; 0]; [0; 1; 0]; [1; 1; 0]]%Z [Block "triangle" [[0; 1; 2]; [1; 3; 2]]%Z] None) /\
  (do nfs <- @stl_facets int_floats (fun _ => [0; 0; 1]%Z) ex_stl_points ex_stl_cells None;
   @read_stl int_floats (int_codec 4) zlex (string_bytes (text_of (@write_ascii int_floats nfs)))) =
    Ok (@StlMesh Z [[0; 0; 0]; [1; 0; 0]; [0; 1; 0]; [1; 1; 0]]%Z [Block "triangle" [[0; 1; 2]; [1; 3; 2]]%Z]
          (Some [[0; 0; 1]; [0; 0; 1]]%Z)).
Proof.
  split; [|split; [|split; [|split]]].
  - repeat constructor.
  - repeat (constructor; [repeat (constructor; [apply int_codec_exact; unfold sint_range; cbn; lia|]); constructor|]). constructor.
  - intros v. apply sint_bytes_length.
  - vm_compute. reflexivity.
  - vm_compute. reflexivity.
Qed.
