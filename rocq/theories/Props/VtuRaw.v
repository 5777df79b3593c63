(** VTU files with appended raw data (C73). *)
From Coq Require Import ZArith NArith List String Ascii Bool Lia Permutation.
From Verif.Lib Require Import Base Text Lines Bytes BytesFacts File.
From Verif.Model Require Import Core Vtk VtkFile Cxml VtuFile.
From Verif.Spec Require Import Core Blocks VtkFile Cxml VtuFile VtuRaw.
From Verif.Proofs Require Import Cxml VtuFile VtuRaw.
From Verif.Props Require Import VtuFile.
Import ListNotations.

(** C73: a file with appended raw data reads like the same document with every array, as a binary array, in the text of its
    element.  Each array of the data belongs to one element DataArray; the arrays are
    stored as they are, or all of them in compressed blocks (the decompressor is an arbitrary function); and no array's position in
    the encoded text equals the offset of a later array in the file.  (Without the last condition this is false:
    [C73_offsets_refuted].)  Whatever goes wrong with the one document goes wrong with the other. *)
Theorem C73_inline_partial {V} (nk : unums V) (pk : packers) native big w arrays root s :
  raw_vtu_file arrays root s -> raw_document pk big w arrays root -> no_collision w arrays ->
  read_vtu nk pk native s = read_root nk pk native (inline_document big w arrays root).
Proof. apply raw_reads. Qed.
Print Assumptions C73_inline_partial.

(** Two points, and one line; the offsets are 0, 28, 36 and 48, the positions in the text 0, 40, 52 and 68. *)
Definition ok_head : list string :=
  ["<VTKFile type=" ++ q "UnstructuredGrid" ++ " version=" ++ q "1.0" ++ " byte_order=" ++ q "LittleEndian" ++ " header_type=" ++ q "UInt32" ++ ">";
   "<UnstructuredGrid>"; "<Piece NumberOfPoints=" ++ q "2" ++ " NumberOfCells=" ++ q "1" ++ ">";
   "<Points>" ++ darray "Float32" "Points" (" NumberOfComponents=" ++ q "3") "0" ++ "</Points>";
   "<Cells>" ++ darray "Int32" "offsets" "" "28" ++ darray "UInt8" "types" "" "48" ++ darray "Int32" "connectivity" "" "36" ++ "</Cells>";
   "</Piece>"; "</UnstructuredGrid>"].
Definition ints (w : nat) (l : list Z) : bytes := concat (map (sint_bytes false w) l).
Definition stored_plain (d : bytes) : stored := Stored (sized false 4 d) d.
Definition ok_arrays : list stored := map stored_plain [ints 4 [0; 0; 0; 1; 2; 3]%Z; ints 4 [2]%Z; ints 4 [0; 1]%Z; ints 1 [3]%Z].
Definition ok_body : chars := ch (" encoding=" ++ q "raw").
Definition ok_file : chars :=
  raw_text (lines ok_head ++ ch "<AppendedData" ++ ok_body ++ [">"%char]) [lf] (appended ok_arrays) [] (ch "</AppendedData>" ++ lines ["</VTKFile>"]).
Definition ok_root : xnode :=
  match parse_doc ((lines ok_head ++ ch "<AppendedData" ++ ok_body ++ [">"%char]) ++ ch "</AppendedData>" ++ lines ["</VTKFile>"]) with
  | Some r => r | None => XNode "" [] [] [] end.
Definition byte_check (p : stored) : bool :=
  forallb (fun b => (b <? 256)%N) (in_file p) && (forallb (fun b => (b <? 256)%N) (content p) && (N.of_nat (length (content p)) <? capacity 4)%N).
Lemma bytes_checked l : forallb byte_check l = true ->
  Forall (fun p => Forall is_byte (in_file p) /\ Forall is_byte (content p) /\ (N.of_nat (length (content p)) < capacity 4)%N) l.
Proof.
  intros G. apply Forall_forall. intros d Hd. rewrite forallb_forall in G. specialize (G d Hd). apply andb_true_iff in G. destruct G as [G1 G2].
  apply andb_true_iff in G2. destruct G2 as [G2 G3].
  repeat split; [apply Forall_forall; rewrite forallb_forall in G1..|now apply N.ltb_lt]; [|rewrite forallb_forall in G2]; intros b Hb; apply N.ltb_lt; auto.
Qed.
Example C73_ok_file : raw_vtu_file ok_arrays ok_root ok_file.
Proof.
  unfold ok_file. apply (RawFile ok_arrays ok_root (lines ok_head) ok_body [lf] [] (lines ["</VTKFile>"])).
  - apply first_find_sub. vm_compute. reflexivity.
  - exists (ch (" encoding=" ++ String quote "ra")), "w"%char. reflexivity.
  - vm_compute. intuition discriminate.
  - vm_compute. intuition discriminate.
  - intros [].
  - apply first_find_sub. vm_compute. reflexivity.
  - vm_compute. reflexivity.
  - vm_compute. reflexivity.
Qed.
Example C73_ok_document : raw_document one_byte false 4 ok_arrays ok_root.
Proof.
  constructor.
  - vm_compute. reflexivity.
  - vm_compute. reflexivity.
  - assert (E : dget "compressor" (xattrs ok_root) = None) by (vm_compute; reflexivity). rewrite E.
    unfold ok_arrays. apply Forall_forall. intros p Hp. apply in_map_iff in Hp. destruct Hp as (d & <- & _). reflexivity.
  - set (a := List.last (xchildren ok_root) (XNode "" [] [] [])).
    exists (removelast (xchildren ok_root)), (xattrs a), (xtext a), (xchildren a). split; [vm_compute; reflexivity|].
    vm_compute. constructor; [discriminate|constructor].
  - vm_compute. reflexivity.
  - assert (E : offsets ok_root = ["0"; "28"; "48"; "36"]%string) by (vm_compute; reflexivity). rewrite E.
    assert (E2 : map str_of_nat (file_offsets ok_arrays) = ["0"; "28"; "36"; "48"]%string) by (vm_compute; reflexivity). rewrite E2.
    do 2 apply perm_skip. apply perm_swap.
  - now apply bytes_checked.
Qed.
Example C73_ok_collision : no_collision 4 ok_arrays.
Proof.
  intros i j a b Hij. assert (E1 : text_offsets 4 ok_arrays = [0; 40; 52; 68]) by (vm_compute; reflexivity).
  assert (E2 : file_offsets ok_arrays = [0; 28; 36; 48]) by (vm_compute; reflexivity). rewrite E1, E2.
  destruct i as [|[|[|[|i]]]]; destruct j as [|[|[|[|j]]]]; cbn; intros Ha Hb; try lia; try congruence; try (destruct i; discriminate); try (destruct j; discriminate).
Qed.
Example C73_ok_read : read_vtu uint_nums one_byte false ok_file = Ok (VMesh "float32" [[0; 0; 0]; [1; 2; 3]]%Z [Block "line" [[0; 1]]%Z] [] [] []).
Proof. vm_compute. reflexivity. Qed.

(** The same mesh compressed, the points in two blocks: the offsets are 0, 46, 67 and 92. *)
Definition packed_head : list string :=
  ["<VTKFile type=" ++ q "UnstructuredGrid" ++ " version=" ++ q "1.0" ++ " byte_order=" ++ q "LittleEndian" ++ " compressor=" ++ q "vtkZLibDataCompressor" ++ ">";
   "<UnstructuredGrid>"; "<Piece NumberOfPoints=" ++ q "2" ++ " NumberOfCells=" ++ q "1" ++ ">";
   "<Points>" ++ darray "Float32" "Points" (" NumberOfComponents=" ++ q "3") "0" ++ "</Points>";
   "<Cells>" ++ darray "Int32" "offsets" "" "46" ++ darray "UInt8" "types" "" "92" ++ darray "Int32" "connectivity" "" "67" ++ "</Cells>";
   "</Piece>"; "</UnstructuredGrid>"].
Definition stored_packed (blocks : list bytes) : stored :=
  Stored (numbers_of false 4 (N.of_nat (length blocks) :: 16%N :: 8%N :: map (fun b => N.of_nat (S (length b))) blocks) ++ concat (map (cons 120%N) blocks)) (concat blocks).
Definition packed_arrays : list stored :=
  map stored_packed [[ints 4 [0; 0; 0; 1]%Z; ints 4 [2; 3]%Z]; [ints 4 [2]%Z]; [ints 4 [0; 1]%Z]; [ints 1 [3]%Z]].
Definition packed_file : chars :=
  raw_text (lines packed_head ++ ch "<AppendedData" ++ ok_body ++ [">"%char]) [lf] (appended packed_arrays) [] (ch "</AppendedData>" ++ lines ["</VTKFile>"]).
Definition packed_root : xnode :=
  match parse_doc ((lines packed_head ++ ch "<AppendedData" ++ ok_body ++ [">"%char]) ++ ch "</AppendedData>" ++ lines ["</VTKFile>"]) with
  | Some r => r | None => XNode "" [] [] [] end.
Example C73_packed_file : raw_vtu_file packed_arrays packed_root packed_file.
Proof.
  unfold packed_file. apply (RawFile packed_arrays packed_root (lines packed_head) ok_body [lf] [] (lines ["</VTKFile>"])).
  - apply first_find_sub. vm_compute. reflexivity.
  - exists (ch (" encoding=" ++ String quote "ra")), "w"%char. reflexivity.
  - vm_compute. intuition discriminate.
  - vm_compute. intuition discriminate.
  - intros [].
  - apply first_find_sub. vm_compute. reflexivity.
  - vm_compute. reflexivity.
  - vm_compute. reflexivity.
Qed.
Lemma stored_packed_ok blocks : forallb (fun b => (N.of_nat (S (length b)) <? capacity 4)%N) blocks && (N.of_nat (length blocks) <? capacity 4)%N = true ->
  packed (unpack one_byte "vtkZLibDataCompressor") false 4 (stored_packed blocks).
Proof.
  intros H. apply andb_true_iff in H. destruct H as [H1 H2]. exists 16%N, 8%N, (map (fun b => (120%N :: b, b)) blocks). unfold stored_packed. cbn [in_file content].
  rewrite !map_map, map_length. cbn [fst snd length]. rewrite map_id. repeat split.
  - apply Forall_forall. intros b Hb. apply in_map_iff in Hb. destruct Hb as (d & <- & _). reflexivity.
  - now apply N.ltb_lt.
  - apply Forall_forall. intros b Hb. apply in_map_iff in Hb. destruct Hb as (d & <- & Hd). rewrite forallb_forall in H1. apply N.ltb_lt. exact (H1 d Hd).
Qed.
Example C73_packed_document : raw_document one_byte false 4 packed_arrays packed_root.
Proof.
  constructor.
  - vm_compute. reflexivity.
  - vm_compute. reflexivity.
  - assert (E : dget "compressor" (xattrs packed_root) = Some "vtkZLibDataCompressor"%string) by (vm_compute; reflexivity). rewrite E.
    split; [right; now left|]. unfold packed_arrays. cbn [map]. repeat (constructor; [apply stored_packed_ok; vm_compute; reflexivity|]). constructor.
  - set (a := List.last (xchildren packed_root) (XNode "" [] [] [])).
    exists (removelast (xchildren packed_root)), (xattrs a), (xtext a), (xchildren a). split; [vm_compute; reflexivity|].
    vm_compute. constructor; [discriminate|constructor].
  - vm_compute. reflexivity.
  - assert (E : offsets packed_root = ["0"; "46"; "92"; "67"]%string) by (vm_compute; reflexivity). rewrite E.
    assert (E2 : map str_of_nat (file_offsets packed_arrays) = ["0"; "46"; "67"; "92"]%string) by (vm_compute; reflexivity). rewrite E2.
    do 2 apply perm_skip. apply perm_swap.
  - now apply bytes_checked.
Qed.
Example C73_packed_collision : no_collision 4 packed_arrays.
Proof.
  intros i j a b Hij. assert (E1 : text_offsets 4 packed_arrays = [0; 40; 52; 68]) by (vm_compute; reflexivity).
  assert (E2 : file_offsets packed_arrays = [0; 46; 67; 92]) by (vm_compute; reflexivity). rewrite E1, E2.
  destruct i as [|[|[|[|i]]]]; destruct j as [|[|[|[|j]]]]; cbn; intros Ha Hb; try lia; try congruence; try (destruct i; discriminate); try (destruct j; discriminate).
Qed.
Example C73_packed_read : read_vtu uint_nums one_byte false packed_file = Ok (VMesh "float32" [[0; 0; 0]; [1; 2; 3]]%Z [Block "line" [[0; 1]]%Z] [] [] []).
Proof. vm_compute. reflexivity. Qed.
