(** Property theorems for VTU data arrays and polyhedra: C19-C21. *)
From Verif.Lib Require Import Base Facts Text Bytes BytesFacts.
From Verif.Model Require Import Core Vtu.
From Verif.Spec Require Import Core Vtu.
From Verif.Proofs Require Import Vtu VtuPoly.
From Coq Require Import NArith Sorting.Sorted.

(** C19: an array of [k]-byte items, compressed in blocks of [k*q] bytes, is read back item
    by item, whatever the (invertible) compressor, header width and byte order are, and
    whatever decodable text follows (appended arrays are followed by other arrays).  The
    three bounds say that the header's entries fit into the header's integer type. *)
Theorem C19_roundtrip compress decompress big w k q items tail r :
  (forall b, Forall is_byte b -> decompress (compress b) = Ok b) ->
  (forall b, Forall is_byte b -> Forall is_byte (compress b)) ->
  0 < w -> 0 < k -> 0 < q -> items <> [] ->
  Forall (fun x => length x = k) items -> Forall (Forall is_byte) items ->
  (N.of_nat (k * q) < capacity w)%N ->
  (N.of_nat (length (chunks (k * q) (concat items))) < capacity w)%N ->
  (N.of_nat (length (concat (map compress (chunks (k * q) (concat items))))) < capacity w)%N ->
  b64decode tail = Ok r ->
  exists text, write_compressed compress big w (k * q) (concat items) = Ok text /\
    read_compressed decompress big w k (text ++ tail) = Ok items.
Proof. exact (compressed_ok compress decompress big w k q items tail r). Qed.
Print Assumptions C19_roundtrip.

(** The writer's own block size, 32768 bytes, is a whole number of items for every dtype
    the format knows. *)
Theorem C19_block_size k : In k [1; 2; 4; 8] -> exists q, 0 < q /\ k * q = N.to_nat 32768.
Proof.
  intros H. destruct H as [<-|[<-|[<-|[<-|[]]]]].
  - exists (N.to_nat 32768). lia.
  - exists (N.to_nat 16384). lia.
  - exists (N.to_nat 8192). lia.
  - exists (N.to_nat 4096). lia.
Qed.
Print Assumptions C19_block_size.

(** The exception: an empty array is written, but reading it raises ValueError. *)
Theorem C19_empty compress decompress big w k m tail r : 0 < w -> 0 < m ->
  (N.of_nat m < capacity w)%N -> b64decode tail = Ok r ->
  exists text, write_compressed compress big w m [] = Ok text /\
    read_compressed decompress big w k (text ++ tail) = Err ValueError.
Proof. exact (compressed_empty compress decompress big w k m tail r). Qed.
Print Assumptions C19_empty.

(** An instance: three 2-byte items in blocks of 4 bytes (the last block is short), a
    "compressor" that prefixes a byte. *)
Definition ex_items : list bytes := [[1; 2]; [3; 255]; [0; 7]]%N.
Example C19_instance :
  let c := cons 9%N in
  let d := fun b : bytes => match b with [] => Err ValueError | _ :: r => Ok r end in
  (forall b, Forall is_byte b -> d (c b) = Ok b) /\
  (forall b, Forall is_byte b -> Forall is_byte (c b)) /\
  Forall (fun x => length x = 2) ex_items /\ Forall (Forall is_byte) ex_items /\
  (N.of_nat (2 * 2) < capacity 4)%N /\
  (N.of_nat (length (chunks (2 * 2) (concat ex_items))) < capacity 4)%N /\
  (N.of_nat (length (concat (map c (chunks (2 * 2) (concat ex_items))))) < capacity 4)%N /\
  (do t <- write_compressed c false 4 4 (concat ex_items); read_compressed d false 4 2 t) = Ok ex_items.
Proof.
  repeat split.
  - intros b Hb. constructor; [now vm_compute|exact Hb].
  - repeat constructor.
  - repeat constructor; now vm_compute.
Qed.

(** C20: the size formula is the length of the encoding. *)
Theorem C20_size l : num_base64_chars (Z.of_nat (length l)) = Z.of_nat (length (b64encode l)).
Proof. exact (num_base64_chars_ok l). Qed.
Print Assumptions C20_size.

(** The encoding itself: decoding gives the bytes back, padding included. *)
Theorem C20_base64 l : Forall is_byte l -> b64decode (b64encode l) = Ok l.
Proof. exact (b64_roundtrip_nil l). Qed.
Print Assumptions C20_base64.

(** The uncompressed array, including the empty one, is read back item by item. *)
Theorem C20_roundtrip big w k items tail r : 0 < w -> 0 < k ->
  Forall (fun x => length x = k) items -> Forall (Forall is_byte) items ->
  (N.of_nat (length (concat items)) < capacity w)%N ->
  b64decode tail = Ok r ->
  exists text, write_uncompressed big w (concat items) = Ok text /\
    read_uncompressed big w k (text ++ tail) = Ok items.
Proof. exact (uncompressed_ok big w k items tail r). Qed.
Print Assumptions C20_roundtrip.

(** Files that encode the header on its own are read as well (header sizes 4 and 8). *)
Theorem C20_separate_header big w k items tail r : 0 < w -> w mod 3 <> 0 -> 0 < k ->
  Forall (fun x => length x = k) items -> Forall (Forall is_byte) items ->
  (N.of_nat (length (concat items)) < capacity w)%N ->
  b64decode tail = Ok r ->
  read_uncompressed big w k
    (b64encode (uint_bytes big w (N.of_nat (length (concat items)))) ++
     b64encode (concat items) ++ tail) = Ok items.
Proof. exact (uncompressed_separate big w k items tail r). Qed.
Print Assumptions C20_separate_header.

Example C20_instance :
  b64encode [77; 97; 110; 0]%N = list_ascii_of_string "TWFuAA==" /\
  (do t <- write_uncompressed true 8 (concat ex_items);
   read_uncompressed true 8 2 (t ++ b64encode [1; 2; 3; 4]%N)) = Ok ex_items /\
  (do t <- write_uncompressed true 8 []; read_uncompressed true 8 2 t) = Ok [] /\
  b64decode (b64encode [1; 2; 3; 4]%N) = Ok [1; 2; 3; 4]%N.
Proof. now vm_compute. Qed.

(** C21: the polyhedra come back, grouped by their number of nodes, the groups in order of
    first occurrence and the cells of a group in order; the cell data lists come back in
    ascending order of the number of nodes. *)
Theorem C21_cells bs : forallb (fun b => startswith (ptype b) "polyhedron") bs = true ->
  flat_map pdata bs <> [] -> Forall (fun c : polycell => c <> []) (flat_map pdata bs) ->
  exists pa items, write_poly bs = Ok pa /\
    read_poly (pa_offsets pa) (pa_faces pa) (pa_faceoffsets pa) = Ok (by_node_count (flat_map pdata bs), items) /\
    forall V (d : list V) ns, length d = length (flat_map pdata bs) ->
      StronglySorted lt ns -> (forall n, In n ns <-> In n (map node_count (flat_map pdata bs))) ->
      poly_data items d = map (fun n => values_with n (flat_map pdata bs) d) ns.
Proof. exact (poly_roundtrip bs). Qed.
Print Assumptions C21_cells.

(** Hence cell data stays with its cell when the groups' node counts ascend, e.g. when all
    cells have the same number of nodes.  Missing: all other meshes, see below. *)
Theorem C21_cell_data_partial bs : forallb (fun b => startswith (ptype b) "polyhedron") bs = true ->
  flat_map pdata bs <> [] -> Forall (fun c : polycell => c <> []) (flat_map pdata bs) ->
  StronglySorted lt (first_numbers (map node_count (flat_map pdata bs))) ->
  exists pa items, write_poly bs = Ok pa /\
    read_poly (pa_offsets pa) (pa_faces pa) (pa_faceoffsets pa) = Ok (by_node_count (flat_map pdata bs), items) /\
    forall V (d : list V), length d = length (flat_map pdata bs) ->
      poly_data items d = aligned_data (flat_map pdata bs) d.
Proof.
  intros H1 H2 H3 H4. destruct (poly_roundtrip bs H1 H2 H3) as (pa & items & E1 & E2 & E3).
  exists pa, items. split; [exact E1|]. split; [exact E2|]. intros V d Hd. apply E3; auto.
  intros n. apply In_first_numbers.
Qed.
Print Assumptions C21_cell_data_partial.

(** A hexahedron followed by a tetrahedron: the data of the two is exchanged. *)
Definition ex_hexa : polycell :=
  [[0; 1; 2; 3]; [4; 5; 6; 7]; [0; 1; 5; 4]; [1; 2; 6; 5]; [2; 3; 7; 6]; [3; 0; 4; 7]]%Z.
Definition ex_tetra : polycell := [[0; 1; 2]; [0; 1; 8]; [1; 2; 8]; [0; 2; 8]]%Z.
Theorem C21_cell_data_refuted :
  ~ (forall bs, forallb (fun b => startswith (ptype b) "polyhedron") bs = true ->
     flat_map pdata bs <> [] -> Forall (fun c : polycell => c <> []) (flat_map pdata bs) ->
     forall pa cells items (d : list nat), write_poly bs = Ok pa ->
       read_poly (pa_offsets pa) (pa_faces pa) (pa_faceoffsets pa) = Ok (cells, items) ->
       length d = length (flat_map pdata bs) ->
       poly_data items d = aligned_data (flat_map pdata bs) d).
Proof.
  intros H. specialize (H [PBlock "polyhedron8" [ex_hexa]; PBlock "polyhedron4" [ex_tetra]] eq_refl).
  cbn [flat_map pdata app] in H. specialize (H ltac:(discriminate)).
  specialize (H ltac:(repeat constructor; discriminate)).
  specialize (H _ _ _ [10; 20] eq_refl eq_refl eq_refl). vm_compute in H. discriminate.
Qed.
Print Assumptions C21_cell_data_refuted.

Example C21_instance :
  let bs := [PBlock "polyhedron4" [ex_tetra]; PBlock "polyhedron8" [ex_hexa; ex_hexa]; PBlock "polyhedron4" [ex_tetra]] in
  by_node_count (flat_map pdata bs) =
    [("polyhedron4", [ex_tetra; ex_tetra]); ("polyhedron8", [ex_hexa; ex_hexa])] /\
  StronglySorted lt (first_numbers (map node_count (flat_map pdata bs))) /\
  Forall (fun c : polycell => c <> []) (flat_map pdata bs) /\
  aligned_data (flat_map pdata bs) [1; 2; 3; 4] = [[1; 4]; [2; 3]].
Proof. repeat split; repeat constructor; discriminate. Qed.
