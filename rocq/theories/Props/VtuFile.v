(** Whole VTU files (C70-C73). *)
From Coq Require Import ZArith NArith List String Ascii Bool Lia.
From Verif.Lib Require Import Base Text TextFacts Lines LinesFacts Bytes BytesFacts File.
From Verif.Model Require Import Core Vtk VtkFile Cxml VtuFile.
From Verif.Spec Require Import Core Blocks Vtk Cxml VtkFile VtuFile.
From Verif.Proofs Require Import Vtk VtuFile VtuPieces.
Import ListNotations.

(** C70: a mesh survives writing a VTU file and reading it: points in three dimensions, neighbouring cells of one type in one
    block, all data of points and cells ([vtu_image]).  Conditions: at least one block, no empty blocks, cells of the types
    of the format (no polyhedra), names without the characters less-than, ampersand, double quote and without control
    characters, data of the ten numeric types of the format with zero or one further dimension.
    The header type is UInt32 unless the caller gives another. *)
Definition header_of (header_type : option string) : string := match header_type with Some t => t | None => "UInt32" end.

Theorem C70_ascii {V} (nk : unums V) (pk : packers) fits big native bsz ver compression header_type idt m :
  ascii_unums nk fits -> vtu_mesh nk fits idt m -> Forall (fun b => fixed_block b \/ varying_block b) (vm_cells m) ->
  Forall nonempty_block (vm_cells m) -> comment_ok ver = true -> value_ok (header_of header_type) = true ->
  exists file, write_vtu nk pk big bsz ver false compression header_type idt m = Ok file /\
    read_vtu nk pk native file = Ok (vtu_image nk m).
Proof.
  intros Hn Hm Hb Hnb Hv Hh. set (given := match header_type with Some _ => true | None => false end).
  destruct (vtu_file nk fits pk big bsz UAscii (header_of header_type) Hn I native given ver idt m Hm Hb Hnb) as (t & Et & Er); auto.
  - apply Forall_forall. intros n _. exact I.
  - destruct header_type; [discriminate|reflexivity].
  - exists (print_doc t). unfold write_vtu. cbn [mode_of negb bind]. fold (header_of header_type) given. rewrite Et. split; [reflexivity|]. now apply Er.
Qed.
Print Assumptions C70_ascii.

(** Binary files without compression, in both byte orders: the sizes of the arrays must fit into the header items, of [w]
    bytes. *)
Theorem C70_binary {V} (nk : unums V) (pk : packers) fits big native bsz ver header_type w idt m :
  binary_unums nk big fits -> vtu_mesh nk fits idt m -> Forall (fun b => fixed_block b \/ varying_block b) (vm_cells m) ->
  Forall nonempty_block (vm_cells m) -> comment_ok ver = true -> value_ok (header_of header_type) = true ->
  dget (header_of header_type) header_widths = Some w -> sizes_fit w m ->
  exists file, write_vtu nk pk big bsz ver true "" header_type idt m = Ok file /\
    read_vtu nk pk native file = Ok (vtu_image nk m).
Proof.
  intros Hn Hm Hb Hnb Hv Hh Hw Hs. set (given := match header_type with Some _ => true | None => false end).
  destruct (vtu_file nk fits pk big bsz UPlain (header_of header_type) Hn I native given ver idt m Hm Hb Hnb) as (t & Et & Er); auto.
  - eapply Forall_impl; [|exact Hs]. intros n H. exists w. auto.
  - destruct header_type; [discriminate|reflexivity].
  - exists (print_doc t). unfold write_vtu. cbn [mode_of negb bind String.eqb]. fold (header_of header_type) given. rewrite Et. split; [reflexivity|]. now apply Er.
Qed.
Print Assumptions C70_binary.

(** Compressed files, for every lossless compressor: no array is empty, and blocks, compressed blocks and the file are
    smaller than the header items allow.  The block size of the writer is 32768 = 8 * 4096. *)
Theorem C70_compressed {V} (nk : unums V) (pk : packers) fits big native q ver compression c header_type w idt m :
  binary_unums nk big fits -> vtu_mesh nk fits idt m -> Forall (fun b => fixed_block b \/ varying_block b) (vm_cells m) ->
  Forall nonempty_block (vm_cells m) -> comment_ok ver = true -> value_ok (header_of header_type) = true ->
  dget (header_of header_type) header_widths = Some w -> sizes_fit w m ->
  In (compression, c) [("lzma", "vtkLZMADataCompressor"); ("zlib", "vtkZLibDataCompressor")]%string -> lossless pk c ->
  0 < q -> (N.of_nat (8 * q) < capacity w)%N ->
  (forall b, length b <= 8 * q -> (N.of_nat (length (pack pk c b)) < capacity w)%N) ->
  Forall (fun n => 0 < n) (array_sizes m) ->
  exists file, write_vtu nk pk big (8 * q) ver true compression header_type idt m = Ok file /\
    ((N.of_nat (length file) < capacity w)%N -> read_vtu nk pk native file = Ok (vtu_image nk m)).
Proof.
  intros Hn Hm Hb Hnb Hv Hh Hw Hs Hc Hl Hq H8 Hpk Hne. set (given := match header_type with Some _ => true | None => false end).
  assert (Hc' : In c ["vtkLZMADataCompressor"; "vtkZLibDataCompressor"]%string /\ mode_of true compression = Ok (UPacked c)).
  { destruct Hc as [E|[E|[]]]; injection E as <- <-; split; [now left|reflexivity|right; now left|reflexivity]. }
  destruct Hc' as [Hin Hmode].
  destruct (vtu_file nk fits pk big (8 * q) (UPacked c) (header_of header_type) Hn Hin native given ver idt m Hm Hb Hnb) as (t & Et & Er); auto.
  - unfold sizes_fit in Hs. rewrite Forall_forall in *. intros n H. exists w. split; [exact Hw|]. split; [auto|]. split; [exact H8|]. split; [auto|].
    split; [now exists q|]. auto.
  - destruct header_type; [discriminate|reflexivity].
  - exists (print_doc t). unfold write_vtu. rewrite Hmode. cbn [bind]. fold (header_of header_type) given. rewrite Et. split; [reflexivity|].
    intros Hsm. apply Er. unfold small_text. intros w' Hw'. rewrite Hw in Hw'. injection Hw' as <-. exact Hsm.
Qed.
Print Assumptions C70_compressed.

(** *** Instances: integers as numbers, a compressor that puts one byte in front *)
Open Scope string_scope.
Definition uint_nums : unums Z :=
  UNums Z (fun _ v => str_of_Z v) (fun _ t => parse_Z t) (fun big dt => Codec (sint_bytes big (width_of dt)) (sint_value big)) 0%Z.
Definition uint_fits (dt : string) (v : Z) : Prop := In dt vtu_known /\ (- 2 ^ 7 <= v < 2 ^ 7)%Z.
Lemma uint_ascii : ascii_unums uint_nums uint_fits.
Proof. intros dt v _. cbn [u_fmt u_parse uint_nums]. split; [apply word_str_of_Z|]. split; [apply int_plain|apply parse_Z_str_of_Z]. Qed.
Lemma uint_binary big : binary_unums uint_nums big uint_fits.
Proof.
  intros dt v (Hdt & Hv). cbn [u_codec uint_nums enc dec]. split; [apply sint_bytes_length|]. split; [apply sint_bytes_ok|].
  destruct (vtu_width _ Hdt) as (q & _ & Hpos). apply sint_value_bytes. apply VtkPort.index_range; [exact Hpos|]. apply (fits_wider 1); [lia|]. exact Hv.
Qed.
Definition one_byte : packers := Packers (fun _ b => 120%N :: b) (fun _ b => match b with 120%N :: r => Ok r | _ => Err ValueError end).
Lemma one_byte_lossless c : lossless one_byte c.
Proof. intros b Hb. cbn. split; [reflexivity|]. constructor; [reflexivity|exact Hb]. Qed.
Definition um1 : vmesh Z := VMesh "float64" [[0; 0]; [1; 0]; [0; 1]; [5; 6]]%Z
  [Block "triangle" [[0; 1; 2]]%Z; Block "wedge" [[0; 1; 2; 3; 0; 1]]%Z; Block "wedge" [[0; 1; 2; 3; 3; 3]]%Z; Block "polygon" [[0; 1; 2; 3; 1]]%Z]
  [("a", VArr "int32" [] [[1]; [2]; [3]; [4]]%Z); ("v w", VArr "float32" [2] [[1; 1]; [2; 1]; [3; 1]; [-4; 1]]%Z)]
  [("c", VCd "int64" [1] [[[7]]; [[8]]; [[10]]; [[-1]]]%Z)] [].
Lemma um1_ok : vtu_mesh uint_nums uint_fits "int64" um1.
Proof.
  assert (F : forall dt v, In dt vtu_known -> (- 2 ^ 7 <= v < 2 ^ 7)%Z -> uint_fits dt v) by (intros; split; auto).
  constructor.
  - cbv; tauto.
  - split; [left; repeat constructor|]. repeat (apply Forall_cons || apply Forall_nil); (apply F; [cbv; tauto|cbn; lia]).
  - intros dt v (A & B). apply F; [exact A|cbn; lia].
  - discriminate.
  - cbv; tauto.
  - repeat (apply Forall_cons || apply Forall_nil); unfold index_fits; cbn; lia.
  - unfold index_fits; cbn; lia.
  - repeat (apply Forall_cons || apply Forall_nil); (split; [reflexivity|split; [|reflexivity]]); unfold uarray_ok; cbn [snd va_dtype va_tail va_rows].
    + split; [cbv; tauto|]. split; [now left|]. repeat (apply Forall_cons || apply Forall_nil); (split; [reflexivity|]); (repeat (apply Forall_cons || apply Forall_nil); (apply F; [cbv; tauto|cbn; lia])).
    + split; [cbv; tauto|]. split; [right; now exists 1|]. repeat (apply Forall_cons || apply Forall_nil); (split; [reflexivity|]); (repeat (apply Forall_cons || apply Forall_nil); (apply F; [cbv; tauto|cbn; lia])).
  - cbn. repeat constructor; cbn; intuition discriminate.
  - apply Forall_cons; [|apply Forall_nil]. split; [reflexivity|]. split; [|reflexivity]. split; [cbv; tauto|]. split; [right; now exists 0|].
    cbn [concat app vc_rows vc_tail snd um1]. repeat (apply Forall_cons || apply Forall_nil); (split; [reflexivity|]); (repeat (apply Forall_cons || apply Forall_nil); (apply F; [cbv; tauto|cbn; lia])).
  - cbn. repeat constructor. cbn. tauto.
Qed.
Lemma um1_blocks : Forall (fun b => fixed_block b \/ varying_block b) (vm_cells um1) /\ Forall nonempty_block (vm_cells um1).
Proof.
  split; [|repeat (apply Forall_cons || apply Forall_nil); discriminate].
  apply Forall_cons; [|apply Forall_cons; [|apply Forall_cons; [|apply Forall_cons; [|apply Forall_nil]]]].
  - left. exists 3. split; [cbv; tauto|repeat constructor].
  - left. exists 6. split; [cbv; tauto|repeat constructor].
  - left. exists 6. split; [cbv; tauto|repeat constructor].
  - right. split; [cbv; tauto|]. exists 5. repeat constructor.
Qed.
Example C70_instance : vtu_image uint_nums um1 = VMesh "float64" [[0; 0; 0]; [1; 0; 0]; [0; 1; 0]; [5; 6; 0]]%Z
  [Block "triangle" [[0; 1; 2]]%Z; Block "wedge" [[0; 1; 2; 3; 0; 1]; [0; 1; 2; 3; 3; 3]]%Z; Block "polygon" [[0; 1; 2; 3; 1]]%Z]
  [("a", VArr "int32" [] [[1]; [2]; [3]; [4]]%Z); ("v w", VArr "float32" [2] [[1; 1]; [2; 1]; [3; 1]; [-4; 1]]%Z)]
  [("c", VCd "int64" [1] [[[7]]; [[8]; [10]]; [[-1]]]%Z)] [].
Proof. now vm_compute. Qed.
Example C70_ascii_instance : exists file, write_vtu uint_nums one_byte false 32 "5.3.4" false "zlib" None "int64" um1 = Ok file /\
  read_vtu uint_nums one_byte false file = Ok (vtu_image uint_nums um1).
Proof. apply (C70_ascii _ _ uint_fits); auto using uint_ascii, um1_ok; apply um1_blocks. Qed.
Lemma um1_sizes w : In w [4; 8] -> sizes_fit w um1 /\ Forall (fun n => 0 < n) (array_sizes um1).
Proof. intros [<-|[<-|[]]]; (split; [unfold sizes_fit|]; repeat (apply Forall_cons || apply Forall_nil); (now vm_compute) || (vm_compute; lia)). Qed.
Example C70_binary_instance : exists file, write_vtu uint_nums one_byte true 32 "5.3.4" true "" (Some "UInt64") "int64" um1 = Ok file /\
  read_vtu uint_nums one_byte false file = Ok (vtu_image uint_nums um1).
Proof.
  apply (C70_binary _ _ uint_fits true false 32 "5.3.4" (Some "UInt64") 8); auto using uint_binary, um1_ok; try apply um1_blocks.
  apply um1_sizes. cbn. auto.
Qed.
Example C70_compressed_instance : exists file, write_vtu uint_nums one_byte false (8 * 2) "5.3.4" true "lzma" None "int64" um1 = Ok file /\
  read_vtu uint_nums one_byte true file = Ok (vtu_image uint_nums um1).
Proof.
  destruct (um1_sizes 4) as [S1 S2]; [cbn; auto|].
  destruct (C70_compressed uint_nums one_byte uint_fits false true 2 "5.3.4" "lzma" "vtkLZMADataCompressor" None 4 "int64" um1) as (file & E1 & E2);
    auto using uint_binary, um1_ok, one_byte_lossless; try apply um1_blocks.
  - cbn. auto.
  - now vm_compute.
  - intros b Hb. cbn [pack one_byte length]. change (capacity 4) with 4294967296%N. lia.
  - exists file. split; [exact E1|]. apply E2. clear E2.
    assert (L : match write_vtu uint_nums one_byte false (8 * 2) "5.3.4" true "lzma" None "int64" um1 with Ok f => N.ltb (N.of_nat (length f)) (capacity 4) | Err _ => false end = true) by (vm_compute; reflexivity).
    rewrite E1 in L. now apply N.ltb_lt.
Qed.

(** A mesh without cells is written, and the file cannot be read. *)
Definition no_cells : vmesh Z := VMesh "float64" [[1; 2; 3]]%Z [] [] [] [].
Definition text_of (r : result chars) : chars := match r with Ok t => t | Err _ => [] end.
Theorem C70_no_cells_refuted : exists file, write_vtu uint_nums one_byte false 32 "5" false "" None "int64" no_cells = Ok file /\
  read_vtu uint_nums one_byte false file = Err ReadError.
Proof. exists (text_of (write_vtu uint_nums one_byte false 32 "5" false "" None "int64" no_cells)). split; vm_compute; reflexivity. Qed.
Print Assumptions C70_no_cells_refuted.

(** Data of a type that the format does not have (for example bool): nothing is written. *)
Theorem C70_unknown_type {V} (nk : unums V) pk big bsz ver binary compression ht idt m name a :
  In (name, a) (vm_pdata m) -> ~ In (va_dtype a) vtu_known -> exists e, write_vtu nk pk big bsz ver binary compression ht idt m = Err e.
Proof.
  intros Hin Hdt. unfold write_vtu. destruct (mode_of binary compression) as [mode|]; cbn [bind]; [|eauto].
  unfold vtu_tree. destruct (existsb _ (vm_cells m)); [cbn; eauto|]. destruct (num_array _ _ _ _ _ _ "Points" _); cbn [bind]; [|eauto].
  destruct (cells_elem _ _ _ _ _ _ _); cbn [bind]; [|eauto].
  assert (exists e, data_elem nk pk big bsz mode (match ht with Some t => t | None => "UInt32" end) "PointData" (vm_pdata m) = Err e) as (e & ->); [|cbn; eauto].
  unfold data_elem. destruct (vm_pdata m) as [|x d]; [destruct Hin|].
  match goal with |- exists e, bind (mapM ?F _) _ = _ => destruct (VtkFile.mapM_In_err F (x :: d) (name, a) KeyError Hin) as (e & ->) end; [|cbn; eauto].
  cbn [fst snd]. unfold num_array, xml_array. destruct (dget (va_dtype a) vtu_names) as [vt|] eqn:E; [|reflexivity].
  exfalso. apply Hdt. apply Facts.dget_In in E. change (In (va_dtype a, vt) vtu_names) in E. revert E. generalize (va_dtype a). unfold vtu_names, vtu_dtypes. cbn [map In fst snd]. intros dt E. cbn [vtu_known In].
  repeat (destruct E as [E|E]; [injection E as <- _; tauto|]). destruct E.
Qed.
Print Assumptions C70_unknown_type.
Example C70_unknown_type_instance : write_vtu uint_nums one_byte false 32 "5" false "" None "int64"
  (VMesh "float64" (vm_points um1) (vm_cells um1) [("b", VArr "bool" [] [[1]; [0]; [0]; [1]]%Z)] [] []) = Err KeyError.
Proof. vm_compute. reflexivity. Qed.

(** C71 fails: of a file with several pieces, the points of all pieces are read, but only the cells and the cell data of the
    last piece.  [ms] and [mp] are what is read from files with one piece each. *)
Theorem C71_last_piece_refuted {V} (nk : unums V) pk native attrs ps p ms mp m :
  Forall (fun p => xtag p = "Piece") (ps ++ [p])%list ->
  Forall2 (fun p m => read_root nk pk native (document attrs [p]) = Ok m) ps ms ->
  read_root nk pk native (document attrs [p]) = Ok mp ->
  read_root nk pk native (document attrs (ps ++ [p])%list) = Ok m ->
  vm_points m = (flat_map vm_points ms ++ vm_points mp)%list /\
  vm_cells m = map (shift_block (length (flat_map vm_points ms))) (vm_cells mp) /\ vm_cdata m = vm_cdata mp.
Proof. exact (last_piece nk pk native attrs ps p ms mp m). Qed.
Print Assumptions C71_last_piece_refuted.

(** Two pieces with a triangle each: six points and one triangle are read. *)
Definition lines (l : list string) : chars := concat (map (fun s => ch s ++ [lf])%list l).
Definition q (s : string) : string := String quote (s ++ String quote "").
Definition tri_piece (x : string) : list string :=
  ["<Piece NumberOfPoints=" ++ q "3" ++ " NumberOfCells=" ++ q "1" ++ ">";
   "<Points><DataArray type=" ++ q "Int32" ++ " NumberOfComponents=" ++ q "3" ++ " format=" ++ q "ascii" ++ ">";
   x ++ " 0 0 0 1 0 0 0 1"; "</DataArray></Points>";
   "<Cells><DataArray type=" ++ q "Int32" ++ " Name=" ++ q "connectivity" ++ ">"; "0 1 2"; "</DataArray>";
   "<DataArray type=" ++ q "Int32" ++ " Name=" ++ q "offsets" ++ ">"; "3"; "</DataArray>";
   "<DataArray type=" ++ q "UInt8" ++ " Name=" ++ q "types" ++ ">"; "5"; "</DataArray></Cells>"; "</Piece>"].
Definition tri_file (ps : list (list string)) : chars :=
  lines (["<VTKFile type=" ++ q "UnstructuredGrid" ++ " version=" ++ q "0.1" ++ ">"; "<UnstructuredGrid>"]%string ++ concat ps ++
         ["</UnstructuredGrid>"; "</VTKFile>"])%list.
Example C71_one_piece : read_vtu uint_nums one_byte false (tri_file [tri_piece "7"]) =
  Ok (VMesh "int32" [[7; 0; 0]; [0; 1; 0]; [0; 0; 1]]%Z [Block "triangle" [[0; 1; 2]]%Z] [] [] []).
Proof. vm_compute. reflexivity. Qed.
Example C71_two_pieces : read_vtu uint_nums one_byte false (tri_file [tri_piece "7"; tri_piece "8"]) =
  Ok (VMesh "int32" [[7; 0; 0]; [0; 1; 0]; [0; 0; 1]; [8; 0; 0]; [0; 1; 0]; [0; 0; 1]]%Z [Block "triangle" [[3; 4; 5]]%Z] [] [] []).
Proof. vm_compute. reflexivity. Qed.
(** These files meet the hypotheses. *)
Example C71_hypotheses : exists attrs p1 p2 m1 m2 m, Forall (fun p => xtag p = "Piece") ([p1] ++ [p2])%list /\
  Forall2 (fun p m => read_root uint_nums one_byte false (document attrs [p]) = Ok m) [p1] [m1] /\
  read_root uint_nums one_byte false (document attrs [p2]) = Ok m2 /\
  read_root uint_nums one_byte false (document attrs ([p1] ++ [p2])%list) = Ok m /\ length (vm_points m) = 6 /\ length (all_cells (vm_cells m)) = 1.
Proof.
  pose (attrs := [("type", "UnstructuredGrid"); ("version", "0.1")]).
  pose (piece := fun x => match content 100 (lines (tri_piece x) ++ ch "</")%list with Some (_, [p], _) => p | _ => XNode "" [] [] [] end).
  pose (mesh := fun ps => match read_root uint_nums one_byte false (document attrs ps) with Ok m => m | Err _ => VMesh "" [] [] [] [] [] end).
  exists attrs, (piece "7"), (piece "8"), (mesh [piece "7"]), (mesh [piece "8"]), (mesh [piece "7"; piece "8"]).
  split; [repeat constructor|]. split; [constructor; [vm_compute; reflexivity|constructor]|].
  split; [vm_compute; reflexivity|]. split; [vm_compute; reflexivity|]. split; vm_compute; reflexivity.
Qed.

(** C72 fails: names of data are not escaped. *)
Definition named (name : string) : vmesh Z := VMesh "float64" (vm_points um1) (vm_cells um1) [(name, VArr "int32" [] [[1]; [2]; [3]; [4]]%Z)] [] [].
Definition ascii_file (name : string) : chars := text_of (write_vtu uint_nums one_byte false 32 "5" false "" None "int64" (named name)).
(** A file with a less-than sign or an ampersand in a name is written and cannot be read. *)
Theorem C72_markup_refuted : forall name, In name ["a<b"; "a&b"] ->
  write_vtu uint_nums one_byte false 32 "5" false "" None "int64" (named name) = Ok (ascii_file name) /\
  read_vtu uint_nums one_byte false (ascii_file name) = Err ReadError.
Proof. intros name [<-|[<-|[]]]; (split; vm_compute; reflexivity). Qed.
Print Assumptions C72_markup_refuted.
(** A name with a double quote, or with a tab, comes back as another name. *)
Definition tab_name : string := String "a" (String (ascii_of_nat 9) "b").
Theorem C72_renamed_refuted : forall name name', In (name, name') [("a" ++ String quote (" x=" ++ String quote "1"), "a"); (tab_name, "a b")] ->
  write_vtu uint_nums one_byte false 32 "5" false "" None "int64" (named name) = Ok (ascii_file name) /\
  exists m, read_vtu uint_nums one_byte false (ascii_file name) = Ok m /\ dkeys (vm_pdata m) = [name'] /\ name <> name'.
Proof.
  intros name name' [E|[E|[]]]; injection E as <- <-; (split; [vm_compute; reflexivity|]);
  match goal with |- context[ascii_file ?n] =>
    exists (match read_vtu uint_nums one_byte false (ascii_file n) with Ok m => m | Err _ => um1 end) end;
  (split; [vm_compute; reflexivity|]); (split; [vm_compute; reflexivity|discriminate]).
Qed.
Print Assumptions C72_renamed_refuted.

(** C73 fails: appended raw data.  Two points with single precision, followed by two arrays [a] and [b] of point data: the
    reader exchanges [a] and [b], without a message. *)
Definition darray (ty name extra offset : string) : string :=
  "<DataArray type=" ++ q ty ++ " Name=" ++ q name ++ extra ++ " format=" ++ q "appended" ++ " offset=" ++ q offset ++ "/>".
Definition raw_head : list string :=
  ["<VTKFile type=" ++ q "UnstructuredGrid" ++ " version=" ++ q "1.0" ++ " byte_order=" ++ q "LittleEndian" ++ " header_type=" ++ q "UInt32" ++ ">";
   "<UnstructuredGrid>"; "<Piece NumberOfPoints=" ++ q "2" ++ " NumberOfCells=" ++ q "2" ++ ">";
   "<Points>" ++ darray "Float32" "Points" (" NumberOfComponents=" ++ q "3") "0" ++ "</Points>";
   "<PointData>" ++ darray "Float32" "a" "" "28" ++ darray "Float32" "b" "" "40" ++ "</PointData>";
   "<Cells>" ++ darray "Int32" "offsets" "" "52" ++ darray "UInt8" "types" "" "64" ++ darray "Int32" "connectivity" "" "70" ++ "</Cells>";
   "</Piece>"; "</UnstructuredGrid>"; "<AppendedData encoding=" ++ q "raw" ++ ">"].
Definition raw_array (w : nat) (l : list Z) : bytes :=
  (uint_bytes false 4 (N.of_nat (w * length l)) ++ concat (map (sint_bytes false w) l))%list.
Definition raw_data : bytes :=
  (raw_array 4 [0; 0; 0; 1; 2; 3]%Z ++ raw_array 4 [10; 11]%Z ++ raw_array 4 [20; 21]%Z ++ raw_array 4 [2; 4]%Z ++ raw_array 1 [3; 3]%Z ++
  raw_array 4 [0; 1; 1; 0]%Z)%list.
Definition raw_file : chars :=
  (lines raw_head ++ ch "_" ++ map ascii_of_N raw_data ++ [lf] ++ lines ["</AppendedData>"; "</VTKFile>"])%list.
Theorem C73_offsets_refuted : read_vtu uint_nums one_byte false raw_file =
  Ok (VMesh "float32" [[0; 0; 0]; [1; 2; 3]]%Z [Block "line" [[0; 1]; [1; 0]]%Z]
    [("a", VArr "float32" [] [[20]; [21]]%Z); ("b", VArr "float32" [] [[10]; [11]]%Z)] [] []).
Proof. vm_compute. reflexivity. Qed.
Print Assumptions C73_offsets_refuted.
