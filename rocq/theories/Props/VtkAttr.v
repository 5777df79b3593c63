(** Attributes of points and cells in the legacy VTK files of other programs (C81). *)
From Coq Require Import ZArith NArith List String Ascii Bool Lia.
From Verif.Lib Require Import Base Text TextFacts Lines LinesFacts Bytes BytesFacts File.
From Verif.Model Require Import Core Vtk VtkFile.
From Verif.Spec Require Import Core Blocks Vtk VtkFile.
From Verif.Proofs Require Import Vtk VtkPort VtkFile VtkGrid VtkAttr.
From Verif.Props Require Import VtkFile.
Import ListNotations.
Import Model.VtkFile Spec.VtkFile.

(** C81: [add_sections p v51 s m l] is the file [s] of a mesh without data, followed by the sections [l]: data of points and
    of cells in any order and number, each with any list of scalars (one to four components), vectors, tensors, fields and
    blocks of metadata.  The mesh that is read has every array under its name with its type, shape and numbers, in the order
    of the file, and the arrays of the cells divided among the blocks. *)
Theorem C81_ascii {V} (nk : nums V) fits m ver l :
  ascii_nums nk fits -> vtk_mesh nk fits false m -> Forall fixed_block (vm_cells m) -> one_line ("written by meshio v" ++ ver)%string ->
  vm_pdata m = [] -> vm_cdata m = [] -> sections_ok fits false m l ->
  exists s, write_vtk nk (vascii nk) false ver m = Ok s /\
    read_vtk nk (vascii nk) (add_sections (vascii nk) false s m l) = Ok (with_attributes nk m l).
Proof. intros Hn. exact (attributes_42 nk (vascii nk) fits _ _ (vascii_ok nk fits Hn) m ver l). Qed.
Print Assumptions C81_ascii.
Theorem C81_binary {V} (nk : nums V) fits m ver l :
  binary_nums nk fits -> vtk_mesh nk fits false m -> Forall fixed_block (vm_cells m) -> one_line ("written by meshio v" ++ ver)%string ->
  vm_pdata m = [] -> vm_cdata m = [] -> sections_ok fits false m l ->
  exists s, write_vtk nk (vbinary nk) false ver m = Ok s /\
    read_vtk nk (vbinary nk) (add_sections (vbinary nk) false s m l) = Ok (with_attributes nk m l).
Proof. intros Hn. exact (attributes_42 nk (vbinary nk) fits _ _ (vbinary_ok nk fits Hn) m ver l). Qed.
Print Assumptions C81_binary.
(** Version 5.1, with the names of types that meshio itself writes (see [C81_type_names_refuted] for other names). *)
Theorem C81_ascii_51 {V} (nk : nums V) fits m ver l :
  ascii_nums nk fits -> vtk_mesh nk fits true m -> Forall (fun b => fixed_block b \/ varying_block b) (vm_cells m) ->
  Forall nonempty_block (vm_cells m) -> vm_cells m <> [] -> one_line ("written by meshio v" ++ ver)%string ->
  vm_pdata m = [] -> vm_cdata m = [] -> sections_ok fits true m l ->
  exists s, write_vtk nk (vascii nk) true ver m = Ok s /\
    read_vtk nk (vascii nk) (add_sections (vascii nk) true s m l) = Ok (with_attributes nk m l).
Proof. intros Hn. exact (attributes_51 nk (vascii nk) fits _ _ (vascii_ok nk fits Hn) m ver l). Qed.
Print Assumptions C81_ascii_51.
Theorem C81_binary_51 {V} (nk : nums V) fits m ver l :
  binary_nums nk fits -> vtk_mesh nk fits true m -> Forall (fun b => fixed_block b \/ varying_block b) (vm_cells m) ->
  Forall nonempty_block (vm_cells m) -> vm_cells m <> [] -> one_line ("written by meshio v" ++ ver)%string ->
  vm_pdata m = [] -> vm_cdata m = [] -> sections_ok fits true m l ->
  exists s, write_vtk nk (vbinary nk) true ver m = Ok s /\
    read_vtk nk (vbinary nk) (add_sections (vbinary nk) true s m l) = Ok (with_attributes nk m l).
Proof. intros Hn. exact (attributes_51 nk (vbinary nk) fits _ _ (vbinary_ok nk fits Hn) m ver l). Qed.
Print Assumptions C81_binary_51.

(** Version 5.1 with the other names of types of the format, such as unsigned_char or long: a KeyError. *)
Theorem C81_type_names_refuted {V} (nk : nums V) fits m ver l key name t more dt xs :
  ascii_nums nk fits -> vtk_mesh nk fits true m -> Forall (fun b => fixed_block b \/ varying_block b) (vm_cells m) ->
  Forall nonempty_block (vm_cells m) -> vm_cells m <> [] -> one_line ("written by meshio v" ++ ver)%string ->
  vm_pdata m = [] -> vm_cdata m = [] -> sections_ok fits true m l ->
  In key ["SCALARS"; "VECTORS"; "TENSORS"]%string -> word name = true -> In t standard_type_names -> more = [] \/ more = ["1"%string] ->
  Forall (fits dt) xs ->
  exists s, write_vtk nk (vascii nk) true ver m = Ok s /\
    read_vtk nk (vascii nk) (add_sections (vascii nk) true s m l ++
      v_line (vascii nk) (row_line (key :: name :: t :: more)) ++ v_put (vascii nk) dt xs) = Err KeyError.
Proof. intros Hn. exact (type_names_51 nk (vascii nk) fits _ _ (vascii_ok nk fits Hn) m ver l key name t more dt xs). Qed.
Print Assumptions C81_type_names_refuted.
(** Attributes that are not read are refused, not skipped. *)
Theorem C81_other_attributes {V} (nk : nums V) fits m ver l key args dt xs :
  ascii_nums nk fits -> vtk_mesh nk fits true m -> Forall (fun b => fixed_block b \/ varying_block b) (vm_cells m) ->
  Forall nonempty_block (vm_cells m) -> vm_cells m <> [] -> one_line ("written by meshio v" ++ ver)%string ->
  vm_pdata m = [] -> vm_cdata m = [] -> sections_ok fits true m l ->
  In key other_attributes -> forallb word args = true -> Forall (fits dt) xs ->
  exists s, write_vtk nk (vascii nk) true ver m = Ok s /\
    read_vtk nk (vascii nk) (add_sections (vascii nk) true s m l ++
      v_line (vascii nk) (row_line (key :: args)) ++ v_put (vascii nk) dt xs) = Err ReadError.
Proof. intros Hn. exact (other_attributes_51 nk (vascii nk) fits _ _ (vascii_ok nk fits Hn) m ver l key args dt xs). Qed.
Print Assumptions C81_other_attributes.

Definition m3 : vmesh Z := VMesh "float64" [[0; 0]; [1; 0]; [0; 1]]%Z [Block "triangle" [[0; 1; 2]]%Z; Block "line" [[0; 1]; [1; 2]]%Z] [] [] [].
Definition l3 : list (bool * list (attribute Z)) := [
  (true, [Scalars "a" "int32" 1 false "default" [[1]; [2]; [3]]%Z; Metadata ["INFORMATION 0"]; Vectors "v" "float64" [[1; 2; 3]; [4; 5; 6]; [7; 8; 9]]%Z]);
  (false, [Field "FieldData" [(None, ("f", VArr "int64" [] [[7]; [8]; [9]]%Z)); (Some ["COMPONENT_NAMES"; "x y"], ("g", VArr "int8" [2] [[1; 1]; [2; 2]; [3; 3]]%Z))]]);
  (true, [Tensors "t" "float32" [[1; 2; 3; 4; 5; 6; 7; 8; 9]; [0; 0; 0; 0; 0; 0; 0; 0; 0]; [-1; 0; 0; 0; -1; 0; 0; 0; -1]]%Z;
          Scalars "rgba" "uint8" 4 true "default" [[1; 2; 3; 4]; [5; 6; 7; 8]; [9; 10; 11; 12]]%Z])]%string.
Lemma m3_ok v51 : vtk_mesh int_nums int_fits v51 m3.
Proof.
  constructor.
  - destruct v51; cbv; tauto.
  - split; [left; repeat constructor|]. repeat (apply Forall_cons || apply Forall_nil); (split; [discriminate|cbn; lia]).
  - intros dt v (A & B). split; [exact A|cbn; lia].
  - repeat (apply Forall_cons || apply Forall_nil); unfold index_fits; destruct v51; cbn; lia.
  - repeat (apply Forall_cons || apply Forall_nil); unfold index_fits; destruct v51; cbn; lia.
  - unfold index_fits; cbn; lia.
  - constructor.
  - constructor.
  - intros H; now destruct H.
  - constructor.
  - constructor.
  - intros H; now destruct H.
Qed.
Lemma l3_ok v51 : sections_ok int_fits v51 m3 l3.
Proof.
  assert (N : forall s, word s = true -> String.eqb s "METADATA" = false -> name_ok s) by (intros s A B; split; [exact A|now apply String.eqb_neq]).
  assert (R : forall n dt k rows, In dt (known v51) -> String.eqb dt "bool" = false -> length rows = n ->
     forallb (fun r => Nat.eqb (length r) k && forallb (fun z => (-128 <=? z) && (z <? 128))%Z r) rows = true -> rows_ok int_fits v51 n dt k rows).
  { intros n dt k rows H1 H2 H3 H4. split; [exact H1|]. split; [exact H3|]. rewrite forallb_forall in H4. apply Forall_forall. intros r Hr. specialize (H4 r Hr).
    apply andb_true_iff in H4 as [A B]. split; [now apply Nat.eqb_eq|]. rewrite forallb_forall in B. apply Forall_forall. intros z Hz. specialize (B z Hz).
    apply andb_true_iff in B as [B C]. apply Z.leb_le in B. apply Z.ltb_lt in C. split; [now apply String.eqb_neq|]. change (2 ^ 7)%Z with 128%Z. lia. }
  assert (K : forall dt, smem dt ["int8"; "uint8"; "int32"; "int64"; "float32"; "float64"]%string = true -> In dt (known v51)).
  { intros dt H. unfold smem in H. apply existsb_exists in H as (x & Hx & E). apply String.eqb_eq in E. subst x. cbn [In] in Hx.
    repeat (destruct Hx as [<-|Hx]; [destruct v51; cbv; tauto|]). destruct Hx. }
  unfold sections_ok. split; [|split].
  - apply Forall_cons; [|apply Forall_cons; [|apply Forall_cons; [|apply Forall_nil]]]; split; cbn [fst snd]; try (intros _; cbn; lia).
    + apply Forall_cons; [|apply Forall_cons; [|apply Forall_cons; [|apply Forall_nil]]].
      * split; [reflexivity|]. split; [reflexivity|]. split; [lia|]. split; [reflexivity|]. now apply R; [apply K|..].
      * repeat constructor.
      * split; [reflexivity|]. now apply R; [apply K|..].
    + apply Forall_cons; [|apply Forall_nil]. cbn [attribute_ok]. split; [reflexivity|]. split; [repeat constructor; cbn; intuition discriminate|].
      apply Forall_cons; [|apply Forall_cons; [|apply Forall_nil]]; cbn [fst snd va_tail va_rows va_dtype].
      * split; [exact I|]. split; [now apply N|]. split; [now left|]. now apply R; [apply K|..].
      * split; [repeat constructor|]. split; [now apply N|]. split; [right; now exists 0|]. now apply R; [apply K|..].
    + apply Forall_cons; [|apply Forall_cons; [|apply Forall_nil]].
      * split; [reflexivity|]. now apply R; [apply K|..].
      * split; [reflexivity|]. split; [reflexivity|]. split; [lia|]. split; [discriminate|]. now apply R; [apply K|..].
  - cbn. repeat constructor; cbn; intuition discriminate.
  - cbn. repeat constructor; cbn; intuition discriminate.
Qed.
Example C81_instance : vtk_mesh int_nums int_fits true m3 /\ sections_ok int_fits true m3 l3 /\ with_attributes int_nums m3 l3 =
  VMesh "float64" [[0; 0; 0]; [1; 0; 0]; [0; 1; 0]]%Z [Block "triangle" [[0; 1; 2]]%Z; Block "line" [[0; 1]; [1; 2]]%Z]
    [("a", VArr "int32" [1] [[1]; [2]; [3]]%Z); ("v", VArr "float64" [3] [[1; 2; 3]; [4; 5; 6]; [7; 8; 9]]%Z);
     ("t", VArr "float32" [3; 3] [[1; 2; 3; 4; 5; 6; 7; 8; 9]; [0; 0; 0; 0; 0; 0; 0; 0; 0]; [-1; 0; 0; 0; -1; 0; 0; 0; -1]]%Z);
     ("rgba", VArr "uint8" [4] [[1; 2; 3; 4]; [5; 6; 7; 8]; [9; 10; 11; 12]]%Z)]%string
    [("f", VCd "int64" [] [[[7]]; [[8]; [9]]]%Z); ("g", VCd "int8" [2] [[[1; 1]]; [[2; 2]; [3; 3]]]%Z)]%string [].
Proof. split; [apply m3_ok|]. split; [apply l3_ok|now vm_compute]. Qed.
Example C81_instance_ascii : exists s, write_vtk int_nums (vascii int_nums) true "5" m3 = Ok s /\
  add_sections (vascii int_nums) true s m3 l3 = s ++ ["POINT_DATA 3"; "SCALARS a vtktypeint32"; "LOOKUP_TABLE default"; "1 2 3"; "METADATA"; "INFORMATION 0"; "";
    "VECTORS v double"; "1 2 3 4 5 6 7 8 9"; "CELL_DATA 3"; "FIELD FieldData 2"; "f 1 3 vtktypeint64"; "7 8 9"; "METADATA"; "COMPONENT_NAMES"; "x y"; "";
    "g 2 3 vtktypeint8"; "1 1 2 2 3 3"; "POINT_DATA 3"; "TENSORS t float"; "1 2 3 4 5 6 7 8 9 0 0 0 0 0 0 0 0 0 -1 0 0 0 -1 0 0 0 -1";
    "SCALARS rgba vtktypeuint8 4"; "LOOKUP_TABLE default"; "1 2 3 4 5 6 7 8 9 10 11 12"]%string /\
  read_vtk int_nums (vascii int_nums) (add_sections (vascii int_nums) true s m3 l3) = Ok (with_attributes int_nums m3 l3).
Proof. eexists. split; [vm_compute; reflexivity|]. split; vm_compute; reflexivity. Qed.

(** A table of colours changes the number of points that the reader expects: the scalars after a table of two colours are
    not read, and without the table they are. *)
Theorem C81_table_refuted : exists s, write_vtk int_nums (vascii int_nums) false "5" m3 = Ok s /\
  (exists m', read_vtk int_nums (vascii int_nums) (s ++ ["POINT_DATA 3"; "SCALARS a int"; "LOOKUP_TABLE colours"; "1 2 3"]%string) = Ok m' /\
     vm_pdata m' = [("a", VArr "int32" [1] [[1]; [2]; [3]]%Z)]%string) /\
  forall m', read_vtk int_nums (vascii int_nums) (s ++ ["POINT_DATA 3"; "LOOKUP_TABLE colours 2"; "0 0 0 1"; "1 1 1 1";
     "SCALARS a int"; "LOOKUP_TABLE colours"; "1 2 3"]%string) <> Ok m'.
Proof.
  eexists. split; [vm_compute; reflexivity|]. split; [eexists; split; [vm_compute; reflexivity|reflexivity]|]. intros m'. vm_compute. discriminate.
Qed.
Print Assumptions C81_table_refuted.
(** Version 5.1, binary, type int: numbers of four bytes in the file, of eight bytes for the reader. *)
Theorem C81_int_refuted : exists s, write_vtk int_nums (vbinary int_nums) true "5" m3 = Ok s /\
  forall m', read_vtk int_nums (vbinary int_nums) (s ++ v_line (vbinary int_nums) "POINT_DATA 3" ++ v_line (vbinary int_nums) "SCALARS a int" ++
     v_line (vbinary int_nums) "LOOKUP_TABLE default" ++ v_put (vbinary int_nums) "int32" [1; 2; 3]%Z) <> Ok m'.
Proof. eexists. split; [vm_compute; reflexivity|]. intros m'. vm_compute. discriminate. Qed.
Print Assumptions C81_int_refuted.
