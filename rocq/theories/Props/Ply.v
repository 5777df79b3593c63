(** C31 and C32: PLY faces and types. *)
From Verif.Lib Require Import Base Facts Text Lines Bytes.
From Verif.Model Require Import Core Ply.
From Verif.Spec Require Import Core Blocks Surface.
From Verif.Proofs Require Import Blocks Ply.
From Coq Require Import ZifyBool ZifyNat.

(** ** C31 *)

(** The integer type of the indices in the file: 64-bit indices are stored with 32 bits. *)
Definition stored (code : string) (signed : bool) (width : nat) : Prop :=
  In (code, (signed, width))
    [("i1", (true, 1)); ("i2", (true, 2)); ("i4", (true, 4)); ("i8", (true, 4));
     ("u1", (false, 1)); ("u2", (false, 2)); ("u4", (false, 4)); ("u8", (false, 8))].

Lemma stored_int_type code sg w : stored code sg w -> int_type (wide code) = Some (sg, w).
Proof.
  unfold stored. cbn. intros H. repeat (destruct H as [H|H]; [injection H as <- <- <-; reflexivity|]). destruct H.
Qed.

(** What [write] puts into the file for the cells reads back as the same faces in the same
    order, neighbours of equal width in one block.  [binary] selects the reader, [big] the byte
    order.  Missing: in ASCII no block may be empty (see below), and 16-bit indices have no
    name the binary reader knows; widths 1 (binary) and 255 (ASCII) depend on the version of numpy. *)
Theorem C31_roundtrip_partial (binary big : bool) code sg w (bs : list block) :
  bs <> [] -> stored code sg w ->
  Forall (fun b => Forall (Forall (fits sg w)) (bdata b)) bs ->
  Forall (fun c => if binary then 2 <= length c <= 255 else 1 <= length c <= 254) (ply_faces bs) ->
  (if binary then code <> "i2" else Forall (fun b => bdata b <> []) bs) ->
  exists (n : nat) (prop : string) (d : face_data),
    write_faces binary big (map (pair code) bs) = Ok (n, prop, d) /\
    n = length (ply_faces bs) /\
    read_faces big prop n d = Ok (regroup (map (fun f => (corner_type (length f), f)) (ply_faces bs))).
Proof.
  intros Hne Hs Hf Hw Hv. apply (ply_roundtrip binary big code sg w); auto.
  - now apply stored_int_type.
  - eapply Forall_impl; [|exact Hw]. cbn. intros c. destruct binary; lia.
  - destruct binary; auto. apply Forall_forall. intros b Hb. apply filter_In in Hb. rewrite Forall_forall in Hv. now apply Hv.
Qed.
Print Assumptions C31_roundtrip_partial.

(** The faces are the cells of the supported types, in order. *)
Theorem C31_faces (binary big : bool) code sg w (bs : list block) :
  bs <> [] -> stored code sg w ->
  Forall (fun b => Forall (Forall (fits sg w)) (bdata b)) bs ->
  Forall (fun c => if binary then 2 <= length c <= 255 else 1 <= length c <= 254) (ply_faces bs) ->
  (if binary then code <> "i2" else Forall (fun b => bdata b <> []) bs) ->
  exists (n : nat) (prop : string) (d : face_data) (out : list block),
    write_faces binary big (map (pair code) bs) = Ok (n, prop, d) /\
    read_faces big prop n d = Ok out /\
    flat_map bdata out =
      flat_map bdata (filter (fun b => smem (btype b) ["vertex"; "line"; "triangle"; "quad"; "polygon"]) bs).
Proof.
  intros Hne Hs Hf Hw Hv. destruct (C31_roundtrip_partial binary big code sg w bs Hne Hs Hf Hw Hv) as (n & p & d & E1 & E2 & E3).
  exists n, p, d. eexists. split; [exact E1|]. split; [exact E3|]. apply (regroup_faces corner_type).
Qed.
Print Assumptions C31_faces.

(** The ASCII and the binary reader give the same cells. *)
Theorem C31_agree code sg w (bs : list block) :
  bs <> [] -> stored code sg w -> code <> "i2" ->
  Forall (fun b => bdata b <> [] /\ Forall (Forall (fits sg w)) (bdata b)) bs ->
  Forall (fun c => 2 <= length c <= 254) (ply_faces bs) ->
  exists out, forall binary big, exists (n : nat) (prop : string) (d : face_data),
    write_faces binary big (map (pair code) bs) = Ok (n, prop, d) /\ read_faces big prop n d = Ok out.
Proof.
  intros Hne Hs H2 Hf Hw. eexists. intros binary big.
  destruct (C31_roundtrip_partial binary big code sg w bs Hne Hs) as (n & p & d & E1 & E2 & E3).
  - eapply Forall_impl; [|exact Hf]. cbn. tauto.
  - eapply Forall_impl; [|exact Hw]. cbn. intros c. destruct binary; lia.
  - destruct binary; auto. eapply Forall_impl; [|exact Hf]. cbn. tauto.
  - exists n, p, d. split; [exact E1|exact E3].
Qed.
Print Assumptions C31_agree.

Definition ex_ply : list block :=
  [Block "triangle" [[0; 1; 2]; [1; 3; 2]]; Block "tetra" [[0; 1; 2; 3]]; Block "triangle" [[2; 3; 4]];
   Block "polygon" [[0; 1; 2; 3; 4]; [4; 3; 2; 1; 0]]; Block "line" [[0; 400]]]%Z.
Definition there_and_back binary big code bs : result (list block) :=
  do r <- write_faces binary big (map (pair code) bs);
  let '(n, prop, d) := r in read_faces big prop n d.
Example C31_instance :
  let out := Ok [Block "triangle" [[0; 1; 2]; [1; 3; 2]; [2; 3; 4]];
                 Block "polygon" [[0; 1; 2; 3; 4]; [4; 3; 2; 1; 0]]; Block "line" [[0; 400]]]%Z in
  there_and_back true true "i4" ex_ply = out /\ there_and_back true false "u2" ex_ply = out /\
  there_and_back false false "i8" ex_ply = out /\
  ex_ply <> [] /\ stored "i8" true 4 /\
  Forall (fun b => bdata b <> [] /\ Forall (Forall (fits true 4)) (bdata b)) ex_ply /\
  Forall (fun c => 2 <= length c <= 254) (ply_faces ex_ply).
Proof.
  split; [now vm_compute|]. split; [now vm_compute|]. split; [now vm_compute|]. split; [discriminate|].
  split; [cbn; tauto|]. split.
  - unfold ex_ply, fits. repeat constructor; cbn; try discriminate; lia.
  - vm_compute. repeat constructor.
Qed.

(** The full statement, for every list of blocks, is false of the code: an empty block in front
    of others leaves an empty line in the ASCII file that the reader takes for a face. *)
Theorem C31_empty_block_refuted :
  ~ (forall (binary big : bool) code sg w (bs : list block),
      bs <> [] -> stored code sg w -> code <> "i2" ->
      Forall (fun b => Forall (Forall (fits sg w)) (bdata b)) bs ->
      Forall (fun c => 2 <= length c <= 254) (ply_faces bs) ->
      exists (n : nat) (prop : string) (d : face_data) (out : list block),
        write_faces binary big (map (pair code) bs) = Ok (n, prop, d) /\ read_faces big prop n d = Ok out).
Proof.
  intros H. specialize (H false false "i4" true 4 [Block "triangle" []; Block "quad" [[0; 1; 2; 3]%Z]]).
  destruct H as (n & p & d & out & E1 & E2); try discriminate.
  - cbn; tauto.
  - unfold fits. repeat constructor; cbn; lia.
  - repeat constructor.
  - vm_compute in E1. injection E1 as <- <- <-. vm_compute in E2. discriminate.
Qed.
Print Assumptions C31_empty_block_refuted.

(** 16-bit indices are written as "short", which the binary reader does not know. *)
Theorem C31_short_refuted :
  exists (n : nat) (prop : string) (d : face_data),
    write_faces true false [("i2", Block "triangle" [[0; 1; 2]%Z])] = Ok (n, prop, d) /\
    read_faces false prop n d = Err KeyError.
Proof. do 3 eexists. split; [reflexivity|]. now vm_compute. Qed.
Print Assumptions C31_short_refuted.

(** ** C32 *)

(** The ten number types of point data. *)
Definition number_types : list string := ["i1"; "i2"; "i4"; "i8"; "u1"; "u2"; "u4"; "u8"; "f4"; "f8"].

(** For every number type but 16-bit signed integers, the property line that [write] emits is
    parsed to the same key and to a type name both readers map to the type written: same width
    and same signedness. *)
Theorem C32_types_partial code key :
  In code number_types -> code <> "i2" -> word key = true ->
  exists line name, write_property code key = Ok line /\ read_property line = Ok (name, key) /\
    dget name ply_to_numpy = Some code /\ dget name ply_binary_table = Some code.
Proof.
  intros Hin Hne Hk. unfold write_property. cbn in Hin.
  repeat (destruct Hin as [<-|Hin];
    [first [congruence | do 2 eexists; split; [reflexivity|]; split; [now apply property_ok|]; split; reflexivity]|]).
  destruct Hin.
Qed.
Print Assumptions C32_types_partial.

(** 16-bit signed integers: no reader knows the name the writer uses. *)
Theorem C32_int16_refuted key : word key = true ->
  exists line name, write_property "i2" key = Ok line /\ read_property line = Ok (name, key) /\
    dget name ply_to_numpy = None /\ dget name ply_binary_table = None.
Proof. intros Hk. do 2 eexists. split; [reflexivity|]. split; [now apply property_ok|]. split; reflexivity. Qed.
Print Assumptions C32_int16_refuted.

(** Where both readers know a name they agree on it, with one exception. *)
Theorem C32_tables_agree name c : name <> "uchar" ->
  dget name ply_binary_table = Some c -> dget name ply_to_numpy = Some c.
Proof.
  intros Hn H. apply dget_In in H. cbn in H.
  repeat (destruct H as [H|H]; [injection H as <- <-; try reflexivity; congruence|]). destruct H.
Qed.
Print Assumptions C32_tables_agree.
Theorem C32_uchar_refuted :
  dget "uchar" ply_binary_table = Some "i1" /\ dget "uchar" ply_to_numpy = Some "u1".
Proof. split; reflexivity. Qed.
Print Assumptions C32_uchar_refuted.

Example C32_instance :
  write_property "u2" "temperature" = Ok "property uint16 temperature" /\
  read_property "property uint16 temperature" = Ok ("uint16", "temperature") /\
  dget "uint16" ply_to_numpy = Some "u2" /\ dget "uint16" ply_binary_table = Some "u2".
Proof. repeat split; reflexivity. Qed.
