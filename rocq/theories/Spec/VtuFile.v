(** Specification vocabulary for whole VTU files (C70-C73). *)
From Coq Require Import ZArith NArith List String Ascii Bool.
From Verif.Lib Require Import Base Text Lines Bytes File.
From Verif.Model Require Import Core Cxml VtkFile VtuFile.
From Verif.Spec Require Import Core Blocks Vtk Cxml VtkFile.
Import ListNotations.

(** Numbers survive printing and parsing, or the conversion to bytes and back.  [fits dt v] says that an array of dtype [dt]
    can hold [v]. *)
Definition ascii_unums {V} (nk : unums V) (fits : string -> V -> Prop) : Prop :=
  forall dt v, fits dt v -> word (u_fmt nk dt v) = true /\ plain (ch (u_fmt nk dt v)) = true /\
    u_parse nk dt (u_fmt nk dt v) = Some v.
Definition binary_unums {V} (nk : unums V) (big : bool) (fits : string -> V -> Prop) : Prop :=
  forall dt v, fits dt v -> length (enc (u_codec nk big dt) v) = width_of dt /\ Forall is_byte (enc (u_codec nk big dt) v) /\
    dec (u_codec nk big dt) (enc (u_codec nk big dt) v) = v.
(** A lossless compressor *)
Definition lossless (pk : packers) (c : string) : Prop :=
  forall b, Forall is_byte b -> unpack pk c (pack pk c b) = Ok b /\ Forall is_byte (pack pk c b).

(** The data types of the format, and those used for indices *)
Definition vtu_known : list string :=
  ["float32"; "float64"; "int8"; "int16"; "int32"; "int64"; "uint8"; "uint16"; "uint32"; "uint64"].
Definition vtu_index : list string := ["int8"; "int16"; "int32"; "int64"].

Section Spec.
Context {V : Type} (nk : unums V) (fits : string -> V -> Prop).

Definition uarray_ok (dt : string) (tail : list nat) (rows : list (list V)) : Prop :=
  In dt vtu_known /\ (tail = [] \/ exists k, tail = [S k]) /\
  Forall (fun r => length r = fold_right Nat.mul 1 tail /\ Forall (fits dt) r) rows.

(** Meshes that the format can hold.  [idt] is the type of the cells' indices. *)
Record vtu_mesh (idt : string) (m : vmesh V) : Prop := VtuMesh {
  uk_points_type : In (vm_dtype m) vtu_known;
  uk_points : (Forall (fun q => length q = 2) (vm_points m) \/ Forall (fun q => length q = 3) (vm_points m)) /\
    Forall (Forall (fits (vm_dtype m))) (vm_points m);
  uk_zero : forall dt v, fits dt v -> fits dt (u_zero nk);
  uk_some : vm_cells m <> [];
  uk_index_type : In idt vtu_index;
  uk_index : Forall (fun b => Forall (Forall (index_fits (width_of idt))) (bdata b)) (vm_cells m);
  uk_total : index_fits (width_of idt) (Z.of_nat (length (concat (map snd (all_cells (vm_cells m))))));
  uk_pdata : Forall (fun na => value_ok (fst na) = true /\ uarray_ok (va_dtype (snd na)) (va_tail (snd na)) (va_rows (snd na)) /\
                      length (va_rows (snd na)) = length (vm_points m)) (vm_pdata m);
  uk_pnames : NoDup (dkeys (vm_pdata m));
  uk_cdata : Forall (fun nc => value_ok (fst nc) = true /\
                      uarray_ok (vc_dtype (snd nc)) (vc_tail (snd nc)) (concat (vc_rows (snd nc))) /\
                      map (@length _) (vc_rows (snd nc)) = map blen (vm_cells m)) (vm_cdata m);
  uk_cnames : NoDup (dkeys (vm_cdata m)) }.

(** The mesh that comes back: a third component 0 for points in the plane, the cells grouped in runs of one type, the data of
    the cells divided accordingly, no field data *)
Definition uin_3d (r : list V) : list V := match r with [x; y] => [x; y; u_zero nk] | _ => r end.
Definition vtu_image (m : vmesh V) : vmesh V :=
  let bs := regroup (all_cells (vm_cells m)) in
  VMesh (vm_dtype m) (map uin_3d (vm_points m)) bs (vm_pdata m)
    (map (fun nc => (fst nc, VCd (vc_dtype (snd nc)) (vc_tail (snd nc)) (data_for bs (concat (vc_rows (snd nc)))))) (vm_cdata m)) [].

(** How many numbers the arrays of the file have: points, connectivity, offsets and types, data *)
Definition array_sizes (m : vmesh V) : list nat :=
  [3 * length (vm_points m); length (concat (map snd (all_cells (vm_cells m)))); length (all_cells (vm_cells m))] ++
  map (fun na => length (concat (va_rows (snd na)))) (vm_pdata m) ++
  map (fun nc => length (concat (concat (vc_rows (snd nc))))) (vm_cdata m).
(** Arrays of so many numbers (at most 8 bytes each) have sizes that fit into the header items, of [w] bytes *)
Definition sizes_fit (w : nat) (m : vmesh V) : Prop := Forall (fun n => (8 * N.of_nat n < capacity w)%N) (array_sizes m).
End Spec.

(** A document with the given pieces, and cells whose indices begin later *)
Definition document (attrs : dict string) (ps : list xnode) : xnode :=
  XNode "VTKFile" attrs [] [XNode "UnstructuredGrid" [] [] ps].
Definition shift_block (k : nat) (b : block) : block := Block (btype b) (map (map (Z.add (Z.of_nat k))) (bdata b)).
