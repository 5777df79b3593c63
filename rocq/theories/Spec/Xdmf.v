(** Specification vocabulary for XDMF. *)
From Verif.Lib Require Import Base Text Lines Bytes File.
From Verif.Model Require Import Core Xdmf.
From Verif.Spec Require Import Core Blocks.

(** The types of mixed topologies with their numbers of nodes. *)
Definition mixed_types : list (string * nat) :=
  [("vertex", 1); ("line", 2); ("triangle", 3); ("quad", 4); ("tetra", 4); ("pyramid", 5); ("wedge", 6); ("hexahedron", 8)].
Definition mixed_cell (tc : string * cell) : Prop := In (fst tc, length (snd tc)) mixed_types.
(** The XDMF format: a cell is its type code and its nodes; lines are polylines and carry their number
    of nodes in between. *)
Definition xdmf_codes : list (string * Z) :=
  [("vertex", 1); ("line", 2); ("triangle", 4); ("quad", 5); ("tetra", 6); ("pyramid", 7); ("wedge", 8); ("hexahedron", 9)]%Z.
Definition mixed_entry (tc : string * cell) : list Z :=
  match dget (fst tc) xdmf_codes with
  | Some code => code :: (if String.eqb (fst tc) "line" then [2%Z] else []) ++ snd tc
  | None => []
  end.
(** The type a writer cannot handle in mixed topologies: vertices in the mesh writer (as the
    reader takes them), lines in the time series writer. *)
Definition bad_type (ts : bool) : string := if ts then "line" else "vertex".
(** Cells that can be written and read back.  A single block may have any type of XDMF. *)
Definition xdmf_cells_ok (ts : bool) (bs : list block) : Prop :=
  match bs with
  | [] => True
  | [b] => In (btype b) (dkeys meshio_to_xdmf_type) /\ rectangular b
  | _ => all_cells bs <> [] /\ Forall mixed_cell (all_cells bs) /\ Forall (fun b => btype b <> bad_type ts /\ In (btype b) (map fst mixed_types)) bs
  end.
(** The blocks read back: a single block as it is, otherwise cells in their order, cut where the type
    changes. *)
Definition xdmf_cells (bs : list block) : list block :=
  match bs with [b] => [b] | _ => regroup (all_cells bs) end.

Section Arrays.
Context {F : Type} (N : xnums F).

(** A number that survives its dtype: the text of a float is a word that is parsed to the same number,
    the bytes have the width of the dtype and decode to the same number. *)
Definition num_ok (dt : string) (v : xnum F) : Prop :=
  (match v with
   | Int _ => startswith dt "float" = false
   | Real f => startswith dt "float" = true /\ word (x_fmt N dt f) = true /\ x_parse N dt (x_fmt N dt f) = Some f
   end) /\
  (forall w, dget dt dtype_width = Some w -> length (enc (x_codec N dt) v) = w) /\ exact (x_codec N dt) v.
Definition shape_size (tail : list nat) : nat := fold_right Nat.mul 1 tail.
(** An array of a known dtype: every row has as many numbers as its shape says. *)
Definition arr_ok (a : xarr F) : Prop :=
  In (xa_dtype a) (dkeys numpy_to_xdmf_dtype) /\
  Forall (fun r => length r = shape_size (xa_tail a) /\ Forall (num_ok (xa_dtype a)) r) (xa_rows a).
(** What the format needs in addition: in XML some dtypes have no format; the mesh writer takes at
    most two dimensions, the time series reader does not read empty arrays. *)
Definition format_ok (ts : bool) (format : string) (a : xarr F) : Prop :=
  format = "HDF" \/ format = "Binary" \/
  format = "XML" /\ In (xa_dtype a) text_dtypes /\
    (if ts then concat (xa_rows a) <> [] else length (xa_tail a) <= 1).
(** Shapes XDMF has a name for. *)
Definition attribute_ok (tail : list nat) : Prop := exists s, attribute_type tail = Ok s.

(** Point data: arrays under different names. *)
Definition pd_ok (ts : bool) (format : string) (pd : dict (xarr F)) : Prop :=
  NoDup (dkeys pd) /\ Forall (fun na => arr_ok (snd na) /\ format_ok ts format (snd na) /\ attribute_ok (xa_tail (snd na))) pd.
(** Cell data: one list of rows per block. *)
Definition cd_whole (c : xcd (F := F)) : xarr F := XArr (cd_dtype c) (cd_tail c) (concat (cd_rows c)).
Definition cd_ok (ts : bool) (format : string) (bs : list block) (cd : dict (xcd (F := F))) : Prop :=
  NoDup (dkeys cd) /\ (bs = [] -> cd = []) /\
  Forall (fun nc => map (@length _) (cd_rows (snd nc)) = map blen bs /\
                    arr_ok (cd_whole (snd nc)) /\ format_ok ts format (cd_whole (snd nc)) /\ attribute_ok (cd_tail (snd nc))) cd.
(** The same cell data, distributed over other blocks with the same cells. *)
Definition recut (bs : list block) (cd : dict (xcd (F := F))) : dict (xcd (F := F)) :=
  map (fun nc => (fst nc, XCd (cd_dtype (snd nc)) (cd_tail (snd nc)) (data_for bs (concat (cd_rows (snd nc)))))) cd.

(** The integer dtypes cells can have.  (numpy turns uint64 with the int64 type codes of a mixed
    topology into float64.) *)
Definition cell_dtype_ok (ts : bool) (format : string) (dt : string) (bs : list block) : Prop :=
  In dt ["int32"; "int64"; "uint32"; "uint64"] /\ (ts = false -> 1 < length bs -> dt <> "uint64") /\
  Forall (fun b => Forall (Forall (fun z => num_ok dt (Int z) /\ num_ok "int64" (Int z))) (bdata b)) bs /\
  (forall z, (0 <= z < 10)%Z -> num_ok dt (Int z) /\ num_ok "int64" (Int z)) /\
  (ts = true -> format = "XML" -> bs <> [] -> flat_map snd (all_cells bs) <> []).

(** A mesh that can be written in the given format. *)
Definition xmesh_ok (format : string) (m : xmesh (F := F)) : Prop :=
  In format ["XML"; "Binary"; "HDF"] /\
  (xa_tail (xm_points m) = [2] \/ xa_tail (xm_points m) = [3]) /\ arr_ok (xm_points m) /\ format_ok false format (xm_points m) /\
  xdmf_cells_ok false (xm_cells m) /\ cell_dtype_ok false format (xm_ctype m) (xm_cells m) /\
  pd_ok false format (xm_pd m) /\ cd_ok false format (xm_cells m) (xm_cd m).

(** A time step that can be written: [float(str(t))] is the time [t]. *)
Definition step_ok (format : string) (bs : list block) (s : step (F := F)) : Prop :=
  x_parse N "float64" (x_str N (sp_time s)) = Some (sp_time s) /\ pd_ok true format (sp_pd s) /\ cd_ok true format bs (sp_cd s).
(** A sequence of calls of [write_data]: the final state and the outcome of every call. *)
Fixpoint write_steps (format base h5name : string) (steps : list (step (F := F))) (w : tsw (F := F)) : tsw (F := F) * list (result unit) :=
  match steps with
  | [] => (w, [])
  | s :: steps' => let r := ts_write_data N format base h5name s w in
                   let rs := write_steps format base h5name steps' (fst r) in (fst rs, snd r :: snd rs)
  end.
End Arrays.

(** A file name that can be found again in the text of a DataItem. *)
Definition file_name (s : string) : Prop := lstrip s = s /\ char_in ":" s = false.
