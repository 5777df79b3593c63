(** Vocabulary for MED files (C55, C64). *)
From Coq Require Import Sorting.Permutation.
From Verif.Lib Require Import Base Text Lines.
From Verif.Model Require Import Core Tables Abaqus Numpy Hdf Med.
From Verif.Spec Require Import Core Hdf.

Section Med.
Context {F : Type}.
(** Arrays with one number per point or cell are read as one-dimensional arrays. *)
Definition squeezed_shape (s : list nat) : list nat :=
  match s with [n; 1] | [n; 1; 1] => [n] | [n; 1; c] => [n; c] | _ => s end.
Definition squeezed (v : hval F) : hval F :=
  match v with HInts a => HInts (Nda (squeezed_shape (nd_shape a)) (nd_flat a)) | HReals a => HReals (Nda (squeezed_shape (nd_shape a)) (nd_flat a)) end.
(** The point data and cell data that are stored as fields *)
Definition point_fields (m : hmesh F) : list string := filter (fun n => negb (String.eqb n "point_tags")) (map fst (hm_pd m)).
Definition cell_fields (m : hmesh F) : list string := filter (fun n => negb (String.eqb n "cell_tags")) (map fst (hm_cd m)).
Definition fields_of (m : hmesh F) : list string := point_fields m ++ cell_fields m.
(** Numbers per cell, vectors per cell, or vectors per node of the cells *)
Definition cellwise (b : block) (v : hval F) : Prop :=
  length (hv_shape v) <= 2 \/ exists n g c, hv_shape v = [n; g; c] /\ dget (btype b) num_nodes_per_cell = Some g.
Record med_ok (mm : med_mesh F) : Prop := {
  mo_mesh : hdf_mesh (mm_mesh mm);
  mo_types : distinct_types (mm_mesh mm);
  mo_cells : Forall (fun b => In (btype b) (dkeys meshio_to_med_type) /\ bdata b <> []) (hm_cells (mm_mesh mm));
  mo_points : hm_points (mm_mesh mm) <> [];
  mo_pd : Forall (fun kv => fst kv = "point_tags" \/ length (hv_shape (snd kv)) <= 2) (hm_pd (mm_mesh mm));
  mo_cd : Forall (fun kv => fst kv = "cell_tags" \/ Forall2 (fun v b => cellwise b v) (snd kv) (hm_cells (mm_mesh mm))) (hm_cd (mm_mesh mm));
  mo_some : hm_cd (mm_mesh mm) <> [] -> hm_cells (mm_mesh mm) <> [];
  (** no component names, or a list of them for every field *)
  mo_nom : forall l, mm_nom mm = Some l -> l <> [] -> length (fields_of (mm_mesh mm)) <= length l }.
(** Component names: words of at most 15 characters *)
Definition component (s : string) : Prop := word s = true /\ String.length s <= 15.
(** The component names of a field: the ones at its (first) position in the list of all fields *)
Definition nom_of (mm : med_mesh F) (name : string) : list string :=
  match mm_nom mm with
  | Some l => match dget name (combine (fields_of (mm_mesh mm)) l) with Some x => x | None => [] end
  | None => []
  end.
(** Families: the names of the sets by number.  The names have at most 80 ASCII characters, no blanks and no zero characters at the ends,
    and no slashes. *)
Definition ascii_only (s : string) : Prop := Forall (fun a => (N_of_ascii a < 128)%N) (list_ascii_of_string s).
Definition set_name (s : string) : Prop :=
  String.length s <= 80 /\ ascii_only s /\ lstrip s = s /\ rstrip s = s /\ rstrip_null s = s /\ char_in "/" s = false.
Definition families_ok (tags : option (zdict (list string))) : Prop :=
  match tags with Some l => NoDup (map fst l) /\ Forall (fun kv => Forall set_name (snd kv)) l | None => True end.
Definition family (tags : option (zdict (list string))) (id : Z) : option (list string) :=
  match tags with Some l => zget id l | None => None end.
End Med.
