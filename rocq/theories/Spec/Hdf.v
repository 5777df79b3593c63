(** Vocabulary for the formats that are stored in HDF5 files (C55, C63, C64). *)
From Coq Require Import Sorting.Permutation.
From Verif.Lib Require Import Base Text.
From Verif.Model Require Import Core Numpy Hdf.
From Verif.Spec Require Import Core.

Section Hdf.
Context {F : Type}.
Definition count (v : hval F) : nat := match v with HInts a => length (nd_flat a) | HReals a => length (nd_flat a) end.
(** An array with n entries (numbers, or arrays of numbers) *)
Definition array_of (n : nat) (v : hval F) : Prop := exists s, hv_shape v = n :: s /\ count v = fold_right Nat.mul 1 (n :: s).
(** Names that HDF5 does not take for paths *)
Definition good_name (s : string) : Prop := s <> "" /\ s <> "." /\ char_in "/" s = false.

(** A mesh as the constructor makes it: all points have the same number of coordinates, the cells of a block the same number of nodes,
    and there is an entry of point data for every point and of cell data for every cell. *)
Record hdf_mesh (m : hmesh F) : Prop := {
  hdf_points : Forall (fun p => length p = hm_dim m) (hm_points m);
  hdf_blocks : Forall (fun b => known_type (btype b) /\ exists w, Forall (fun c => length c = w) (bdata b)) (hm_cells m);
  hdf_pd : Forall (fun kv => good_name (fst kv) /\ array_of (length (hm_points m)) (snd kv)) (hm_pd m);
  hdf_pd_names : NoDup (map fst (hm_pd m));
  hdf_cd : Forall (fun kv => good_name (fst kv) /\ Forall2 (fun v b => array_of (length (bdata b)) v) (snd kv) (hm_cells m)) (hm_cd m);
  hdf_cd_names : NoDup (map fst (hm_cd m)) }.
(** No array is empty (compressed datasets are not). *)
Definition none_empty (m : hmesh F) : Prop :=
  hm_points m <> [] /\ 0 < hm_dim m /\
  Forall (fun b => bdata b <> [] /\ Forall (fun c => c <> []) (bdata b)) (hm_cells m) /\
  Forall (fun kv => count (snd kv) <> 0) (hm_pd m) /\ Forall (fun kv => Forall (fun v => count v <> 0) (snd kv)) (hm_cd m).

(** The cells of the last block of a type *)
Fixpoint last_block (t : string) (bs : list block) : list cell :=
  match bs with
  | [] => []
  | b :: bs' => if existsb (fun c => String.eqb (btype c) t) bs' then last_block t bs' else if String.eqb (btype b) t then bdata b else []
  end.
Definition distinct_types (m : hmesh F) : Prop := NoDup (map btype (hm_cells m)).

(** The same numbers in an array without its dimensions of length 1 after the first *)
Definition flat_of (v : hval F) : list Z + list F := match v with HInts a => inl (nd_flat a) | HReals a => inr (nd_flat a) end.

(** H5M: the point data that are written, with the numbers of the points if asked for; the types that are written *)
Definition with_ids (ids : bool) (m : hmesh F) : dict (hval F) :=
  if ids && negb (dmem "GLOBAL_ID" (hm_pd m)) then hm_pd m ++ [("GLOBAL_ID", HInts (Nda [length (hm_points m)] (map Z.of_nat (seq 1 (length (hm_points m))))))] else hm_pd m.
Definition h5m_types : list string := ["line"; "triangle"; "tetra"].
Definition in_h5m (b : block) : bool := smem (btype b) h5m_types.
End Hdf.
