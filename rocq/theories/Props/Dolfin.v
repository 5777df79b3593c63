(** Property C54: DOLFIN XML files. *)
From Coq Require Import Lia ZArith Permutation.
From Verif.Lib Require Import Base Facts Facts2 Text TextFacts Lines LinesFacts.
From Verif.Model Require Import Core Dolfin.
From Verif.Spec Require Import Core Dolfin.
From Verif.Proofs Require Import Dolfin Ugrid.
Import Model.Dolfin.

(** The array of the last block of every name *)
Lemma last_arrays {fl : floats} (m : dolfin_mesh fl) : do_cells m <> [] -> dolfin_names m -> exists l, lasts (do_data m) l /\
  forall name ds, In (name, ds) (do_data m) -> exists d, In (name, d) l /\ nth_error ds (length (do_cells m) - 1) = Some d.
Proof.
  intros Hne (_ & H). induction H as [|[n ds] cd (_ & _ & L & _) _ (l & HL & Hl)].
  - exists []. split; [constructor|]. intros name ds [].
  - cbn [snd] in L. assert (Hds : ds <> []) by (destruct ds; [destruct (do_cells m); [congruence|discriminate]|discriminate]).
    destruct (exists_last Hds) as (ds' & d & ->). exists ((n, d) :: l). split; [constructor; [cbn [fst snd]; eauto|exact HL]|].
    intros name ds0 [E|Hin].
    + injection E as <- <-. exists d. split; [now left|]. rewrite <- L, app_length. cbn [length]. rewrite nth_error_app2 by lia. replace (length ds' + 1 - 1 - length ds') with 0 by lia. reflexivity.
    + destruct (Hl name ds0 Hin) as (d' & H1 & H2). exists d'. split; [now right|exact H2].
Qed.
Lemma lasts_keys {fl : floats} cd (l : dict (dolfin_data fl)) : lasts cd l -> map fst l = map fst cd.
Proof. induction 1 as [|nd e cd l (E & _) _ IH]; [reflexivity|]. cbn [map]. now rewrite E, IH. Qed.
Lemma lasts_in {fl : floats} cd (l : dict (dolfin_data fl)) : lasts cd l -> forall e, In e l -> exists ds, In (fst e, ds) cd /\ exists ds', ds = ds' ++ [snd e].
Proof.
  induction 1 as [|[n ds] [n' d] cd l (E & ds' & E') _ IH]; intros e []; cbn [fst snd] in *.
  - subst. cbn [fst snd]. exists (ds' ++ [d]). split; [now left|eauto].
  - destruct (IH e H) as (ds0 & H1 & H2). exists ds0. split; [now right|exact H2].
Qed.

(** C54, for meshes whose last block is the only one of the written type: reading yields the points, the cells of that type and, for every
    name, the array of their data, whatever the order in which the operating system lists the files of the directory.
    (Missing for the full claim: meshes in which the last block is not the only one of the written type, see C54_blocks_refuted and
    C54_other_refuted.) *)
Theorem C54_data_partial {fl : floats} (Hfl : floats_ok fl) (m : dolfin_mesh fl) t w flat stem fs0 bs b :
  dolfin_good m t w -> dolfin_names m -> no_data_files stem (dkeys fs0) ->
  do_cells m = bs ++ [b] -> btype b = t -> Forall (fun b' => btype b' <> t) bs ->
  (forall name ds, In (name, ds) (do_data m) -> Forall2 (fun d b' => data_length d = blen b') ds (do_cells m)) ->
  exists fs, write_dolfin flat stem m fs0 = Ok fs /\ forall listing, Permutation listing (dkeys fs) ->
    exists out, read_dolfin stem listing fs = Ok out /\ dr_points out = map Some (do_points m) /\ dr_type out = t /\ dr_cells out = map Some (bdata b) /\
      Permutation (dkeys (dr_data out)) (dkeys (do_data m)) /\
      forall name ds, In (name, ds) (do_data m) -> exists d, nth_error ds (length bs) = Some d /\ dget name (dr_data out) = Some [all_set d].
Proof.
  intros Hg Hn Hno Hb Ht Hbs Hlen. assert (Hne : do_cells m <> []) by (rewrite Hb; now destruct bs).
  destruct (last_arrays m Hne Hn) as (l & HL & Hl). destruct (dolfin_written Hfl m t w flat stem fs0 l Hg Hn HL Hno) as (fs & Ew & R). exists fs. split; [exact Ew|].
  intros listing P. destruct (R listing P) as (sub & Ps & Er). clear R.
  assert (Ec : cells_of t (do_cells m) = bdata b).
  { rewrite Hb. clear - Ht Hbs. induction Hbs as [|b' bs H _ IH]; cbn [app]; rewrite cells_of_cons.
    - rewrite Ht, String.eqb_refl. cbn. now rewrite app_nil_r.
    - apply String.eqb_neq in H. rewrite H. exact IH. }
  rewrite Ec in Er. assert (Ef : forallb (fun e => Nat.eqb (data_length (snd e)) (length (bdata b))) l = true).
  { apply forallb_forall. intros e He. apply Nat.eqb_eq. destruct (lasts_in _ _ HL e He) as (ds & Hin & ds' & ->). pose proof (Hlen _ _ Hin) as F. rewrite Hb in F.
    apply Forall2_app_inv_l in F. destruct F as (b1 & b2 & F1 & F2 & E). inversion F2 as [|? y ? ? Hxy F3]; subst. inversion F3; subst. apply app_inj_tail in E. destruct E as [_ ->]. exact Hxy. }
  rewrite Ef in Er. eexists. split; [exact Er|]. cbn [dr_points dr_type dr_cells dr_data]. split; [reflexivity|]. split; [reflexivity|]. split; [reflexivity|].
  assert (Ek : dkeys (map (fun e => (fst e, [all_set (snd e)])) sub) = map fst sub) by (unfold dkeys; rewrite map_map; reflexivity). split.
  - rewrite Ek. eapply perm_trans; [apply Permutation_map, Ps|]. rewrite (lasts_keys _ _ HL). apply Permutation_refl.
  - intros name ds Hin. destruct (Hl name ds Hin) as (d & Hd & Hnth). exists d. split.
    + rewrite <- Hnth. f_equal. rewrite Hb, app_length. cbn. lia.
    + apply In_dget.
      * rewrite Ek. eapply Permutation_NoDup; [apply Permutation_map, Permutation_sym, Ps|]. rewrite (lasts_keys _ _ HL). apply Hn.
      * apply in_map_iff. exists (name, d). split; [reflexivity|]. eapply Permutation_in; [apply Permutation_sym, Ps|exact Hd].
Qed.
Print Assumptions C54_data_partial.
Definition ex_dolfin_mesh : dolfin_mesh int_floats :=
  DolfinMesh (F := int_floats) 3 [[0; 0; 0]; [1; 0; 0]; [0; 1; 0]; [0; 0; 1]]%Z
    [Block "triangle" [[0; 1; 2]; [1; 2; 3]]%Z; Block "tetra" [[0; 1; 2; 3]]%Z]
    [("a", [DInt [1; 2]%Z; DInt [-3]%Z]); ("b", [DUint [5; 6]%Z; DUint [7]%Z])].
Example C54_data_example : exists bs b, do_cells ex_dolfin_mesh = bs ++ [b] /\ btype b = "tetra" /\ Forall (fun b' => btype b' <> "tetra") bs /\
  dolfin_good ex_dolfin_mesh "tetra" 4 /\ dolfin_names ex_dolfin_mesh /\ no_data_files "mesh" ["other.xml"; "mesh.msh"] /\
  (forall name ds, In (name, ds) (do_data ex_dolfin_mesh) -> Forall2 (fun d b' => data_length d = blen b') ds (do_cells ex_dolfin_mesh)).
Proof.
  exists [Block "triangle" [[0; 1; 2]; [1; 2; 3]]%Z], (Block "tetra" [[0; 1; 2; 3]]%Z). split; [reflexivity|]. split; [reflexivity|]. split; [repeat constructor; discriminate|]. split; [|split; [|split]].
  - split; [now right|]. split; [repeat constructor|]. split; [left; split; [reflexivity|]; split; [reflexivity|]; eexists; split; [right; now left|reflexivity]|]. vm_compute. repeat constructor.
  - split; [repeat constructor; cbn; intuition discriminate|]. repeat (apply Forall_cons || apply Forall_nil); cbn; repeat split; try discriminate; repeat (apply Forall_cons || apply Forall_nil); cbn; try exact I; repeat constructor; lia.
  - repeat constructor.
  - intros name ds [E|[E|[]]]; injection E as <- <-; repeat constructor.
Qed.

(** C54, cells: without data, any number of blocks.  Reading yields one block with all cells of the written type, in order. *)
Theorem C54_cells {fl : floats} (Hfl : floats_ok fl) (m : dolfin_mesh fl) t w flat stem fs0 :
  dolfin_good m t w -> do_data m = [] -> no_data_files stem (dkeys fs0) ->
  exists fs, write_dolfin flat stem m fs0 = Ok fs /\ forall listing, Permutation listing (dkeys fs) ->
    read_dolfin stem listing fs = Ok (DolfinOut (map Some (do_points m)) t (map Some (cells_of t (do_cells m))) []).
Proof.
  intros Hg Hd Hno. assert (Hn : dolfin_names m) by (unfold dolfin_names; rewrite Hd; split; constructor).
  destruct (dolfin_written Hfl m t w flat stem fs0 [] Hg Hn ltac:(rewrite Hd; constructor) Hno) as (fs & Ew & R). exists fs. split; [exact Ew|]. intros listing P. destruct (R listing P) as (sub & Ps & Er).
  apply Permutation_sym, Permutation_nil in Ps. subst sub. exact Er.
Qed.
Print Assumptions C54_cells.
Example C54_cells_example : dolfin_good (DolfinMesh (F := int_floats) 2 [[0; 0]; [1; 0]; [0; 1]; [1; 1]]%Z
  [Block "triangle" [[0; 1; 2]]%Z; Block "line" [[0; 1]]%Z; Block "triangle" [[1; 2; 3]]%Z] []) "triangle" 3.
Proof.
  split; [now left|]. split; [repeat constructor|]. split; [right|vm_compute; repeat constructor]. split; [reflexivity|]. split; [reflexivity|].
  split; [eexists; split; [now left|reflexivity]|]. intros b [<-|[<-|[<-|[]]]]; discriminate.
Qed.

(** Any order of the vertices and cells in the document: the attribute [index] says where they belong. *)
Theorem C54_any_order {fl : floats} (Hfl : floats_ok fl) ns d ct t w (pts : list (list fl)) cells vs cs :
  d = 2 \/ d = 3 -> In (ct, t, w) [("triangle", "triangle", 3); ("tetrahedron", "tetra", 4)] ->
  Forall (fun p => length p = d) pts -> Forall (fun c => length c = w) cells -> Permutation vs (enumerate pts) -> Permutation cs (enumerate cells) ->
  exists st, read_dolfin_mesh
    (Elem "dolfin" ns [Elem "mesh" [("celltype", ct); ("dim", str_of_nat d)]
      [Elem "vertices" [("size", str_of_nat (length pts))] (map (fun ip => Elem "vertex" (("index", str_of_nat (fst ip)) :: combine ["x"; "y"; "z"] (map ffmt (snd ip))) []) vs);
       Elem "cells" [("size", str_of_nat (length cells))]
         (map (fun ic => Elem ct (("index", str_of_nat (fst ic)) :: map (fun kc => (("v" ++ str_of_nat (fst kc))%string, str_of_Z (snd kc))) (enumerate (snd ic))) []) cs)]]) = Ok st /\
    ds_points st = Some (map Some pts) /\ ds_type st = Some (t, w) /\ ds_cells st = Some (map Some cells).
Proof.
  intros Hd Ht Hp Hc Pv Pc. eexists. split; [apply (doc_ok Hfl ns d t ct w pts cells vs cs); auto|split; [reflexivity|split; reflexivity]].
  destruct Ht as [E|[E|[]]]; injection E as <- <- <-; [left|right]; auto.
Qed.
Print Assumptions C54_any_order.
Example C54_any_order_example : Permutation [(1, [1; 0]%Z); (0, [0; 0]%Z); (2, [0; 1]%Z)] (enumerate [[0; 0]; [1; 0]; [0; 1]]%Z).
Proof. apply perm_swap. Qed.

(** C54 fails for several blocks with data: the data of every block are written to the same file, so that those of the last block remain.
    If the last block does not have as many cells as there are cells of the written type, the written files cannot be read. *)
Theorem C54_blocks_refuted {fl : floats} (Hfl : floats_ok fl) (m : dolfin_mesh fl) t w flat stem fs0 bs b :
  dolfin_good m t w -> dolfin_names m -> no_data_files stem (dkeys fs0) -> do_data m <> [] ->
  (forall name ds, In (name, ds) (do_data m) -> Forall2 (fun d b' => data_length d = blen b') ds (do_cells m)) ->
  do_cells m = bs ++ [b] -> blen b <> length (cells_of t (do_cells m)) ->
  exists fs, write_dolfin flat stem m fs0 = Ok fs /\ forall listing, Permutation listing (dkeys fs) -> read_dolfin (fl := fl) stem listing fs = Err ValueError.
Proof.
  intros Hg Hn Hno Hd Hlen Hb Hne. assert (Hne' : do_cells m <> []) by (rewrite Hb; now destruct bs).
  destruct (last_arrays m Hne' Hn) as (l & HL & Hl). destruct (dolfin_written Hfl m t w flat stem fs0 l Hg Hn HL Hno) as (fs & Ew & R). exists fs. split; [exact Ew|].
  intros listing P. destruct (R listing P) as (sub & Ps & ->). clear R.
  assert (Ef : forallb (fun e => Nat.eqb (data_length (snd e)) (length (cells_of t (do_cells m)))) l = false).
  { destruct l as [|e l']; [inversion HL; congruence|]. cbn [forallb]. assert (E : data_length (snd e) = blen b).
    { destruct (lasts_in _ _ HL e ltac:(now left)) as (ds & Hin & ds' & ->). pose proof (Hlen _ _ Hin) as F. rewrite Hb in F.
      apply Forall2_app_inv_l in F. destruct F as (b1 & b2 & F1 & F2 & E). inversion F2 as [|? y ? ? Hxy F3]; subst. inversion F3; subst. apply app_inj_tail in E. destruct E as [_ ->]. exact Hxy. }
    rewrite E. apply Nat.eqb_neq in Hne. now rewrite Hne. }
  now rewrite Ef.
Qed.
Print Assumptions C54_blocks_refuted.
Example C54_blocks_example : let m := DolfinMesh (F := int_floats) 2 [[0; 0]; [1; 0]; [0; 1]; [1; 1]]%Z
    [Block "triangle" [[0; 1; 2]]%Z; Block "triangle" [[1; 2; 3]]%Z] [("a", [DInt [1]%Z; DInt [2]%Z])] in
  dolfin_good m "triangle" 3 /\ dolfin_names m /\ blen (Block "triangle" [[1; 2; 3]]%Z) <> length (cells_of "triangle" (do_cells m)).
Proof.
  split; [|split; [|vm_compute; discriminate]].
  - split; [now left|]. split; [repeat constructor|]. split; [right|vm_compute; repeat constructor]. split; [reflexivity|]. split; [reflexivity|].
    split; [eexists; split; [now left|reflexivity]|]. intros b [<-|[<-|[]]]; discriminate.
  - split; [repeat constructor; cbn; intuition discriminate|]. repeat (apply Forall_cons || apply Forall_nil); cbn; repeat split; try discriminate. repeat constructor.
Qed.
(** Or the cells silently get the data of other cells: here those of the lines. *)
Theorem C54_other_refuted : exists m fs out, dolfin_good m "triangle" 3 /\ dolfin_names m /\
  write_dolfin (fl := int_floats) true "mesh" m [] = Ok fs /\ read_dolfin (fl := int_floats) "mesh" (dkeys fs) fs = Ok out /\
  dget "a" (do_data m) = Some [DInt [1; 2]%Z; DInt [3; 4]%Z] /\ map btype (do_cells m) = ["triangle"; "line"] /\
  dr_type out = "triangle" /\ dget "a" (dr_data out) = Some [FInt [Some 3; Some 4]%Z].
Proof.
  exists (DolfinMesh (F := int_floats) 2 [[0; 0]; [1; 0]; [0; 1]; [1; 1]]%Z [Block "triangle" [[0; 1; 2]; [1; 2; 3]]%Z; Block "line" [[0; 1]; [1; 2]]%Z] [("a", [DInt [1; 2]%Z; DInt [3; 4]%Z])]).
  eexists. eexists. split; [|split; [|split; [vm_compute; reflexivity|split; [vm_compute; reflexivity|repeat split]]]].
  - split; [now left|]. split; [repeat constructor|]. split; [right|vm_compute; repeat constructor]. split; [reflexivity|]. split; [reflexivity|].
    split; [eexists; split; [now left|reflexivity]|]. intros b [<-|[<-|[]]]; discriminate.
  - split; [repeat constructor; cbn; intuition discriminate|]. repeat (apply Forall_cons || apply Forall_nil); cbn; repeat split; try discriminate. repeat constructor.
Qed.
Print Assumptions C54_other_refuted.
(** Files of data that an earlier mesh has left behind are read as data of the new mesh. *)
Theorem C54_stale_refuted : exists m1 m2 fs1 fs2 out, dolfin_good m2 "triangle" 3 /\ do_data m2 = [] /\
  write_dolfin (fl := int_floats) true "mesh" m1 [] = Ok fs1 /\ write_dolfin (fl := int_floats) true "mesh" m2 fs1 = Ok fs2 /\
  read_dolfin (fl := int_floats) "mesh" (dkeys fs2) fs2 = Ok out /\ dr_data out <> [].
Proof.
  exists (DolfinMesh (F := int_floats) 2 [[0; 0]; [1; 0]; [0; 1]]%Z [Block "triangle" [[0; 1; 2]]%Z] [("a", [DInt [1]%Z])]).
  exists (DolfinMesh (F := int_floats) 2 [[5; 5]; [7; 0]; [0; 9]]%Z [Block "triangle" [[2; 1; 0]]%Z] []).
  eexists. eexists. eexists. split; [|split; [reflexivity|split; [vm_compute; reflexivity|split; [vm_compute; reflexivity|split; [vm_compute; reflexivity|discriminate]]]]].
  split; [now left|]. split; [repeat constructor|]. split; [right|vm_compute; repeat constructor]. split; [reflexivity|]. split; [reflexivity|].
  split; [eexists; split; [now left|reflexivity]|]. intros b [<-|[]]; discriminate.
Qed.
Print Assumptions C54_stale_refuted.
